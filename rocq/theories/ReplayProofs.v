(** Facts about the replay utility. *)
From Verif Require Import Base BaseProofs MetaModel LogSpec MetaProofs LogClaims ReplayModel ReplaySpec.
From Coq Require Import ZifyNat.

Lemma entry_len : forall e, entry_ok e -> 28 <= h_size (fst e).
Proof.
  intros e H. unfold entry_ok, entry_bytes in H. rewrite H, Zlen_app. unfold Zlen at 1. rewrite enc_hdr_length.
  pose proof (Zlen_nonneg _ (snd e)). unfold HDR. lia.
Qed.

Lemma rd_size_at : forall buf pre h post off, buf = pre ++ enc_hdr h ++ post -> off = Zlen pre ->
  0 <= h_size h < 2 ^ 31 -> exists h', rd_hdr buf off = Some h' /\ h_size h' = h_size h.
Proof.
  intros buf pre h post off Hb Ho Hs. unfold rd_hdr. erewrite rd_at; eauto using enc_hdr_length.
  eexists. split; [reflexivity|]. cbn [h_size]. unfold enc_hdr.
  rewrite firstn_app, le_length, Nat.sub_diag, firstn_O, app_nil_r.
  rewrite firstn_all2 by (rewrite le_length; lia). apply sle_le4. lia.
Qed.

Lemma entries_nonneg : forall es, 0 <= Zlen (flat_map entry_bytes es).
Proof. intros. apply Zlen_nonneg. Qed.

Lemma take_end : forall share fuel buf base off stride ep j, Zlen buf <= ep -> (0 < fuel)%nat ->
  take_entries share fuel buf base off stride ep j = Ok [].
Proof.
  intros share [|f] buf base off stride ep j H Hf; [lia|]. cbn [take_entries].
  destruct (Z.ltb_spec ep (Zlen buf)); [lia|reflexivity].
Qed.

(** With stride 1 every entry is taken. *)
Lemma take_all : forall share es fuel buf pre base off j, buf = pre ++ flat_map entry_bytes es ->
  Forall entry_ok es -> Zlen buf < 2 ^ 31 -> (length es < fuel)%nat ->
  take_entries share fuel buf base off 1 (Zlen pre) j = Ok (positions (base + Zlen pre) es).
Proof.
  intros share. induction es as [|e es IH]; intros fuel buf pre base off j Hb He HL Hf.
  - cbn [flat_map] in Hb. rewrite app_nil_r in Hb. subst buf. apply take_end; [lia|cbn in Hf; lia].
  - destruct fuel as [|f]; [cbn in Hf; lia|]. inversion He; subst. cbn [flat_map take_entries].
    pose proof (entry_len _ H1) as HE. unfold entry_ok in H1.
    assert (HZ : Zlen (pre ++ flat_map entry_bytes (e :: es)) = Zlen pre + Zlen (entry_bytes e) + Zlen (flat_map entry_bytes es)).
    { cbn [flat_map]. rewrite !Zlen_app. lia. }
    cbn [flat_map] in HZ, HL. pose proof (entries_nonneg es). pose proof (Zlen_nonneg _ pre).
    destruct (Z.ltb_spec (Zlen pre) (Zlen (pre ++ entry_bytes e ++ flat_map entry_bytes es))); [|lia].
    destruct (rd_size_at (pre ++ entry_bytes e ++ flat_map entry_bytes es) pre (fst e) (snd e ++ flat_map entry_bytes es) (Zlen pre)) as (h' & -> & Hh).
    { unfold entry_bytes at 1. rewrite <- !app_assoc. reflexivity. }
    { reflexivity. }
    { lia. }
    change (1 =? 0) with false. cbn [positions].
    rewrite Z.rem_1_r. change (0 =? 0) with true. cbn iota.
    replace (Zlen pre + h_size h') with (Zlen (pre ++ entry_bytes e)) by (rewrite Zlen_app; lia).
    rewrite (IH f (pre ++ entry_bytes e ++ flat_map entry_bytes es) (pre ++ entry_bytes e)); auto.
    + cbn [bind]. rewrite Zlen_app. do 3 f_equal. lia.
    + rewrite <- app_assoc. reflexivity.
    + cbn in Hf. lia.
Qed.

(** Without metadata sharing every entry is taken, whatever the stride. *)
Lemma take_all_strided : forall stride fuel es buf pre base d q, 0 < stride -> 0 <= d < stride -> 0 <= q ->
  buf = pre ++ flat_map entry_bytes es -> Forall entry_ok es -> Zlen buf < 2 ^ 31 ->
  Zlen (flat_map entry_bytes es) * stride - stride + d + 2 <= Z.of_nat fuel -> (0 < fuel)%nat ->
  take_entries false fuel buf base 0 stride (Zlen pre) (stride * q - d) = Ok (positions (base + Zlen pre) es).
Proof.
  intros stride. induction fuel as [|f IH]; intros es buf pre base d q Hs Hd Hq Hb He HL Hf Hp; [lia|].
  destruct es as [|e es].
  - cbn [flat_map] in Hb. rewrite app_nil_r in Hb. subst buf. apply take_end; lia.
  - inversion He; subst. cbn [take_entries].
    pose proof (entry_len _ H1) as HE. pose proof H1 as H1'. unfold entry_ok in H1.
    assert (HZ : Zlen (pre ++ flat_map entry_bytes (e :: es)) = Zlen pre + Zlen (entry_bytes e) + Zlen (flat_map entry_bytes es)).
    { cbn [flat_map]. rewrite !Zlen_app. lia. }
    cbn [flat_map] in HZ, HL, Hf |- *. rewrite Zlen_app in Hf. pose proof (entries_nonneg es). pose proof (Zlen_nonneg _ pre).
    destruct (Z.ltb_spec (Zlen pre) (Zlen (pre ++ entry_bytes e ++ flat_map entry_bytes es))); [|lia].
    destruct (rd_size_at (pre ++ entry_bytes e ++ flat_map entry_bytes es) pre (fst e) (snd e ++ flat_map entry_bytes es) (Zlen pre)) as (h' & -> & Hh).
    { unfold entry_bytes at 1. rewrite <- !app_assoc. reflexivity. }
    { reflexivity. }
    { lia. }
    destruct (Z.eqb_spec stride 0); [lia|].
    destruct (Z.eqb_spec (Z.rem (stride * q - d - 0) stride) 0) as [Hr|Hr].
    + assert (d = 0).
      { apply Z.rem_divide in Hr; [|lia]. destruct Hr as (k & Hk). assert (d = stride * (q - k)) by lia.
        destruct (Z_le_gt_dec (q - k) 0); [nia|]. nia. }
      subst d. cbn [positions].
      replace (Zlen pre + h_size h') with (Zlen (pre ++ entry_bytes e)) by (rewrite Zlen_app; lia).
      replace (stride * q - 0 + 1) with (stride * (q + 1) - (stride - 1)) by lia.
      rewrite (IH es (pre ++ entry_bytes e ++ flat_map entry_bytes es) (pre ++ entry_bytes e)); auto; try lia.
      * cbn [bind]. rewrite Zlen_app. do 3 f_equal. lia.
      * rewrite <- app_assoc. reflexivity.
      * nia.
      * assert (2 <= Z.of_nat (S f)) by nia. lia.
    + assert (0 < d).
      { destruct (Z.eq_dec d 0) as [->|]; [|lia]. exfalso. apply Hr. replace (stride * q - 0 - 0) with (q * stride) by lia. apply Z.rem_mul. lia. }
      replace (stride * q - d + 1) with (stride * q - (d - 1)) by lia.
      rewrite (IH (e :: es) (pre ++ entry_bytes e ++ flat_map entry_bytes es) pre); auto; try lia.
      * cbn [flat_map]. rewrite Zlen_app. lia.
      * assert (2 <= Z.of_nat (S f)) by nia. lia.
Qed.

(** ** The map of a metadata dataset *)
Lemma le_split : forall n m z, le (n + m) z = le n z ++ le m (z / 256 ^ Z.of_nat n).
Proof.
  induction n as [|n IH]; intros m z.
  - cbn [Nat.add le app]. change (256 ^ Z.of_nat 0) with 1. rewrite Z.div_1_r. reflexivity.
  - cbn [Nat.add le app]. rewrite IH. do 3 f_equal. rewrite Nat2Z.inj_succ, Z.pow_succ_r by lia.
    rewrite Z.div_div by lia. reflexivity.
Qed.

Lemma halves : forall z, 0 <= z < 2 ^ 31 -> low_half (le 8 z) = z /\ high_half (le 8 z) = 0.
Proof.
  intros z Hz. unfold low_half, high_half. change 8%nat with (4 + 4)%nat. rewrite le_split.
  rewrite firstn_app, le_length, skipn_app, le_length, Nat.sub_diag, firstn_O, skipn_O, app_nil_r.
  rewrite firstn_all2 by (rewrite le_length; lia). rewrite skipn_all2 by (rewrite le_length; lia). rewrite app_nil_l. split.
  - apply sle_le4. lia.
  - replace (z / 256 ^ Z.of_nat 4) with 0; [reflexivity|]. symmetry. apply Z.div_small. change (256 ^ Z.of_nat 4) with (2 ^ 32). lia.
Qed.

Lemma layout_word : forall secs w, 1 <= w <= Zlen secs ->
  rd (layout secs) (8 * w) 8 = Some (le 8 (section_start secs (Z.to_nat w))).
Proof.
  intros secs w Hw. unfold Zlen in Hw. remember (Z.to_nat (w - 1)) as i eqn:Ei.
  assert (Hi : (i < length secs)%nat) by lia.
  unfold layout. cbn zeta. set (f := fun k => _ + Zlen (concat (firstn (S k) secs))).
  assert (SQ : seq 0 (length secs) = seq 0 i ++ i :: seq (S i) (length secs - S i)).
  { replace (length secs) with (i + S (length secs - S i))%nat at 1 by lia. rewrite seq_app. reflexivity. }
  rewrite SQ, map_app. cbn [map].
  apply rd_at with (pre := words (Zlen secs :: map f (seq 0 i))) (post := words (map f (seq (S i) (length secs - S i))) ++ concat secs).
  - unfold words. cbn [flat_map]. rewrite flat_map_app. cbn [flat_map]. rewrite <- !app_assoc. do 3 f_equal.
    replace (Z.to_nat w) with (S i) by lia. reflexivity.
  - unfold Zlen. rewrite words_length. cbn [length]. rewrite map_length, seq_length. lia.
  - apply le_length.
Qed.

Lemma layout_first : forall secs, rd (layout secs) 0 8 = Some (le 8 (Zlen secs)).
Proof.
  intros secs. unfold layout. cbn zeta. cbn [words flat_map].
  eapply rd_at with (pre := []); [|reflexivity|apply le_length]. cbn [app]. rewrite <- app_assoc. reflexivity.
Qed.

Lemma firstn_plus : forall A a k (l : list A), firstn (a + k) l = firstn a l ++ firstn k (skipn a l).
Proof.
  intros A. induction a as [|a IH]; intros k l; [reflexivity|].
  destruct l; cbn [Nat.add firstn skipn app]; [rewrite firstn_nil; reflexivity|]. rewrite IH. reflexivity.
Qed.

Lemma layout_range : forall secs a b, (a <= b)%nat -> (b <= length secs)%nat ->
  rd (layout secs) (section_start secs a) (Z.to_nat (section_start secs b - section_start secs a)) =
  Some (concat (firstn (b - a) (skipn a secs))).
Proof.
  intros secs a b Hab Hb. set (mid := firstn (b - a) (skipn a secs)).
  assert (F1 : firstn b secs = firstn a secs ++ mid).
  { unfold mid. rewrite <- firstn_plus. f_equal. lia. }
  assert (F2 : concat secs = concat (firstn a secs) ++ concat mid ++ concat (skipn b secs)).
  { rewrite <- (firstn_skipn b secs) at 1. rewrite F1, !concat_app, <- app_assoc. reflexivity. }
  assert (HW := words_head secs). rewrite <- layout_start_words in HW.
  unfold layout. cbn zeta. eapply rd_at with (pre := _ ++ concat (firstn a secs)) (post := concat (skipn b secs)).
  - rewrite F2 at 1. rewrite <- app_assoc. reflexivity.
  - rewrite Zlen_app, HW. reflexivity.
  - unfold section_start. rewrite F1, concat_app, Zlen_app. unfold Zlen. lia.
Qed.

Lemma section_start_le : forall secs a b, (a <= b)%nat -> section_start secs a <= section_start secs b.
Proof.
  intros secs a b H. unfold section_start. replace b with (a + (b - a))%nat by lia.
  rewrite firstn_plus, concat_app, Zlen_app. pose proof (Zlen_nonneg _ (concat (firstn (b - a) (skipn a secs)))). lia.
Qed.
Lemma section_start_max : forall secs a, section_start secs a <= Zlen (layout secs).
Proof.
  intros secs a. destruct (Nat.le_gt_cases a (length secs)).
  - rewrite layout_Zlen. replace (Zlen (concat secs)) with (Zlen (concat (firstn (length secs) secs))) by (rewrite firstn_all; reflexivity).
    apply (section_start_le secs a (length secs)). auto.
  - unfold section_start. rewrite firstn_all2 by lia. rewrite layout_Zlen. lia.
Qed.

(** ** One process *)
Definition sec_bytes (secs : list (list entry)) : list (list Z) := map (flat_map entry_bytes) secs.

Lemma concat_sec_bytes : forall secs, concat (sec_bytes secs) = flat_map entry_bytes (concat secs).
Proof. induction secs as [|s secs IH]; [reflexivity|]. cbn [sec_bytes map concat]. rewrite flat_map_app. unfold sec_bytes in IH. rewrite IH. reflexivity. Qed.
Lemma firstn_sec_bytes : forall n secs, firstn n (sec_bytes secs) = sec_bytes (firstn n secs).
Proof. intros. unfold sec_bytes. apply firstn_map. Qed.
Lemma skipn_sec_bytes : forall n secs, skipn n (sec_bytes secs) = sec_bytes (skipn n secs).
Proof. intros. unfold sec_bytes. apply skipn_map. Qed.

Lemma positions_app : forall a p b, positions p (a ++ b) = positions p a ++ positions (p + Zlen (flat_map entry_bytes a)) b.
Proof.
  induction a as [|e a IH]; intros p b; cbn [app positions flat_map]; [rewrite Zlen_nil, Z.add_0_r; reflexivity|].
  rewrite IH, Zlen_app, Z.add_assoc. reflexivity.
Qed.

Lemma entries_short : forall es, Forall entry_ok es -> Z.of_nat (length es) <= Zlen (flat_map entry_bytes es).
Proof.
  induction 1 as [|e es He _ IH]; [cbn; lia|]. cbn [flat_map length]. rewrite Zlen_app. pose proof (entry_len _ He). unfold entry_ok in He. lia.
Qed.

Definition part (a b : nat) (secs : list (list entry)) : list entry := concat (firstn (b - a) (skipn a secs)).

(** The reads of the map by one process. *)
Lemma read_bounds : forall secs a b, (a <= b)%nat -> (b <= length secs)%nat -> (1 <= b)%nat -> 1 <= Zlen secs ->
  Zlen (meta_dataset secs) < 2 ^ 31 ->
  let md := meta_dataset secs in
  let st := section_start (sec_bytes secs) a in
  let en := section_start (sec_bytes secs) b in
  rd_i64 md 0 = Some (Zlen secs) /\
  (exists b1, rd md (Z.of_nat a * 8) 8 = Some b1 /\ (if Z.of_nat a * 8 =? 0 then i32 (8 * (Zlen secs + 1)) else low_half b1) = st) /\
  rd md (Z.of_nat b * 8) 8 = Some (le 8 en) /\ low_half (le 8 en) = en /\ high_half (le 8 en) = 0 /\ st <= en /\
  rd md st (Z.to_nat (en - st)) = Some (flat_map entry_bytes (part a b secs)).
Proof.
  intros secs a b Hab Hb H1b Hn HL md st en.
  assert (ZL : Zlen (sec_bytes secs) = Zlen secs) by (unfold sec_bytes; apply Zlen_map).
  assert (LB : length (sec_bytes secs) = length secs) by (unfold sec_bytes; apply map_length).
  change md with (layout (sec_bytes secs)). change (meta_dataset secs) with (layout (sec_bytes secs)) in HL.
  assert (P : forall i, 0 <= section_start (sec_bytes secs) i < 2 ^ 31).
  { intros i. pose proof (section_start_max (sec_bytes secs) i). split; [|lia]. unfold section_start.
    pose proof (Zlen_nonneg _ (sec_bytes secs)). pose proof (Zlen_nonneg _ (concat (firstn i (sec_bytes secs)))). lia. }
  split; [|split; [|split; [|split; [|split; [|split]]]]].
  - unfold rd_i64. rewrite layout_first. cbn [option_map]. rewrite ZL. rewrite sle_le8; [reflexivity|].
    rewrite layout_Zlen, ZL in HL. pose proof (Zlen_nonneg _ (concat (sec_bytes secs))). lia.
  - destruct a as [|a].
    + eexists. split; [apply layout_first|]. cbn. unfold st, section_start. cbn [firstn concat]. rewrite Zlen_nil, ZL, Z.add_0_r.
      apply i32_id. pose proof (P 0%nat) as P0. unfold section_start in P0. cbn [firstn concat] in P0. rewrite Zlen_nil, ZL in P0. lia.
    + eexists. split.
      * rewrite Z.mul_comm. apply layout_word. rewrite ZL. unfold Zlen. lia.
      * destruct (Z.eqb_spec (Z.of_nat (S a) * 8) 0); [lia|]. rewrite Nat2Z.id. apply halves. apply P.
  - rewrite Z.mul_comm, layout_word by (rewrite ZL; unfold Zlen; lia). rewrite Nat2Z.id. reflexivity.
  - apply halves. apply P.
  - apply halves. apply P.
  - apply section_start_le. exact Hab.
  - unfold st, en. rewrite layout_range by lia. rewrite skipn_sec_bytes, firstn_sec_bytes, concat_sec_bytes. reflexivity.
Qed.

Lemma part_ok : forall a b secs, Forall (Forall entry_ok) secs -> Forall entry_ok (part a b secs).
Proof.
  intros a b secs H. unfold part. apply Forall_concat. apply Forall_forall. intros x Hx.
  rewrite Forall_forall in H. apply H.
  assert (In x (skipn a secs)). { rewrite <- (firstn_skipn (b - a) (skipn a secs)). apply in_or_app. auto. }
  rewrite <- (firstn_skipn a secs). apply in_or_app. auto.
Qed.

Lemma part_len : forall a b secs, (a <= b)%nat -> Forall (Forall entry_ok) secs ->
  Zlen (flat_map entry_bytes (part a b secs)) <= Zlen (meta_dataset secs).
Proof.
  intros a b secs Hab _. unfold part. rewrite <- concat_sec_bytes, <- firstn_sec_bytes, <- skipn_sec_bytes.
  change (meta_dataset secs) with (layout (sec_bytes secs)). rewrite layout_Zlen.
  pose proof (Zlen_nonneg _ (sec_bytes secs)).
  assert (Zlen (concat (firstn (b - a) (skipn a (sec_bytes secs)))) <= Zlen (concat (sec_bytes secs))); [|lia].
  rewrite <- (firstn_skipn a (sec_bytes secs)) at 2. rewrite <- (firstn_skipn (b - a) (skipn a (sec_bytes secs))) at 2.
  rewrite !concat_app, !Zlen_app. pose proof (Zlen_nonneg _ (concat (firstn a (sec_bytes secs)))).
  pose proof (Zlen_nonneg _ (concat (skipn (b - a) (skipn a (sec_bytes secs))))). lia.
Qed.

Lemma window_many : forall secs np r, Zlen (meta_dataset secs) < 2 ^ 31 -> 1 <= np <= Zlen secs -> 0 <= r < np ->
  let a := Z.to_nat (r * Zlen secs / np) in
  let b := Z.to_nat ((r + 1) * Zlen secs / np) in
  replay_window r np (meta_dataset secs) =
    Ok (Some (section_start (sec_bytes secs) a, 0, 1, flat_map entry_bytes (part a b secs))) /\ (a <= b)%nat /\ (b <= length secs)%nat.
Proof.
  intros secs np r HL Hnp Hr a b. set (n := Zlen secs) in *.
  assert (A0 : 0 <= r * n / np) by (apply Z.div_pos; nia).
  assert (AB : r * n / np <= (r + 1) * n / np) by (apply Z.div_le_mono; nia).
  assert (B1 : (r + 1) * n / np <= n) by (apply Z.div_le_upper_bound; nia).
  assert (B0 : 1 <= (r + 1) * n / np) by (apply Z.div_le_lower_bound; nia).
  destruct (read_bounds secs a b) as (R1 & (b1 & R2 & R3) & R4 & R5 & R6 & R7 & R8);
    [unfold a, b; lia|unfold b, n, Zlen in *; lia|unfold b; lia|unfold n in *; lia|exact HL|].
  split; [|split; [unfold a, b; lia|unfold b, n, Zlen in *; lia]].
  fold n in R1, R3. unfold replay_window. rewrite R1. destruct (Z.leb_spec n 0); [lia|].
  replace (Z.of_nat a * 8) with (r * n / np * 8) in * by (unfold a; lia).
  replace (Z.of_nat b * 8) with ((r + 1) * n / np * 8) in * by (unfold b; lia).
  rewrite R2, R3. destruct (Z.leb_spec np n); [|lia].
  rewrite R4, R5, R6.
  destruct (Z.ltb_spec (section_start (sec_bytes secs) b) (section_start (sec_bytes secs) a)); [lia|].
  rewrite R8. reflexivity.
Qed.

Lemma replay_many : forall share secs np r, Forall (Forall entry_ok) secs -> Zlen (meta_dataset secs) < 2 ^ 31 ->
  1 <= np <= Zlen secs -> 0 <= r < np ->
  let a := Z.to_nat (r * Zlen secs / np) in
  let b := Z.to_nat ((r + 1) * Zlen secs / np) in
  replay_meta share r np (meta_dataset secs) = Ok (positions (section_start (sec_bytes secs) a) (part a b secs)).
Proof.
  intros share secs np r HE HL Hnp Hr a b.
  destruct (window_many secs np r HL Hnp Hr) as (W & Hab & _). fold a b in W, Hab.
  unfold replay_meta. rewrite W. cbn [bind]. unfold take_fuel.
  pose proof (part_ok a b secs HE) as PO. pose proof (part_len a b secs Hab HE) as PL.
  rewrite <- (Z.add_0_r (section_start (sec_bytes secs) a)) at 2.
  apply (take_all share (part a b secs) _ _ [] (section_start (sec_bytes secs) a) 0 0).
  - reflexivity.
  - exact PO.
  - lia.
  - pose proof (entries_short _ PO). change (Z.max 1 1) with 1. lia.
Qed.

Lemma stride_pos : forall np n st, 1 <= n < np ->
  let first := np * st / n + (if (np * st) mod n =? 0 then 1 else 0) in
  let last := np * (st + 1) / n - (if (np * (st + 1)) mod n =? 0 then 1 else 0) in first <= last.
Proof.
  intros np n st H. cbv zeta.
  pose proof (Z.div_mod (np * st) n ltac:(lia)) as D1. pose proof (Z.mod_pos_bound (np * st) n ltac:(lia)) as M1.
  pose proof (Z.div_mod (np * (st + 1)) n ltac:(lia)) as D2. pose proof (Z.mod_pos_bound (np * (st + 1)) n ltac:(lia)) as M2.
  set (q1 := np * st / n) in *. set (m1 := (np * st) mod n) in *.
  set (q2 := np * (st + 1) / n) in *. set (m2 := (np * (st + 1)) mod n) in *.
  assert (E : n * (q2 - q1) = m1 - m2 + np) by lia. clearbody q1 q2 m1 m2. clear D1 D2.
  remember (q2 - q1) as k. 
  destruct (Z.eqb_spec m1 0), (Z.eqb_spec m2 0).
  - assert (n < n * k) by lia. assert (1 < k) by (clear - H0 H; nia). lia.
  - assert (0 < n * k) by lia. assert (0 < k) by (clear - H0 H; nia). lia.
  - assert (0 < n * k) by lia. assert (0 < k) by (clear - H0 H; nia). lia.
  - assert (0 < n * k) by lia. assert (0 < k) by (clear - H0 H; nia). lia.
Qed.

Lemma replay_few : forall secs np r, Forall (Forall entry_ok) secs -> Zlen (meta_dataset secs) < 2 ^ 31 ->
  1 <= Zlen secs < np -> 0 <= r < np ->
  let a := Z.to_nat (r * Zlen secs / np) in
  replay_meta false r np (meta_dataset secs) = Ok (positions (section_start (sec_bytes secs) a) (part a (S a) secs)).
Proof.
  intros secs np r HE HL Hnp Hr a. set (n := Zlen secs) in *.
  assert (A0 : 0 <= r * n / np) by (apply Z.div_pos; nia).
  assert (A1 : r * n / np < n) by (apply Z.div_lt_upper_bound; nia).
  destruct (read_bounds secs a (S a)) as (R1 & (b1 & R2 & R3) & R4 & R5 & R6 & R7 & R8);
    [lia|unfold a, n, Zlen in *; lia|lia|unfold n in *; lia|exact HL|].
  fold n in R1, R3. unfold replay_meta, replay_window, take_fuel. rewrite R1. destruct (Z.leb_spec n 0); [lia|].
  replace (Z.of_nat (S a) * 8) with (r * n / np * 8 + 8) in * by (unfold a; lia).
  replace (Z.of_nat a * 8) with (r * n / np * 8) in * by (unfold a; lia).
  rewrite R2, R3. destruct (Z.leb_spec np n); [lia|].
  set (st := r * n / np * 8) in *.
  set (first := np * st / n + (if (np * st) mod n =? 0 then 1 else 0)).
  set (last := np * (st + 1) / n - (if (np * (st + 1)) mod n =? 0 then 1 else 0)).
  assert (HS : 1 <= last - first + 1).
  { pose proof (stride_pos np n st ltac:(lia)) as HQ. cbv zeta in HQ. fold first last in HQ. lia. }
  rewrite R4, R5, R6.
  destruct (Z.ltb_spec (section_start (sec_bytes secs) (S a)) (section_start (sec_bytes secs) a)); [lia|].
  rewrite R8. cbn [bind].
  pose proof (part_ok a (S a) secs HE) as PO. pose proof (part_len a (S a) secs ltac:(lia) HE) as PL.
  set (stride := last - first + 1) in *.
  rewrite <- (Z.add_0_r (section_start (sec_bytes secs) a)) at 2.
  replace 0 with (stride * 0 - 0) at 3 by lia.
  apply (take_all_strided stride _ (part a (S a) secs) _ [] (section_start (sec_bytes secs) a) 0 0); try lia.
  - reflexivity.
  - exact PO.
  - pose proof (entries_nonneg (part a (S a) secs)). rewrite Z.max_r by lia. nia.
Qed.

(** ** All processes *)
Definition replayed (r : res (list Z)) : list Z := match r with Ok l => l | _ => [] end.

Lemma section_start_sec : forall secs a, section_start (sec_bytes secs) a =
  8 * (Zlen secs + 1) + Zlen (flat_map entry_bytes (concat (firstn a secs))).
Proof.
  intros. unfold section_start. rewrite firstn_sec_bytes, concat_sec_bytes. unfold sec_bytes. rewrite Zlen_map. reflexivity.
Qed.

Lemma replay_concat : forall share secs np, Forall (Forall entry_ok) secs -> Zlen (meta_dataset secs) < 2 ^ 31 ->
  1 <= np <= Zlen secs -> forall k, 0 <= k <= np ->
  flat_map (fun r => replayed (replay_meta share r np (meta_dataset secs))) (zseq k) =
  positions (8 * (Zlen secs + 1)) (concat (firstn (Z.to_nat (k * Zlen secs / np)) secs)).
Proof.
  intros share secs np HE HL Hnp k. set (n := Zlen secs) in *. intros Hk. replace k with (Z.of_nat (Z.to_nat k)) in * by lia.
  induction (Z.to_nat k) as [|m IH].
  - cbn [Z.of_nat Z.mul]. rewrite Z.div_0_l by lia. reflexivity.
  - replace (Z.of_nat (S m)) with (Z.of_nat m + 1) in * by lia. rewrite zseq_succ by lia. rewrite flat_map_app, IH by lia.
    cbn [flat_map]. rewrite app_nil_r. rewrite (replay_many share secs np (Z.of_nat m)) by (auto; lia). cbn [replayed].
    fold n. set (a := Z.to_nat (Z.of_nat m * n / np)). set (b := Z.to_nat ((Z.of_nat m + 1) * n / np)).
    assert (AB : Z.of_nat m * n / np <= (Z.of_nat m + 1) * n / np) by (apply Z.div_le_mono; nia).
    assert (Hab : (a <= b)%nat) by (unfold a, b; lia).
    replace (firstn b secs) with (firstn a secs ++ firstn (b - a) (skipn a secs)).
    2: { rewrite <- firstn_plus. f_equal. lia. }
    rewrite concat_app, positions_app, section_start_sec. reflexivity.
Qed.

Lemma replay_once : forall share secs np, Forall (Forall entry_ok) secs -> Zlen (meta_dataset secs) < 2 ^ 31 ->
  1 <= np <= Zlen secs ->
  (forall r, 0 <= r < np -> exists l, replay_meta share r np (meta_dataset secs) = Ok l) /\
  flat_map (fun r => replayed (replay_meta share r np (meta_dataset secs))) (zseq np) = all_positions secs.
Proof.
  intros share secs np HE HL Hnp. split.
  - intros r Hr. rewrite replay_many by auto. eauto.
  - rewrite (replay_concat share secs np HE HL Hnp np) by lia. unfold all_positions.
    rewrite (Z.mul_comm np), Z.div_mul by lia. rewrite firstn_all2; [reflexivity|]. unfold Zlen. lia.
Qed.

Lemma positions_ge : forall es p x, In x (positions p es) -> p <= x.
Proof.
  induction es as [|e es IH]; intros p x H; [destruct H|]. destruct H as [<-|H]; [lia|]. apply IH in H.
  pose proof (Zlen_nonneg _ (entry_bytes e)). lia.
Qed.
Lemma positions_NoDup : forall es p, Forall entry_ok es -> NoDup (positions p es).
Proof.
  induction es as [|e es IH]; intros p H; cbn [positions]; constructor; inversion H; subst; auto.
  intros Hi. apply positions_ge in Hi. pose proof (entry_len _ H2). unfold entry_ok in H2. lia.
Qed.

(** Which process gets a section when there are more processes. *)
Lemma replay_covers : forall secs np, Forall (Forall entry_ok) secs -> Zlen (meta_dataset secs) < 2 ^ 31 ->
  1 <= Zlen secs < np ->
  (forall r, 0 <= r < np -> exists l, replay_meta false r np (meta_dataset secs) = Ok l) /\
  forall x, In x (all_positions secs) ->
    exists r l, 0 <= r < np /\ replay_meta false r np (meta_dataset secs) = Ok l /\ In x l.
Proof.
  intros secs np HE HL Hnp. split.
  - intros r Hr. rewrite replay_few by auto. eauto.
  - intros x Hx. unfold all_positions in Hx.
    assert (HS : exists a, (a < length secs)%nat /\ In x (positions (section_start (sec_bytes secs) a) (part a (S a) secs))).
    { assert (HG : forall k, (k <= length secs)%nat -> In x (positions (8 * (Zlen secs + 1)) (concat (firstn k secs))) ->
        exists a, (a < k)%nat /\ In x (positions (section_start (sec_bytes secs) a) (part a (S a) secs))).
      { induction k as [|k IH]; intros Hk Hi; [destruct Hi|].
        replace (S k) with (k + 1)%nat in Hi by lia. rewrite firstn_plus, concat_app, positions_app in Hi.
        apply in_app_or in Hi. destruct Hi as [Hi|Hi].
        - destruct (IH ltac:(lia) Hi) as (a & A1 & A2). exists a. split; [lia|exact A2].
        - exists k. split; [lia|]. rewrite section_start_sec. unfold part. replace (S k - k)%nat with 1%nat by lia. exact Hi. }
      apply HG; [lia|]. rewrite firstn_all. exact Hx. }
    destruct HS as (a & Ha & Hi). set (n := Zlen secs) in *.
    (* first process whose section is a: the smallest r with a * np <= r * n *)
    set (r := (Z.of_nat a * np + n - 1) / n).
    assert (Han : Z.of_nat a + 1 <= n) by (unfold n, Zlen; lia).
    pose proof (Z.div_mod (Z.of_nat a * np + n - 1) n ltac:(lia)) as D. pose proof (Z.mod_pos_bound (Z.of_nat a * np + n - 1) n ltac:(lia)) as M.
    fold r in D.
    assert (R1 : Z.of_nat a * np <= n * r < Z.of_nat a * np + n) by lia.
    assert (R2 : r * n / np = Z.of_nat a).
    { symmetry. apply (Z.div_unique _ _ _ (r * n - np * Z.of_nat a)); [left; lia|lia]. }
    assert (R3 : 0 <= r < np). { split; [nia|]. assert (n * r < n * np); [|nia]. nia. }
    exists r. eexists. split; [exact R3|]. rewrite replay_few by auto. fold n. rewrite R2, Nat2Z.id. split; [reflexivity|exact Hi].
Qed.
