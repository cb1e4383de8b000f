(** Proofs of the properties about the log and the metadata datasets. *)
From Verif Require Import Base BaseProofs Spec MetaModel QueueModel FlushModel IndexModel SysModel History
  LogSpec GeomProofs MetaProofs QueueProofs MdProofs FlushProofs.
From Coq Require Import ZifyNat ZifyN Permutation.

(** ** One request *)
Definition fits (w : wreq) : Prop :=
  h_size (w_hdr w) = 28 + Zlen (w_body w) /\ (w_selpos w <= length (w_body w))%nat /\
  0 <= h_flag (w_hdr w) < 64 /\ 0 <= h_did (w_hdr w) < 2 ^ 31 /\ h_size (w_hdr w) < 2 ^ 31 /\
  h_fsize (w_hdr w) = Zlen (w_data w).

Definition flag_check (f : Z -> Z) : bool := forallb (fun a => (0 <=? f a) && (f a <? 64)) (zseq 64).
Lemma flag_checked : forall f, flag_check f = true -> forall a, 0 <= a < 64 -> 0 <= f a < 64.
Proof.
  intros f H a Ha. unfold flag_check in H. rewrite forallb_forall in H.
  specialize (H a (proj2 (zseq_In 64 a) Ha)). apply andb_prop in H. rewrite Z.leb_le, Z.ltb_lt in H. auto.
Qed.

Definition shape_info (cfg : Z) (i d : dinfo) : Prop :=
  length (di_dims i) = length (di_dims d) /\ length (di_mdims i) = length (di_dims i) /\
  (has cfg CFG_SEL_ENCODE = true -> length (di_dsteps i) = length (di_dims i)).

Lemma firstn_len_le : forall A n (l : list A), (n <= length l)%nat -> length (firstn n l) = n.
Proof. intros. apply firstn_length_le. auto. Qed.

Lemma flat_map_len : forall A B (f : A -> list B) k l, Forall (fun x => length (f x) = k) l ->
  length (flat_map f l) = (length l * k)%nat.
Proof. induction 1; cbn; auto. rewrite app_length, H, IHForall. reflexivity. Qed.

Lemma mk_wreq_fits : forall cfg did dip d mdsize sels, sels <> [] -> shape_info cfg dip d -> 0 <= did < 2 ^ 31 ->
  Forall (fun b => length (b_start b) = di_ndim d /\ length (b_count b) = di_ndim d) sels ->
  28 + 12 + 8 * Z.of_nat (di_ndim d) * (1 + 2 * Zlen sels) + 16 * Zlen sels < 2 ^ 31 ->
  fits (mk_wreq cfg did dip mdsize sels).
Proof.
  intros cfg did dip d mdsize sels Hne (S1 & S2 & S3) Hd HB Hs.
  assert (HN : di_ndim d = di_ndim dip) by (unfold di_ndim; auto). rewrite HN in *. clear S1 HN d.
  unfold mk_wreq. set (rec := is_rec dip sels). set (nd := di_ndim dip) in *.
  set (mul := (1 <? length sels)%nat).
  set (encdim := if rec then (nd - 1)%nat else nd).
  set (enc := mul && (1 <? encdim)%nat && has cfg CFG_SEL_ENCODE).
  assert (Hrec : rec = true -> (0 < nd)%nat).
  { intros R. unfold rec, is_rec in R. destruct (di_mdims dip) eqn:M; [discriminate|]. cbn in S2. unfold nd, di_ndim. lia. }
  assert (Hl : Zlen sels = Z.of_nat (length sels)) by reflexivity.
  assert (Hpos : (0 < length sels)%nat) by (destruct sels; [congruence|cbn; lia]).
  assert (LB : Zlen (w_body (mk_wreq cfg did dip mdsize sels)) =
     (if rec then 8 else 0) + (if mul then 4 else 0) +
     (if enc then 8 * (Z.of_nat encdim - 1 + Z.of_nat (length sels) * 2)
      else 8 * (Z.of_nat encdim * Z.of_nat (length sels) * 2))).
  { unfold mk_wreq. fold rec. fold nd. fold mul. fold encdim. fold enc. cbn [w_body].
    rewrite !Zlen_app.
    assert (A1 : Zlen (if rec then le 8 (match sels with b :: _ => hd 0 (b_start b) | [] => 0 end) else []) = (if rec then 8 else 0))
      by (destruct rec; unfold Zlen; rewrite ?le_length; reflexivity).
    assert (A2 : Zlen (if mul then le 4 (Z.of_nat (length sels)) else []) = (if mul then 4 else 0))
      by (destruct mul; unfold Zlen; rewrite ?le_length; reflexivity).
    rewrite A1, A2. destruct enc eqn:E.
    - assert (HE : has cfg CFG_SEL_ENCODE = true /\ (1 < encdim)%nat).
      { unfold enc in E. apply andb_prop in E. destruct E as [E1 E2]. apply andb_prop in E1. destruct E1 as [_ E1].
        apply Nat.ltb_lt in E1. auto. }
      destruct HE as [HE1 HE2]. specialize (S3 HE1). fold nd in S3.
      unfold encode_words, Zlen. rewrite !words_length, app_length, !map_length, firstn_length, skipn_length, S3.
      change (length (di_dims dip)) with nd.
      assert (encdim = nd \/ (encdim = nd - 1)%nat) by (unfold encdim; destruct rec; auto). clear - H HE2. lia.
    - unfold encode_words, Zlen. cbn [words flat_map length Nat.add]. rewrite !words_length, app_length.
      assert (F1 : Forall (fun b => length (skipn (if rec then 1 else 0) (b_start b)) = encdim) sels).
      { revert HB. apply Forall_impl. intros b [L1 _]. rewrite skipn_length, L1. unfold encdim. clear. destruct rec; lia. }
      assert (F2 : Forall (fun b => length (skipn (if rec then 1 else 0) (b_count b)) = encdim) sels).
      { revert HB. apply Forall_impl. intros b [_ L1]. rewrite skipn_length, L1. unfold encdim. clear. destruct rec; lia. }
      rewrite (flat_map_len _ _ _ _ _ F1), (flat_map_len _ _ _ _ _ F2). cbn [length]. clear. nia. }
  unfold mk_wreq in LB |- *. fold rec in LB |- *. fold nd in LB |- *. fold mul in LB |- *. fold encdim in LB |- *. fold enc in LB |- *.
  unfold fits. cbn [w_body w_hdr h_size w_selpos h_flag h_did h_fsize w_data] in LB |- *. rewrite LB.
  change (Z.of_nat HDR) with 28.
  assert (HE : (encdim <= nd)%nat) by (unfold encdim; clear; destruct rec; lia).
  split; [destruct rec, mul, enc; lia|]. split.
  { unfold Zlen in LB. clear - LB Hpos. 
    assert (0 <= (if mul then 4 else 0) + (if enc then 8 * (Z.of_nat encdim - 1 + Z.of_nat (length sels) * 2) else 8 * (Z.of_nat encdim * Z.of_nat (length sels) * 2))).
    { destruct mul, enc; nia. }
    destruct rec; lia. }
  split; [destruct rec, mul, enc, (true && has cfg CFG_SEL_DEFLATE), (false && has cfg CFG_SEL_DEFLATE); vm_compute; intuition congruence|].
  split; [auto|]. split; [|reflexivity].
  rewrite Hl in Hs. clear - Hs HE Hpos Hrec.
  set (a := Z.of_nat encdim) in *. set (n := Z.of_nat (length sels)) in *. set (m := Z.of_nat nd) in *.
  assert (0 <= a <= m) by lia. assert (1 <= n) by lia.
  destruct rec, mul, enc; nia.
Qed.

Lemma compress_sel_eq : forall z zb r sz, exists f zb',
  compress_sel z zb r sz = (set_flag r f, sz, zb') /\ (f = h_flag (w_hdr r) \/ f = clear_bit (h_flag (w_hdr r)) FLAG_SEL_DEFLATE).
Proof.
  intros z zb r sz. unfold compress_sel.
  assert (Hid : set_flag r (h_flag (w_hdr r)) = r) by (destruct r as [[] ? ? ? ?]; reflexivity).
  destruct (has _ _).
  - destruct (z_deflate z _ _) as [okc out]. destruct okc.
    + cbn. eauto.
    + destruct (Z.ltb_spec (Z.max zb sz) sz); [lia|]. cbn. eauto.
  - exists (h_flag (w_hdr r)), zb. rewrite Hid. auto.
Qed.

Lemma make_ref_fits : forall r tgt md, fits r -> 8 < selsize_of r ->
  fits (make_ref r tgt md) /\ Z.of_nat HDR + Z.of_nat (w_selpos (make_ref r tgt md)) + 8 <= h_size (w_hdr (make_ref r tgt md)) /\
  w_data (make_ref r tgt md) = w_data r.
Proof.
  intros r tgt md (F1 & F2 & F3 & F4 & F5 & F6) Hs. unfold selsize_of in Hs. change (Z.of_nat HDR) with 28 in *.
  unfold make_ref. set (same := _ && _ && _). set (pos := if same then (w_selpos r - 8)%nat else w_selpos r).
  assert (Hp : (pos <= w_selpos r)%nat) by (unfold pos; clear; destruct same; lia).
  assert (HL : (pos + 8 < length (w_body r))%nat) by (unfold Zlen in F1; lia).
  unfold fits. cbn [w_body w_hdr h_size w_selpos h_flag h_did h_fsize w_data].
  assert (LL : Zlen (firstn pos (w_body r) ++ le 8 (w_metaoff tgt - md) ++ skipn (pos + 8) (w_body r)) = Zlen (w_body r)).
  { unfold Zlen. rewrite !app_length, firstn_length, le_length, skipn_length. lia. }
  rewrite LL. split; [|split; [lia|reflexivity]].
  split; [auto|]. split; [unfold Zlen in LL; lia|]. split; [|split; [auto|split; auto]].
  pose proof (flag_checked (fun a => clear_bit (Z.lor a FLAG_SEL_REF) FLAG_SEL_DEFLATE) ltac:(vm_compute; reflexivity) _ F3) as G1.
  cbn beta in G1. destruct same; auto.
  exact (flag_checked (fun a => clear_bit a FLAG_REC) ltac:(vm_compute; reflexivity) _ G1).
Qed.

Lemma set_flag_fits : forall r f, fits r -> 0 <= f < 64 -> fits (set_flag r f).
Proof. intros r f (F1 & F2 & F3 & F4 & F5 & F6) H. unfold fits, set_flag. cbn. auto 10. Qed.

Lemma shrink_fits : forall r sz, fits r -> 0 <= sz -> Z.of_nat HDR + Z.of_nat (w_selpos r) + sz <= h_size (w_hdr r) ->
  fits (shrink r sz).
Proof.
  intros r sz (F1 & F2 & F3 & F4 & F5 & F6) H0 H. unfold shrink. change (Z.of_nat HDR) with 28 in *.
  destruct (Z.ltb_spec (28 + Z.of_nat (w_selpos r) + sz) (h_size (w_hdr r))); [|unfold fits; auto 10].
  unfold fits, w_resize. cbn [w_body w_hdr h_size w_selpos h_flag h_did h_fsize w_data].
  change (Z.of_nat HDR) with 28. unfold Zlen in *. rewrite firstn_length.
  split; [lia|]. split; [lia|]. auto 10 with zarith.
Qed.
Lemma shrink_data : forall r sz, w_data (shrink r sz) = w_data r /\ h_did (w_hdr (shrink r sz)) = h_did (w_hdr r).
Proof. intros. unfold shrink. destruct (_ <? _); auto. Qed.

Lemma set_data_fits : forall r data, fits r -> fits (set_data r data).
Proof. intros r data (F1 & F2 & F3 & F4 & F5 & F6). unfold fits, set_data. cbn. auto 10. Qed.

Lemma ds_write_fits : forall z cfg infos st did sels data st' dip d,
  ds_write z cfg infos st did sels data = Ok st' -> sels <> [] ->
  nth_error infos (Z.to_nat did) = Some (Some dip) -> shape_info cfg dip d -> 0 <= did < 2 ^ 31 ->
  Forall (fun b => length (b_start b) = di_ndim d /\ length (b_count b) = di_ndim d) sels ->
  28 + 12 + 8 * Z.of_nat (di_ndim d) * (1 + 2 * Zlen sels) + 16 * Zlen sels < 2 ^ 31 ->
  exists w, k_wreqs st' = k_wreqs st ++ [w] /\ k_nflushed st' = k_nflushed st /\ fits w /\ w_data w = data.
Proof.
  intros z cfg infos st did sels data st' dip d H Hne Hn HS Hd HB Hm.
  unfold ds_write in H. destruct sels as [|b0 sels0] eqn:Es; [congruence|]. rewrite <- Es in *. clear Es. rewrite Hn in H.
  set (r := mk_wreq cfg did dip (k_mdsize st) sels) in *.
  assert (Fr : fits r) by (eapply mk_wreq_fits; eauto).
  unfold finish_meta in H.
  destruct (dedup cfg st r) as [[[r1 tbl] sz1]| |] eqn:ED; cbn [bind] in H; try discriminate.
  assert (G : fits r1 /\ 0 <= sz1 /\ Z.of_nat HDR + Z.of_nat (w_selpos r1) + sz1 <= h_size (w_hdr r1)).
  { unfold dedup in ED. assert (S0 : 0 <= selsize_of r /\ Z.of_nat HDR + Z.of_nat (w_selpos r) + selsize_of r <= h_size (w_hdr r)).
    { destruct Fr as (F1 & F2 & _). unfold selsize_of. change (Z.of_nat HDR) with 28. unfold Zlen in F1. lia. }
    destruct (has cfg CFG_METADATA_SHARE && (8 <? selsize_of r)) eqn:ES.
    - destruct (hash_find r (k_hash st)) as [[tgt|]| |]; cbn [bind] in ED; try discriminate.
      + injection ED as <- <- <-. apply andb_prop in ES. destruct ES as [_ ES]. apply Z.ltb_lt in ES.
        destruct (make_ref_fits r tgt (k_mdsize st) Fr ES) as (A & B & C). split; auto. split; [lia|auto].
      + injection ED as <- <- <-. split; auto.
    - injection ED as <- <- <-. split; auto. }
  destruct G as (G1 & G2 & G3).
  destruct (compress_sel_eq z (k_zbsize st) r1 sz1) as (f & zb' & EC & Hf). rewrite EC in H. cbn [bind] in H.
  injection H as <-. cbn [k_wreqs k_nflushed].
  exists (set_data (shrink (set_flag r1 f) sz1) data). split; auto. split; auto. split; [|reflexivity].
  apply set_data_fits, shrink_fits; auto. apply set_flag_fits; auto.
  destruct G1 as (_ & _ & G1 & _). destruct Hf as [->| ->]; auto.
  exact (flag_checked (fun a => clear_bit a FLAG_SEL_DEFLATE) ltac:(vm_compute; reflexivity) _ G1).
Qed.

(** ** Ranks *)
Definition in_file (w : wreq) : Prop :=
  0 <= h_foff (w_hdr w) < 2 ^ 63 /\ 0 <= h_fsize (w_hdr w) < 2 ^ 63.
Definition ext (w : wreq) : Z * Z := (h_foff (w_hdr w), h_fsize (w_hdr w)).

Record rk_inv (st : rank) (pd : list (list Z)) : Prop := mkrk {
  ri_data : map w_data (unflushed st) = pd;
  ri_fits : Forall fits (k_wreqs st);
  ri_nfl : (k_nflushed st <= length (k_wreqs st))%nat;
  ri_in : Forall in_file (flushed st);
  ri_pos : Forall (fun d => 0 < Zlen d < 2 ^ 63) pd }.

Lemma Forall_firstn : forall A (P : A -> Prop) n l, Forall P l -> Forall P (firstn n l).
Proof. intros A P n l H. revert n. induction H; intros [|n]; cbn; constructor; auto. Qed.

Lemma rk_inv0 : forall zb, rk_inv (mkrank [] 0 0 [] zb) [].
Proof. intros. constructor; cbn; auto. Qed.

Lemma pend_len : forall st pd, rk_inv st pd -> num_pending st = length pd.
Proof.
  intros st pd [H1 _ _ _ _]. unfold num_pending. rewrite <- H1, map_length. unfold unflushed. rewrite skipn_length. reflexivity.
Qed.

Lemma local_size_data : forall ws, Forall fits ws -> local_size ws = Zlen (flat_map w_data ws).
Proof.
  induction 1 as [|w ws Hw H IH]; [reflexivity|]. unfold local_size in *. cbn [map flat_map]. rewrite Zlen_app.
  destruct Hw as (_ & _ & _ & _ & _ & Hw). cbn [Zsum fold_right]. unfold Zsum in IH. rewrite IH, Hw. reflexivity.
Qed.

Lemma rk_size : forall st pd, rk_inv st pd -> local_size (unflushed st) = Zlen (concat pd) /\ local_bytes st = concat pd.
Proof.
  intros st pd [H1 H2 _ _ _]. assert (E : flat_map w_data (unflushed st) = concat pd) by (rewrite flat_map_concat_map, H1; auto).
  split; [|exact E]. rewrite local_size_data, E; auto. unfold unflushed. apply Forall_skipn. auto.
Qed.

Lemma places_app : forall a b off, places off (a ++ b) = places off a ++ places (off + Zlen (concat a)) b.
Proof.
  induction a; intros; cbn [app places concat]; [rewrite Zlen_nil, Z.add_0_r; auto|].
  rewrite IHa, Zlen_app, Z.add_assoc. reflexivity.
Qed.

Definition pext (p : Z * list Z) : Z * Z := (fst p, Zlen (snd p)).

Lemma assign_ext : forall ws b o, Forall fits ws ->
  map ext (map (fun w => set_foff w (h_foff (w_hdr w) + b)) (assign_foff o ws)) = map pext (places (o + b) (map w_data ws)).
Proof.
  intros ws b o H. revert o. induction H as [|w ws Hw H IH]; intros o; [reflexivity|].
  cbn [assign_foff map places]. rewrite IH. destruct Hw as (_ & _ & _ & _ & _ & Hw). f_equal.
  - unfold ext, pext, set_foff. cbn. rewrite Hw. reflexivity.
  - rewrite Hw. do 2 f_equal. lia.
Qed.
Lemma set_foff_fits : forall w o, fits w -> fits (set_foff w o).
Proof. intros w o H. exact H. Qed.
Lemma assign_fits : forall ws b o, Forall fits ws ->
  Forall fits (map (fun w => set_foff w (h_foff (w_hdr w) + b)) (assign_foff o ws)).
Proof. intros ws b o H. revert o. induction H; intros o; cbn; constructor; auto. Qed.
Lemma assign_fits0 : forall ws o, Forall fits ws -> Forall fits (assign_foff o ws).
Proof. intros ws o H. revert o. induction H; intros o; cbn; constructor; auto. Qed.

Lemma Zlen_concat_mono : forall (a b : list (list Z)), Zlen (concat (a ++ b)) = Zlen (concat a) + Zlen (concat b).
Proof. intros. rewrite concat_app, Zlen_app. reflexivity. Qed.

Lemma assign_in : forall ws b o, Forall fits ws -> 0 <= o + b -> o + b + Zlen (concat (map w_data ws)) < 2 ^ 63 ->
  Forall in_file (map (fun w => set_foff w (h_foff (w_hdr w) + b)) (assign_foff o ws)).
Proof.
  intros ws b o H. revert o. induction H as [|w ws Hw H IH]; intros o H0 H1; cbn [assign_foff map]; constructor.
  - destruct Hw as (_ & _ & _ & _ & _ & Hw). unfold in_file, set_foff. cbn [w_hdr h_foff h_fsize]. rewrite Hw.
    cbn [map concat] in H1. rewrite Zlen_app in H1. pose proof (Zlen_nonneg _ (w_data w)).
    pose proof (Zlen_nonneg _ (concat (map w_data ws))). clear - H0 H1 H2 H3. lia.
  - destruct Hw as (_ & _ & _ & _ & _ & Hw). cbn [map concat] in H1. rewrite Zlen_app in H1.
    pose proof (Zlen_nonneg _ (w_data w)). pose proof (Zlen_nonneg _ (concat (map w_data ws))).
    apply IH; rewrite Hw; clear - H0 H1 H2 H3; lia.
Qed.

Lemma rank_flushed_inv : forall st pd base, rk_inv st pd -> 0 <= base -> base + Zlen (concat pd) < 2 ^ 63 ->
  rk_inv (rank_flushed base st) [] /\
  map ext (flushed (rank_flushed base st)) = map ext (flushed st) ++ map pext (places base pd).
Proof.
  intros st pd base [H1 H2 H3 H4 H5] Hb Hs. unfold rank_flushed.
  set (nw := map _ (assign_foff 0 (unflushed st))).
  assert (HF : Forall fits (flushed st) /\ Forall fits (unflushed st)).
  { split; [apply Forall_firstn|apply Forall_skipn]; auto. }
  destruct HF as [HF1 HF2].
  assert (E : flushed (mkrank (flushed st ++ nw) (length (flushed st ++ nw)) (k_mdsize st) (k_hash st) (k_zbsize st)) = flushed st ++ nw).
  { unfold flushed at 1. cbn [k_nflushed k_wreqs]. apply firstn_all. }
  split.
  - constructor.
    + unfold unflushed. cbn [k_nflushed k_wreqs]. rewrite skipn_all. reflexivity.
    + cbn [k_wreqs]. apply Forall_app. split; auto. apply assign_fits. auto.
    + cbn [k_nflushed k_wreqs]. lia.
    + rewrite E. apply Forall_app. split; auto. apply assign_in; auto. rewrite H1. lia.
    + constructor.
  - rewrite E, map_app. f_equal. unfold nw. rewrite assign_ext by auto. rewrite H1. reflexivity.
Qed.

(** ** All ranks *)
Definition rexts (rs : list rank) : list (Z * Z) := flat_map (fun st => map ext (flushed st)) rs.

Lemma ranks_flushed_inv : forall rs p base, Forall2 rk_inv rs p -> 0 <= base -> base + Zlen (concat (concat p)) < 2 ^ 63 ->
  let rs' := map (fun q => rank_flushed (fst q) (snd q))
     (combine (exscan base (map (fun st => local_size (unflushed st)) rs)) rs) in
  Forall2 rk_inv rs' (emptied p) /\
  Permutation (rexts rs') (rexts rs ++ map pext (places base (concat p))).
Proof.
  intros rs p base HF. revert base. induction HF as [|st pd rs p HR HF IH]; intros base Hb Hs; [cbn; auto|].
  cbn [map exscan combine fst snd emptied concat] in *. rewrite Zlen_concat_mono in Hs.
  destruct (rk_size _ _ HR) as [S1 S2]. rewrite S1.
  pose proof (Zlen_nonneg _ (concat pd)) as P1. pose proof (Zlen_nonneg _ (concat (concat p))) as P2.
  destruct (rank_flushed_inv _ _ base HR Hb) as [R1 R2]; [clear - Hs P1 P2; lia|].
  destruct (IH (base + Zlen (concat pd))) as [I1 I2]; [clear - Hb P1; lia|clear - Hs; lia|].
  split; [constructor; auto|].
  cbn [rexts flat_map]. fold (rexts rs). rewrite R2, places_app, map_app.
  etransitivity; [apply Permutation_app_head; exact I2|].
  rewrite <- !app_assoc. apply Permutation_app_head.
  rewrite !app_assoc. apply Permutation_app_tail. apply Permutation_app_comm.
Qed.

Lemma file_written : forall rs p base f, Forall2 rk_inv rs p -> forall x,
  fold_left (fun f q => put f (fst q) (local_bytes (snd q)))
     (combine (exscan base (map (fun st => local_size (unflushed st)) rs)) rs) f x =
  put f base (concat (concat p)) x.
Proof.
  intros rs p base f HF x.
  assert (E : fold_left (fun f q => put f (fst q) (local_bytes (snd q)))
     (combine (exscan base (map (fun st => local_size (unflushed st)) rs)) rs) f = lay f base (map (@concat Z) p)).
  { unfold lay. rewrite (fold_combine_map _ _ _ (fun f p => put f (fst p) (snd p)) local_bytes).
    f_equal. clear f x. revert base. induction HF as [|st pd rs p HR HF IH]; intros base; [reflexivity|].
    destruct (rk_size _ _ HR) as [S1 S2]. cbn [map exscan combine]. rewrite S1, S2. f_equal. apply IH. }
  rewrite E. assert (C : concat (map (@concat Z) p) = concat (concat p)).
  { clear. induction p; cbn; auto. rewrite concat_app. congruence. }
  destruct (Z.lt_ge_cases x base) as [Hx|Hx]; [rewrite lay_out, put_out; auto; lia|].
  destruct (Z.lt_ge_cases x (base + Zlen (concat (concat p)))) as [Hy|Hy].
  - rewrite put_in by lia. pose proof (lay_get (map (@concat Z) p) f base) as G. rewrite C in G.
    transitivity (nth (Z.to_nat (x - base)) (get (lay f base (map (@concat Z) p)) base (length (concat (concat p)))) 0); [|rewrite G; reflexivity].
    rewrite nth_get by (unfold Zlen in Hy; lia). f_equal. lia.
  - rewrite lay_out, put_out; auto; try lia. rewrite C. lia.
Qed.

Lemma pending_some : forall rs p, Forall2 rk_inv rs p ->
  existsb (fun st => negb (num_pending st =? 0)%nat) rs = match concat p with [] => false | _ => true end.
Proof.
  induction 1 as [|st pd rs p HR HF IH]; [reflexivity|]. cbn [existsb concat]. rewrite (pend_len _ _ HR), IH.
  destruct pd; cbn; auto.
Qed.
Lemma sum_sizes : forall rs p, Forall2 rk_inv rs p ->
  Zsum (map (fun st => local_size (unflushed st)) rs) = Zlen (concat (concat p)).
Proof.
  induction 1 as [|st pd rs p HR HF IH]; [reflexivity|]. cbn [map concat Zsum fold_right]. rewrite Zlen_concat_mono.
  destruct (rk_size _ _ HR) as [S1 _]. unfold Zsum in IH. rewrite S1, IH. reflexivity.
Qed.
Lemma concat_pos : forall rs p, Forall2 rk_inv rs p -> concat p <> [] -> 0 < Zlen (concat (concat p)).
Proof.
  intros rs p H Hne. assert (F : Forall (fun d => 0 < Zlen d < 2 ^ 63) (concat p)).
  { clear Hne. induction H as [|st pd rs p HR HF IH]; [constructor|]. cbn. apply Forall_app. split; auto. apply HR. }
  destruct F as [|d ds Hd HF]; [congruence|]. cbn [concat]. rewrite Zlen_app. pose proof (Zlen_nonneg _ (concat ds)). lia.
Qed.
Lemma emptied_nil : forall p : waiting, concat p = [] -> emptied p = p.
Proof. induction p as [|a p IH]; intros H; [reflexivity|]. cbn in H. apply app_eq_nil in H. destruct H as [-> H]. cbn. f_equal. auto. Qed.
Lemma rank_assign_id : forall st, rk_inv st [] -> rank_assign st = st.
Proof.
  intros st [H1 _ _ _ _]. apply map_eq_nil in H1. unfold rank_assign. rewrite H1. cbn. rewrite app_nil_r.
  unfold unflushed in H1. unfold flushed. destruct st. cbn in *. f_equal.
  rewrite <- (firstn_skipn k_nflushed k_wreqs) at 2. rewrite H1, app_nil_r. reflexivity.
Qed.

(** ** Metadata datasets *)
Definition hdr_in (w : wreq) : Prop := fits w /\ in_file w.

Lemma meta_len_bytes : forall st, Forall fits (k_wreqs st) -> meta_len st = Zlen (meta_bytes st).
Proof.
  intros st H. unfold meta_len, meta_bytes. induction H as [|w ws Hw H IH]; [reflexivity|].
  cbn [map flat_map Zsum fold_right]. unfold Zsum in IH. rewrite IH, Zlen_app. f_equal.
  destruct Hw as (Hw & _). unfold wreq_bytes. rewrite Zlen_app, Hw. unfold Zlen at 2. rewrite enc_hdr_length. reflexivity.
Qed.

Lemma layout_ends : forall secs a, prefix_ends a (map (@Zlen Z) secs) =
  map (fun i => a + Zlen (concat (firstn (S i) secs))) (seq 0 (length secs)).
Proof.
  induction secs as [|s secs IH]; intros a; [reflexivity|].
  cbn [map prefix_ends length seq]. f_equal.
  - cbn. rewrite app_nil_r. reflexivity.
  - rewrite IH, <- seq_shift, map_map. apply map_ext. intros i. cbn [firstn concat]. rewrite !Zlen_app. lia.
Qed.

Lemma md_content_layout : forall rs, rs <> [] -> Forall (fun st => Forall fits (k_wreqs st)) rs ->
  md_content rs = layout (map meta_bytes rs) /\
  Zsum (meta_sizes rs) = 8 * (Zlen rs + 1) + Zlen (concat (map meta_bytes rs)).
Proof.
  intros rs Hne HF.
  assert (HM : map meta_len rs = map (@Zlen Z) (map meta_bytes rs)).
  { rewrite map_map. apply map_ext_Forall. revert HF. apply Forall_impl. intros. apply meta_len_bytes. auto. }
  assert (HW : Zlen (words (md_map rs)) = 8 * (Zlen rs + 1)).
  { unfold Zlen at 1. rewrite words_length. unfold md_map. cbn [length]. rewrite prefix_ends_length. unfold meta_sizes, Zlen.
    destruct rs; [congruence|]. cbn [map length]. rewrite map_length. lia. }
  assert (HPz : map (@Zlen Z) (md_pieces rs) = meta_sizes rs).
  { unfold md_pieces, meta_sizes. destruct rs as [|r0 rest]; [congruence|]. cbn [map] in HM |- *. injection HM as HM0 HM1.
    rewrite Zlen_app, HW, HM0, HM1. reflexivity. }
  assert (HC : concat (md_pieces rs) = words (md_map rs) ++ concat (map meta_bytes rs)).
  { unfold md_pieces. destruct rs as [|r0 rest]; [congruence|]. cbn [concat map]. rewrite app_assoc. reflexivity. }
  assert (HT : Zsum (meta_sizes rs) = Zlen (concat (md_pieces rs))).
  { rewrite <- HPz. generalize (md_pieces rs). induction l; [reflexivity|]. cbn [map concat Zsum fold_right]. rewrite Zlen_app.
    unfold Zsum in IHl. rewrite IHl. reflexivity. }
  assert (HO : words (md_map rs) ++ concat (map meta_bytes rs) = layout (map meta_bytes rs)).
  { unfold layout. rewrite map_length. f_equal. f_equal. unfold md_map. rewrite (Zlen_map _ _ meta_bytes rs). f_equal.
    assert (ML : length rs = length (map meta_bytes rs)) by (rewrite map_length; auto). rewrite ML.
    rewrite <- layout_ends. unfold meta_sizes. rewrite HM. destruct rs as [|r0 rest]; [congruence|].
    cbn [map prefix_ends]. f_equal; try f_equal; lia. }
  split.
  - unfold md_content. rewrite HT. replace (Z.to_nat (Zlen (concat (md_pieces rs)))) with (length (concat (md_pieces rs))) by (unfold Zlen; lia).
    rewrite <- HPz. change (fold_left _ _ _) with (lay (fun _ => 0) 0 (md_pieces rs)). rewrite lay_get, HC. exact HO.
  - rewrite HT, HC, Zlen_app, HW. reflexivity.
Qed.

Lemma layout_body : forall secs, Zlen secs < 2 ^ 63 -> md_body (layout secs) = Some (concat secs).
Proof.
  intros secs HL. unfold md_body, layout. pose proof (Zlen_nonneg _ secs) as HP.
  set (start := 8 * (Zlen secs + 1)). set (offs := map _ (seq 0 (length secs))).
  assert (HW : Zlen (words (Zlen secs :: offs)) = start).
  { unfold Zlen at 1. rewrite words_length. cbn [length]. unfold offs. rewrite map_length, seq_length. unfold start, Zlen. lia. }
  rewrite (rd_i64_at _ [] (Zlen secs) (words offs ++ concat secs)); [|cbn [words flat_map app]; rewrite <- app_assoc; reflexivity|reflexivity|lia].
  eapply rd_at with (pre := words (Zlen secs :: offs)) (post := []).
  - rewrite app_nil_r. reflexivity.
  - rewrite HW. reflexivity.
  - rewrite Zlen_app, HW. unfold start, Zlen. lia.
Qed.

Lemma hdr_in_ok : forall w, hdr_in w -> hdr_ok (w_hdr w).
Proof.
  intros w [(F1 & F2 & F3 & F4 & F5 & F6) [I1 I2]]. pose proof (Zlen_nonneg _ (w_body w)). unfold hdr_ok.
  change (2 ^ 31) with 2147483648 in *. lia.
Qed.

Lemma entry_headers_at : forall ws buf pre fuel, buf = pre ++ flat_map wreq_bytes ws -> Forall hdr_in ws ->
  (length ws < fuel \/ length ws = fuel)%nat -> entry_headers fuel buf (Zlen pre) = map w_hdr ws.
Proof.
  induction ws as [|w ws IH]; intros buf pre fuel Hb HF Hfuel.
  - cbn in Hb. rewrite app_nil_r in Hb. subst. destruct fuel; [reflexivity|]. cbn [entry_headers].
    unfold rd_hdr, rd. change (Z.of_nat (length pre)) with (Zlen pre). replace ((0 <=? Zlen pre) && (Zlen pre + Z.of_nat HDR <=? Zlen pre)) with false; [reflexivity|].
    symmetry. apply andb_false_intro2. apply Z.leb_gt. change (Z.of_nat HDR) with 28. lia.
  - destruct fuel; [cbn in Hfuel; lia|]. cbn [entry_headers map flat_map] in *.
    rewrite (rd_hdr_at buf pre (w_hdr w) (w_body w ++ flat_map wreq_bytes ws) (Zlen pre)); [|subst buf; unfold wreq_bytes; rewrite <- !app_assoc; reflexivity|reflexivity|].
    2:{ apply hdr_in_ok. exact (Forall_inv HF). }
    f_equal. destruct (Forall_inv HF) as [(F1 & _) _].
    rewrite F1. replace (Zlen pre + (28 + Zlen (w_body w))) with (Zlen (pre ++ wreq_bytes w)).
    + apply IH; [|exact (Forall_inv_tail HF)|cbn in Hfuel; lia]. subst buf. rewrite <- app_assoc. reflexivity.
    + unfold wreq_bytes. rewrite !Zlen_app. replace (Zlen (enc_hdr (w_hdr w))) with 28; [reflexivity|]. unfold Zlen. rewrite enc_hdr_length. reflexivity.
Qed.

Lemma wreq_bytes_len : forall ws, (length ws <= length (flat_map wreq_bytes ws))%nat.
Proof.
  induction ws; cbn [flat_map length]; [lia|]. rewrite app_length. unfold wreq_bytes at 1. rewrite app_length, enc_hdr_length.
  unfold HDR. lia.
Qed.

Lemma layout_headers : forall rs, Zlen rs < 2 ^ 63 -> Forall (fun st => Forall hdr_in (k_wreqs st)) rs ->
  md_headers (layout (map meta_bytes rs)) = flat_map (fun st => map w_hdr (k_wreqs st)) rs.
Proof.
  intros rs HL HF. unfold md_headers. rewrite layout_body by (rewrite Zlen_map; auto).
  assert (E : concat (map meta_bytes rs) = flat_map wreq_bytes (flat_map k_wreqs rs)).
  { rewrite <- flat_map_concat_map. unfold meta_bytes. clear. induction rs; cbn; auto. rewrite IHrs, flat_map_app. reflexivity. }
  rewrite E. change 0 with (Zlen (@nil Z)). rewrite (entry_headers_at (flat_map k_wreqs rs) _ []); auto.
  - clear. induction rs; cbn; auto. rewrite map_app, IHrs. reflexivity.
  - clear - HF. induction HF; cbn; [constructor|]. apply Forall_app. auto.
  - pose proof (wreq_bytes_len (flat_map k_wreqs rs)). lia.
Qed.

(** ** Histories *)
Record linv (cfg : Z) (f0 : bytemap) (g : gfile) (sets : list dinfo) (p : waiting) (evs : list flush) : Prop := mklinv {
  li_cfg : g_cfg g = cfg;
  li_infos : Forall2 (fun inf d => exists i, inf = Some i /\ shape_info cfg i d) (g_infos g) sets;
  li_ranks : Forall2 rk_inv (g_ranks g) p;
  li_np : g_ranks g <> [] /\ Zlen (g_ranks g) < 2 ^ 63;
  li_rec : Permutation (recorded g) (map pext (flat_map f_places evs));
  li_file : forall x, g_file g x = written f0 evs x;
  li_md : Forall (fun md => exists secs, md = layout secs /\ Forall whole_entries secs) (g_mdsets g) }.

Definition in_range (f : flush) : Prop := 0 <= f_at f /\ f_at f + Zlen (f_bytes f) < 2 ^ 63.

Lemma written_app : forall f0 a b, written f0 (a ++ b) = written (written f0 a) b.
Proof. intros. unfold written. apply fold_left_app. Qed.

Lemma put_ext : forall f g off bs x, (forall y, f y = g y) -> put f off bs x = put g off bs x.
Proof. intros. unfold put. rewrite H. reflexivity. Qed.

Lemma flush_linv : forall cfg f0 g sets p evs doff, linv cfg f0 g sets p evs -> Forall in_range (emit doff p) ->
  linv cfg f0 (flush_writes doff g) sets (emptied p) (evs ++ emit doff p).
Proof.
  intros cfg f0 g sets p evs doff [I1 I2 I3 I4 I5 I6 I7] HR. unfold flush_writes.
  rewrite (sum_sizes _ _ I3). unfold emit in *. destruct (concat p) as [|d0 ds] eqn:EP.
  - cbn [concat]. rewrite Zlen_nil. cbn [Z.eqb]. rewrite app_nil_r, (emptied_nil p EP).
    assert (E : map rank_assign (g_ranks g) = g_ranks g).
    { clear - I3 EP. revert EP. induction I3 as [|st pd rs p HR HF IH]; intros EP; [reflexivity|].
      cbn in EP |- *. apply app_eq_nil in EP. destruct EP as [-> EP]. rewrite rank_assign_id by auto. f_equal. auto. }
    rewrite E. destruct g. constructor; auto.
  - pose proof (concat_pos _ _ I3) as HP. rewrite EP in HP. specialize (HP ltac:(discriminate)).
    destruct (Z.eqb_spec (Zlen (concat (d0 :: ds))) 0) as [Hz|Hz]; [lia|].
    destruct (Forall_inv HR) as [R1 R2]. cbn [f_at f_bytes f_data] in R1, R2. unfold f_bytes in R2. cbn [f_data] in R2.
    rewrite exscan_shift. rewrite Z.add_0_l.
    destruct (ranks_flushed_inv _ _ doff I3 R1) as [J1 J2]; [rewrite EP; exact R2|].
    constructor; cbn [g_cfg g_infos g_ranks g_file g_mdsets]; auto.
    + assert (L : length (map (fun q => rank_flushed (fst q) (snd q))
        (combine (exscan doff (map (fun st => local_size (unflushed st)) (g_ranks g))) (g_ranks g))) = length (g_ranks g)).
      { pose proof (Forall2_length _ _ _ _ _ J1) as L1. pose proof (Forall2_length _ _ _ _ _ I3) as L2.
        rewrite L1, L2. unfold emptied. apply map_length. }
      destruct I4 as [N1 N2]. split.
      * intros E. rewrite E in L. cbn in L. destruct (g_ranks g); [congruence|discriminate].
      * unfold Zlen in *. rewrite L. exact N2.
    + unfold recorded in *. cbn [g_mdsets g_ranks]. rewrite EP in J2.
      change (flat_map _ (map _ (combine _ _))) with
        (rexts (map (fun q => rank_flushed (fst q) (snd q))
        (combine (exscan doff (map (fun st => local_size (unflushed st)) (g_ranks g))) (g_ranks g)))).
      change (flat_map _ (g_ranks g)) with (rexts (g_ranks g)) in I5.
      rewrite J2, app_assoc, I5, flat_map_app, map_app. apply Permutation_app_head.
      cbn [flat_map]. rewrite app_nil_r. reflexivity.
    + intros x. rewrite (file_written _ _ doff _ I3), EP, written_app. cbn [written fold_left f_at f_bytes].
      apply put_ext. exact I6.
Qed.

Lemma whole_meta : forall st, Forall fits (k_wreqs st) -> whole_entries (meta_bytes st).
Proof.
  intros st H. exists (map (fun w => (w_hdr w, w_body w)) (k_wreqs st)). split.
  - unfold meta_bytes. induction H; cbn; auto. rewrite IHForall. reflexivity.
  - apply Forall_map. revert H. apply Forall_impl. intros w (H & _). cbn [fst snd]. rewrite H, Zlen_app.
    replace (Zlen (enc_hdr (w_hdr w))) with 28; [reflexivity|]. unfold Zlen. rewrite enc_hdr_length. reflexivity.
Qed.

Lemma all_fits : forall rs p, Forall2 rk_inv rs p -> Forall (fun st => Forall fits (k_wreqs st)) rs.
Proof. induction 1; constructor; auto. apply H. Qed.

Lemma metaflush_linv : forall cfg f0 g sets p evs, linv cfg f0 g sets p evs -> concat p = [] ->
  linv cfg f0 (metaflush g) sets p evs.
Proof.
  intros cfg f0 g sets p evs [I1 I2 I3 I4 I5 I6 I7] EP. destruct I4 as [N1 N2].
  pose proof (all_fits _ _ I3) as HA.
  destruct (md_content_layout (g_ranks g) N1 HA) as [M1 M2].
  assert (HH : Forall (fun st => Forall hdr_in (k_wreqs st) /\ flushed st = k_wreqs st) (g_ranks g)).
  { clear - I3 EP. revert EP. induction I3 as [|st pd rs p HR HF IH]; intros EP; constructor.
    - cbn in EP. apply app_eq_nil in EP. destruct EP as [-> _]. destruct HR as [R1 R2 R3 R4 R5].
      apply map_eq_nil in R1. assert (E : flushed st = k_wreqs st).
      { rewrite <- (firstn_skipn (k_nflushed st) (k_wreqs st)). unfold unflushed in R1. rewrite R1, app_nil_r. reflexivity. }
      rewrite E in R4. split; auto. unfold hdr_in. rewrite Forall_forall in *. auto.
    - apply IH. cbn in EP. apply app_eq_nil in EP. apply EP. }
  unfold metaflush. rewrite M1, M2. constructor; cbn [g_cfg g_infos g_ranks g_file g_mdsets]; auto.
  - clear - I3 EP. revert EP. induction I3 as [|st pd rs p HR HF IH]; intros EP; cbn [map]; constructor.
    + cbn in EP. apply app_eq_nil in EP. destruct EP as [-> _]. apply rk_inv0.
    + apply IH. cbn in EP. apply app_eq_nil in EP. apply EP.
  - split; [destruct (g_ranks g); [congruence|discriminate]|rewrite Zlen_map; auto].
  - unfold recorded in *. cbn [g_mdsets g_ranks].
    assert (Z0 : forall rs : list rank, flat_map (fun st => map (fun w => (h_foff (w_hdr w), h_fsize (w_hdr w))) (flushed st))
       (map (fun st => mkrank [] 0 0 [] (k_zbsize st)) rs) = []) by (induction rs; auto).
    rewrite Z0, app_nil_r.
    assert (E : flat_map (fun st => map (fun w => (h_foff (w_hdr w), h_fsize (w_hdr w))) (flushed st)) (g_ranks g) =
                map (fun h => (h_foff h, h_fsize h)) (flat_map (fun st => map w_hdr (k_wreqs st)) (g_ranks g))).
    { clear - HH. induction HH as [|st rs [_ E] HH IH]; [reflexivity|]. cbn [flat_map]. rewrite map_app, IH, E, map_map. reflexivity. }
    rewrite E in I5.
    destruct (Z.ltb_spec (8 * (Zlen (g_ranks g) + 1)) (8 * (Zlen (g_ranks g) + 1) + Zlen (concat (map meta_bytes (g_ranks g))))) as [Hl|Hl].
    + rewrite flat_map_app, map_app. cbn [flat_map]. rewrite app_nil_r, layout_headers; auto.
      revert HH. apply Forall_impl. tauto.
    + assert (EZ : flat_map (fun st => map w_hdr (k_wreqs st)) (g_ranks g) = []).
      { assert (L0 : concat (map meta_bytes (g_ranks g)) = []).
        { destruct (concat (map meta_bytes (g_ranks g))); [reflexivity|]. rewrite Zlen_cons in Hl. pose proof (Zlen_nonneg _ l). lia. }
        rewrite <- flat_map_concat_map in L0. revert L0. generalize (g_ranks g). clear. induction l; intros H; [reflexivity|].
        cbn in H |- *. apply app_eq_nil in H. destruct H as [H1 H2]. rewrite IHl by auto. rewrite app_nil_r.
        unfold meta_bytes in H1. destruct (k_wreqs a) as [|w ws]; [reflexivity|]. cbn in H1. discriminate. }
      rewrite EZ in I5. cbn in I5. rewrite app_nil_r in I5. exact I5.
  - destruct (_ <? _); auto. apply Forall_app. split; auto. constructor; [|constructor].
    eexists. split; [reflexivity|]. apply Forall_map. revert HA. apply Forall_impl. apply whole_meta.
Qed.

Lemma Forall2_upd : forall A B (R : A -> B -> Prop) l l' n a b, Forall2 R l l' -> R a b ->
  Forall2 R (upd_nth n a l) (upd_nth n b l').
Proof. intros A B R l l' n a b H. revert n. induction H; intros [|n] Hab; cbn; constructor; auto. Qed.

Lemma upd_nth_length : forall A n (x : A) l, length (upd_nth n x l) = length l.
Proof. induction n; destruct l; cbn; auto. Qed.

Lemma Forall2_nth : forall A B (R : A -> B -> Prop) l l' n a, Forall2 R l l' -> nth_error l n = Some a ->
  exists b, nth_error l' n = Some b /\ R a b.
Proof. intros A B R l l' n a H. revert n. induction H; intros [|n] E; cbn in E; try discriminate.
  - injection E as ->. exists y. auto.
  - apply IHForall2. exact E.
Qed.

Lemma set_dims_length : forall d m n r k, set_dims d m n = (r, k) -> length r = length d.
Proof.
  induction d as [|x d IH]; intros [|y m] [|z n] r k H; cbn in H; try (inversion H; subst; reflexivity; fail).
  destruct (negb _ && _); [inversion H; reflexivity|].
  destruct (set_dims d m n) as [r' k'] eqn:E. inversion H. cbn. f_equal. eauto.
Qed.

Lemma set_extent_shape : forall cfg i d dims i', shape_info cfg i d -> set_extent cfg i dims = (i', true) -> shape_info cfg i' d.
Proof.
  intros cfg i d dims i' (S1 & S2 & S3) H. unfold set_extent in H.
  destruct (set_dims (di_dims i) (di_mdims i) dims) as [r k] eqn:E. apply set_dims_length in E.
  destruct k; [|discriminate]. injection H as <-. unfold shape_info. cbn [di_dims di_mdims di_dsteps].
  split; [congruence|]. split; [congruence|]. intros He. rewrite He. apply dsteps_of_length.
Qed.

Lemma create_shape : forall cfg d i, length (di_mdims d) = length (di_dims d) -> create_info cfg d = Ok i -> shape_info cfg i d.
Proof.
  intros cfg d i HL H. unfold create_info in H. destruct (has cfg CFG_SEL_ENCODE) eqn:E.
  - destruct (di_ndim d =? 0)%nat; [discriminate|]. injection H as <-. unfold shape_info. cbn. rewrite dsteps_of_length. auto.
  - injection H as <-. unfold shape_info. rewrite E. split; auto. split; auto. discriminate.
Qed.

Lemma reopen_shape : forall cfg infos sets r, Forall2 (fun inf d => exists i, inf = Some i /\ shape_info cfg i d) infos sets ->
  reopen_infos cfg infos = Ok r -> Forall2 (fun inf d => exists i, inf = Some i /\ shape_info cfg i d) r sets.
Proof.
  intros cfg infos sets r H. revert r. induction H as [|inf d infos sets (i & -> & HS) HF IH]; intros r E.
  - injection E as <-. constructor.
  - cbn in E. destruct (create_info cfg i) as [i'| |] eqn:EC; try discriminate. cbn [bind] in E.
    destruct (reopen_infos cfg infos) as [r'| |]; try discriminate. injection E as <-. constructor; auto.
    exists i'. split; auto. destruct HS as (S1 & S2 & S3).
    destruct (create_shape _ _ _ S2 EC) as (T1 & T2 & T3). split; [congruence|]. split; auto.
Qed.

Lemma emptied_concat : forall p : waiting, concat (emptied p) = [].
Proof. induction p; auto. Qed.
Lemma emptied_emptied : forall p : waiting, emptied (emptied p) = emptied p.
Proof. intros. unfold emptied. rewrite map_map. reflexivity. Qed.

Lemma flush_case : forall cfg f0 g sets p evs doff, linv cfg f0 g sets p evs -> Forall in_range (emit doff p) ->
  linv cfg f0 (if any_pending g then flush_writes doff g else g) sets (emptied p) (evs ++ emit doff p).
Proof.
  intros cfg f0 g sets p evs doff HI HR. unfold any_pending. rewrite (pending_some _ _ (li_ranks _ _ _ _ _ _ HI)).
  destruct (concat p) eqn:EP.
  - rewrite (emptied_nil p EP). unfold emit. rewrite EP, app_nil_r. auto.
  - apply flush_linv; auto.
Qed.

Lemma meta_case : forall cfg f0 g sets p evs b, linv cfg f0 g sets p evs -> concat p = [] ->
  linv cfg f0 (if b : bool then metaflush g else g) sets p evs.
Proof. intros. destruct b; auto. apply metaflush_linv; auto. Qed.

Lemma step_linv : forall e cfg f0 s s' o out sets p evs, linv cfg f0 (s_g s) sets p evs ->
  shaped_op (e_coll e) sets p o -> (match o with OReopen _ n => (0 < n)%nat /\ Z.of_nat n < 2 ^ 31 | _ => True end) ->
  Forall in_range (fst (flushes_step (e_coll e) p o)) -> step e s o = Ok (s', out) ->
  linv cfg f0 (s_g s') (sets_step sets o) (snd (flushes_step (e_coll e) p o)) (evs ++ fst (flushes_step (e_coll e) p o)).
Proof.
  intros e cfg f0 s s' o out sets p evs HI HS HN HR H. destruct o as [d|did dims|rk did sels data|doff|doff calls|doff np];
    cbn [step flushes_step sets_step fst snd shaped_op] in *.
  - destruct (create_info (g_cfg (s_g s)) d) as [i| |] eqn:EC; try discriminate. injection H as <- <-.
    rewrite app_nil_r. destruct HI as [I1 I2 I3 I4 I5 I6 I7]. constructor; auto. cbn [s_g set_infos g_infos].
    apply Forall2_app; auto. constructor; [|constructor]. exists i. split; auto. rewrite I1 in EC. eapply create_shape; eauto.
  - destruct (info_at (g_infos (s_g s)) did) as [[i|]|] eqn:EI; try discriminate.
    destruct (set_extent (g_cfg (s_g s)) i dims) as [i' okk] eqn:EX. destruct okk; [|discriminate]. injection H as <- <-.
    rewrite app_nil_r. destruct HI as [I1 I2 I3 I4 I5 I6 I7]. constructor; auto. cbn [s_g set_infos g_infos].
    unfold info_at in EI. destruct (did <? 0); [discriminate|].
    destruct (Forall2_nth _ _ _ _ _ _ _ I2 EI) as (d & E1 & (i0 & E0 & S0)). injection E0 as <-.
    assert (SS : sets = upd_nth (Z.to_nat did) d sets).
    { clear - E1. revert E1. generalize (Z.to_nat did). induction sets as [|x l IH]; intros [|n] E; cbn in *; try discriminate.
      - injection E as ->. reflexivity.
      - f_equal. auto. }
    rewrite SS. apply Forall2_upd; auto. exists i'. split; auto. rewrite I1 in EX. eapply set_extent_shape; eauto.
  - destruct (nth_error (g_ranks (s_g s)) rk) as [st|] eqn:EN; try discriminate.
    destruct (ds_write (e_zlib e) (g_cfg (s_g s)) (g_infos (s_g s)) st did sels data) as [st'| |] eqn:EW; try discriminate.
    injection H as <- <-. pose proof HI as [I1 I2 I3 I4 I5 I6 I7].
    destruct sels as [|b0 sels0] eqn:Es.
    + cbn in EW. injection EW as <-. cbn [fst snd]. rewrite app_nil_r.
      assert (E : upd_nth rk st (g_ranks (s_g s)) = g_ranks (s_g s)).
      { clear - EN. revert EN. generalize (g_ranks (s_g s)), rk. induction l as [|x l IH]; intros [|n] E; cbn in *; try discriminate.
        - injection E as ->. reflexivity.
        - f_equal. auto. }
      cbn [s_g]. unfold set_ranks. rewrite E. destruct (s_g s). exact HI.
    + rewrite <- Es in *. destruct HS as (Hd & Hdata & d & Ed & HB & Hm); [rewrite Es; discriminate|].
      replace (match sels with [] => ([], p) | _ :: _ => ([], upd_nth rk (nth rk p [] ++ [data]) p) end)
        with (@nil flush, upd_nth rk (nth rk p [] ++ [data]) p) in * by (rewrite Es; reflexivity).
      cbn [fst snd]. rewrite app_nil_r.
      assert (EI : exists i, nth_error (g_infos (s_g s)) (Z.to_nat did) = Some (Some i) /\ shape_info cfg i d).
      { clear - I2 Ed. revert Ed. generalize (Z.to_nat did). induction I2 as [|inf d0 l l' (i & -> & HS) HF IH]; intros [|n] E; cbn in *; try discriminate; eauto.
        injection E as ->. eauto. }
      destruct EI as (i & EI & HSi). rewrite I1 in EW.
      destruct (ds_write_fits _ _ _ _ _ _ _ _ _ _ EW ltac:(rewrite Es; discriminate) EI HSi Hd HB Hm) as (w & W1 & W2 & W3 & W4).
      destruct (Forall2_nth _ _ _ _ _ _ _ I3 EN) as (pd & Ep & HR0).
      assert (Enth : nth rk p [] = pd) by (apply nth_error_nth; auto). rewrite Enth.
      pose proof HR0 as [R1 R2 R3 R4 R5].
      assert (EF : flushed st' = flushed st).
      { unfold flushed. rewrite W1, W2. rewrite firstn_app. replace (k_nflushed st - length (k_wreqs st))%nat with 0%nat by lia.
        cbn. apply app_nil_r. }
      assert (HR' : rk_inv st' (pd ++ [data])).
      { constructor.
        - unfold unflushed in *. rewrite W1, W2, skipn_app. replace (k_nflushed st - length (k_wreqs st))%nat with 0%nat by lia.
          rewrite map_app, R1. cbn. rewrite W4. reflexivity.
        - rewrite W1. apply Forall_app. auto.
        - rewrite W1, W2, app_length. lia.
        - rewrite EF. auto.
        - apply Forall_app. split; auto. }
      constructor; cbn [s_g set_ranks g_cfg g_infos g_ranks g_file g_mdsets]; auto.
      * apply Forall2_upd; auto.
      * unfold Zlen. rewrite upd_nth_length. split; [|apply I4]. destruct I4 as [N1 _]. intros E. apply N1.
        destruct (g_ranks (s_g s)); auto. destruct rk; discriminate.
      * unfold recorded in *. cbn [set_ranks g_mdsets g_ranks].
        assert (E : flat_map (fun st => map (fun w => (h_foff (w_hdr w), h_fsize (w_hdr w))) (flushed st)) (upd_nth rk st' (g_ranks (s_g s))) =
                    flat_map (fun st => map (fun w => (h_foff (w_hdr w), h_fsize (w_hdr w))) (flushed st)) (g_ranks (s_g s))).
        { clear - EN EF. revert EN. generalize (g_ranks (s_g s)), rk. induction l as [|x l IH]; intros [|n] E; cbn in *; try discriminate.
          - injection E as ->. rewrite EF. reflexivity.
          - f_equal. auto. }
        rewrite E. exact I5.
  - injection H as <- <-. cbn [s_g]. apply flush_case; auto.
  - set (g1 := if e_coll e && any_pending (s_g s) then flush_writes doff (s_g s) else s_g s) in *.
    destruct (read_each _ _ _ _) as [q| |]; try discriminate. injection H as <- <-. cbn [s_g].
    destruct (e_coll e); cbn [andb fst snd] in *.
    + apply meta_case; [|apply emptied_concat]. apply flush_case; auto.
    + rewrite app_nil_r. destruct HS as [HS|HS]; [discriminate|]. apply meta_case; auto.
  - destruct (reopen_infos (g_cfg (s_g s)) (g_infos (s_g s))) as [r| |] eqn:ER; try discriminate. injection H as <- <-.
    pose proof (flush_linv _ _ _ _ _ _ doff HI HR) as H1.
    pose proof (metaflush_linv _ _ _ _ _ _ H1 (emptied_concat p)) as H2. fold (close_file doff (s_g s)) in H2.
    destruct HI as [I1 I2 _ _ _ _ _]. destruct H2 as [J1 J2 J3 J4 J5 J6 J7].
    constructor; cbn [s_g g_cfg g_infos g_ranks g_file g_mdsets]; auto.
    + rewrite I1 in ER. exact (reopen_shape _ _ _ _ I2 ER).
    + clear. induction np; cbn; constructor; auto. apply rk_inv0.
    + destruct HN as [HN1 HN2]. split; [destruct np; [lia|discriminate]|]. unfold Zlen. rewrite repeat_length. lia.
    + unfold recorded in *. cbn [g_mdsets g_ranks]. unfold close_file, metaflush in J5 |- *. cbn [g_mdsets g_ranks] in *.
      assert (Z0 : forall rs : list rank, flat_map (fun st => map (fun w => (h_foff (w_hdr w), h_fsize (w_hdr w))) (flushed st))
       (map (fun st => mkrank [] 0 0 [] (k_zbsize st)) rs) = []) by (induction rs; auto).
      assert (Z1 : flat_map (fun st => map (fun w => (h_foff (w_hdr w), h_fsize (w_hdr w))) (flushed st)) (repeat rank0 np) = [])
        by (clear; induction np; auto).
      rewrite Z0 in J5. rewrite Z1. exact J5.
Qed.

Lemma flushes_cons : forall coll p o ops, flushes coll p (o :: ops) =
  (fst (flushes_step coll p o) ++ fst (flushes coll (snd (flushes_step coll p o)) ops),
   snd (flushes coll (snd (flushes_step coll p o)) ops)).
Proof. intros. cbn. destruct (flushes_step coll p o) as [a p1]. cbn. destruct (flushes coll p1 ops). reflexivity. Qed.

Lemma run_linv : forall e cfg f0 ops s s' outs sets p evs, linv cfg f0 (s_g s) sets p evs ->
  shaped (e_coll e) sets p ops -> Forall (fun o => match o with OReopen _ n => (0 < n)%nat /\ Z.of_nat n < 2 ^ 31 | _ => True end) ops ->
  Forall in_range (fst (flushes (e_coll e) p ops)) -> run e s ops = Ok (s', outs) ->
  exists sets', linv cfg f0 (s_g s') sets' (snd (flushes (e_coll e) p ops)) (evs ++ fst (flushes (e_coll e) p ops)).
Proof.
  intros e cfg f0. induction ops as [|o ops IH]; intros s s' outs sets p evs HI HS HN HR H.
  - injection H as <- <-. cbn. rewrite app_nil_r. eauto.
  - rewrite flushes_cons in *. cbn [fst snd] in *. apply Forall_app in HR. destruct HR as [HR1 HR2].
    cbn [run] in H. destruct (step e s o) as [[s1 out]| |] eqn:ES; try discriminate. cbn [bind fst snd] in H.
    destruct (run e s1 ops) as [[s2 outs2]| |] eqn:ER; try discriminate. injection H as <- <-.
    destruct HS as [HS1 HS2]. inversion HN as [|? ? HN1 HN2]; subst.
    pose proof (step_linv _ _ _ _ _ _ _ _ _ _ HI HS1 HN1 HR1 ES) as HI1.
    destruct (IH _ _ _ _ _ _ HI1 HS2 HN2 HR2 ER) as (sets' & HI2). exists sets'. rewrite app_assoc. exact HI2.
Qed.

Lemma init_linv : forall cfg np f0, (0 < np)%nat -> Z.of_nat np < 2 ^ 31 ->
  linv cfg f0 (s_g (init cfg np f0)) [] (repeat [] np) [].
Proof.
  intros cfg np f0 H1 H2. constructor; cbn [s_g init g_cfg g_infos g_ranks g_file g_mdsets]; auto.
  - clear. induction np; cbn; constructor; auto. apply rk_inv0.
  - split; [destruct np; [lia|discriminate]|]. unfold Zlen. rewrite repeat_length. lia.
  - unfold recorded. cbn. clear. induction np; cbn; auto.
Qed.

Lemma history_linv : forall e cfg np f0 ops s outs, shaped_history (e_coll e) np ops ->
  Forall in_range (fst (flushes_of (e_coll e) np ops)) -> run e (init cfg np f0) ops = Ok (s, outs) ->
  exists sets, linv cfg f0 (s_g s) sets (snd (flushes_of (e_coll e) np ops)) (fst (flushes_of (e_coll e) np ops)).
Proof.
  intros e cfg np f0 ops s outs (H1 & H2 & H3 & H4) HR H.
  destruct (run_linv e cfg f0 ops _ _ _ _ _ [] (init_linv cfg np f0 H1 H2) H4 H3 HR H) as (sets & HI). exists sets. exact HI.
Qed.

(** ** Results about histories *)
Lemma pend_lens : forall rs p, Forall2 rk_inv rs p -> map num_pending rs = map (@length (list Z)) p.
Proof. induction 1; [reflexivity|]. cbn [map]. rewrite IHForall2. f_equal. apply pend_len. exact H. Qed.

Lemma flush_result : forall e cfg np f0 ops s outs, shaped_history (e_coll e) np ops ->
  Forall in_range (fst (flushes_of (e_coll e) np ops)) -> run e (init cfg np f0) ops = Ok (s, outs) ->
  (forall x, g_file (s_g s) x = written f0 (fst (flushes_of (e_coll e) np ops)) x) /\
  pending_counts (s_g s) = map (@length (list Z)) (snd (flushes_of (e_coll e) np ops)).
Proof.
  intros e cfg np f0 ops s outs H1 H2 H3. destruct (history_linv _ _ _ _ _ _ _ H1 H2 H3) as (sets & [I1 I2 I3 I4 I5 I6 I7]).
  split; auto. apply pend_lens. exact I3.
Qed.

Lemma flushes_app : forall coll a b p, flushes coll p (a ++ b) =
  (fst (flushes coll p a) ++ fst (flushes coll (snd (flushes coll p a)) b), snd (flushes coll (snd (flushes coll p a)) b)).
Proof.
  induction a as [|o a IH]; intros b p; [cbn; destruct (flushes coll p b); reflexivity|].
  cbn [app]. rewrite !flushes_cons, IH. cbn [fst snd]. rewrite app_assoc. reflexivity.
Qed.

Lemma flush_twice : forall e cfg np f0 ops s outs d1 d2 s1 o1, shaped_history (e_coll e) np ops ->
  Forall in_range (fst (flushes_of (e_coll e) np (ops ++ [OFlush d1]))) -> run e (init cfg np f0) ops = Ok (s, outs) ->
  step e s (OFlush d1) = Ok (s1, o1) ->
  Forall (fun n => n = 0%nat) (pending_counts (s_g s1)) /\ step e s1 (OFlush d2) = Ok (s1, []).
Proof.
  intros e cfg np f0 ops s outs d1 d2 s1 o1 H1 H2 H3 H4. unfold flushes_of in H2. rewrite flushes_app in H2.
  cbn [fst flushes flushes_step] in H2. rewrite app_nil_r in H2. apply Forall_app in H2. destruct H2 as [H2 H5].
  destruct (history_linv _ _ _ _ _ _ _ H1 H2 H3) as (sets & HI).
  assert (HI1 : linv cfg f0 (s_g s1) sets (emptied (snd (flushes_of (e_coll e) np ops)))
     (fst (flushes_of (e_coll e) np ops) ++ emit d1 (snd (flushes_of (e_coll e) np ops)))).
  { cbn [step] in H4. injection H4 as <- <-. cbn [s_g]. apply flush_case; auto. }
  split.
  - destruct HI1 as [_ _ I3 _ _ _ _]. unfold pending_counts. apply Forall_map. revert I3.
    generalize (snd (flushes_of (e_coll e) np ops)), (g_ranks (s_g s1)). intros p. induction p as [|a p IH]; intros l I3; cbn in I3.
    + inversion I3. constructor.
    + inversion I3 as [|? ? ? ? Q1 Q2]; subst. constructor; auto. apply (pend_len _ _ Q1).
  - cbn [step]. unfold any_pending. rewrite (pending_some _ _ (li_ranks _ _ _ _ _ _ HI1)), emptied_concat.
    destruct s1; reflexivity.
Qed.

Lemma places_in : forall ds off q, In q (places off ds) -> off <= fst q /\ fst q + Zlen (snd q) <= off + Zlen (concat ds).
Proof.
  induction ds as [|d ds IH]; intros off q H; [destruct H|]. cbn [places] in H. cbn [concat]. rewrite Zlen_app.
  pose proof (Zlen_nonneg _ (concat ds)). pose proof (Zlen_nonneg _ d). destruct H as [<-|H]; cbn [fst snd]; [lia|].
  apply IH in H. lia.
Qed.

Lemma places_apart : forall ds off, ForallOrdPairs apart (map pext (places off ds)).
Proof.
  induction ds as [|d ds IH]; intros off; cbn [places map]; constructor; auto.
  apply Forall_map. apply Forall_forall. intros q Hq. apply places_in in Hq. unfold apart, pext. cbn [fst snd]. intros x. lia.
Qed.

Lemma ForallOrdPairs_app : forall A (R : A -> A -> Prop) a b, ForallOrdPairs R a -> ForallOrdPairs R b ->
  (forall x y, In x a -> In y b -> R x y) -> ForallOrdPairs R (a ++ b).
Proof.
  intros A R a b Ha Hb Hab. induction Ha as [|x a Hx Ha IH]; auto. cbn. constructor.
  - apply Forall_app. split; auto. apply Forall_forall. intros y Hy. apply Hab; [left; auto|auto].
  - apply IH. intros. apply Hab; [right; auto|auto].
Qed.

Lemma flush_places_in : forall f q, In q (f_places f) -> inside_region (pext q) (region f).
Proof. intros f q H. apply places_in in H. exact H. Qed.

Lemma apart_inside : forall a b r1 r2, apart r1 r2 -> inside_region a r1 -> inside_region b r2 -> apart a b.
Proof. unfold apart, inside_region. intros. intros [A B]. apply (H x). lia. Qed.

Lemma all_apart : forall fs, ForallOrdPairs apart (map region fs) -> ForallOrdPairs apart (map pext (flat_map f_places fs)).
Proof.
  induction fs as [|f fs IH]; intros H; [constructor|]. cbn [map] in H. inversion H as [|? ? H1 H2]; subst.
  cbn [flat_map]. rewrite map_app. apply ForallOrdPairs_app; auto; [apply places_apart|].
  intros x y Hx Hy. apply in_map_iff in Hx, Hy. destruct Hx as (qx & <- & Hx). destruct Hy as (qy & <- & Hy).
  apply in_flat_map in Hy. destruct Hy as (f' & F1 & F2).
  eapply apart_inside; [|apply flush_places_in; eauto|apply flush_places_in; eauto].
  rewrite Forall_forall in H1. apply H1. apply in_map. auto.
Qed.

Lemma apart_sym : forall a b, apart a b -> apart b a.
Proof. unfold apart. intros a b H x [A B]. apply (H x). auto. Qed.

Lemma ForallOrdPairs_perm : forall A (R : A -> A -> Prop), (forall a b, R a b -> R b a) -> forall l l', Permutation l l' ->
  ForallOrdPairs R l -> ForallOrdPairs R l'.
Proof.
  intros A R HS l l' HP. induction HP; intros H; auto.
  - inversion H as [|? ? H1 H2]; subst. constructor; auto. eapply Permutation_Forall; eauto.
  - inversion H as [|? ? H1 H2]; subst. inversion H2 as [|? ? H3 H4]; subst. pose proof (Forall_inv H1). apply Forall_inv_tail in H1.
    constructor; [constructor; auto|constructor; auto].
Qed.

Lemma written_out : forall fs f0 x, Forall (fun f => x < f_at f \/ f_at f + Zlen (f_bytes f) <= x) fs -> written f0 fs x = f0 x.
Proof.
  induction fs as [|f fs IH]; intros f0 x H; [reflexivity|]. cbn [written fold_left]. change (fold_left _ fs ?g) with (written g fs).
  inversion H; subst. rewrite IH by auto. apply put_out. lia.
Qed.

Lemma get_places : forall ds f off q, In q (places off ds) -> get (put f off (concat ds)) (fst q) (length (snd q)) = snd q.
Proof.
  intros ds f off q H.
  assert (G : forall ds pre, In q (places (off + Zlen pre) ds) -> get (put f off (pre ++ concat ds)) (fst q) (length (snd q)) = snd q).
  { clear. induction ds as [|d ds IH]; intros pre H; [destruct H|]. cbn [places] in H. cbn [concat]. destruct H as [<-|H].
    - cbn [fst snd]. apply nth_ext with (d := 0) (d' := 0); rewrite get_length; auto. intros i Hi. rewrite nth_get by auto.
      rewrite put_in by (rewrite !Zlen_app; unfold Zlen; lia).
      replace (Z.to_nat (off + Zlen pre + Z.of_nat i - off)) with (length pre + i)%nat by (unfold Zlen; lia).
      rewrite app_nth2_plus, app_nth1 by auto. reflexivity.
    - rewrite app_assoc. apply IH. rewrite Zlen_app, Z.add_assoc. exact H. }
  apply (G ds []). rewrite Zlen_nil, Z.add_0_r. exact H.
Qed.

Lemma written_kept : forall fs f0, ForallOrdPairs apart (map region fs) -> forall f q, In f fs -> In q (f_places f) ->
  get (written f0 fs) (fst q) (length (snd q)) = snd q.
Proof.
  induction fs as [|f' fs IH]; intros f0 H f q Hf Hq; [destruct Hf|]. cbn [map] in H. inversion H as [|? ? H1 H2]; subst.
  cbn [written fold_left]. change (fold_left _ fs ?g) with (written g fs). destruct Hf as [->|Hf]; [|eapply IH; eauto].
  erewrite get_ext; [apply (get_places (f_data f) f0 (f_at f)); exact Hq|]. intros i Hi. apply written_out.
  apply Forall_forall. intros f2 F2. rewrite Forall_forall in H1. specialize (H1 (region f2) (in_map region _ _ F2)).
  unfold apart in H1. apply flush_places_in in Hq. unfold inside_region, pext, region in *. cbn [fst snd] in *.
  specialize (H1 (fst q + i)). unfold Zlen in *. lia.
Qed.

Lemma extents_apart : forall e cfg np f0 ops s outs, let fs := fst (flushes_of (e_coll e) np ops) in
  shaped_history (e_coll e) np ops -> Forall in_range fs -> run e (init cfg np f0) ops = Ok (s, outs) ->
  Permutation (recorded (s_g s)) (map pext (flat_map f_places fs)) /\
  (ForallOrdPairs apart (map region fs) ->
   ForallOrdPairs apart (recorded (s_g s)) /\
   (forall a, In a (recorded (s_g s)) -> exists f, In f fs /\ inside_region a (region f)) /\
   (forall f q, In f fs -> In q (f_places f) -> get (g_file (s_g s)) (fst q) (length (snd q)) = snd q)).
Proof.
  intros e cfg np f0 ops s outs fs H1 H2 H3. destruct (history_linv _ _ _ _ _ _ _ H1 H2 H3) as (sets & [I1 I2 I3 I4 I5 I6 I7]).
  fold fs in I5, I6. split; auto. intros HA. split; [|split].
  - eapply ForallOrdPairs_perm; [apply apart_sym|apply Permutation_sym; exact I5|]. apply all_apart. auto.
  - intros a Ha. apply (Permutation_in _ I5) in Ha. apply in_map_iff in Ha. destruct Ha as (q & <- & Hq).
    apply in_flat_map in Hq. destruct Hq as (f & F1 & F2). exists f. split; auto. apply flush_places_in. auto.
  - intros f q Hf Hq. erewrite get_ext; [apply (written_kept fs f0 HA f q Hf Hq)|]. intros. apply I6.
Qed.

Lemma sections_of : forall e cfg np f0 ops s outs, shaped_history (e_coll e) np ops ->
  Forall in_range (fst (flushes_of (e_coll e) np ops)) -> run e (init cfg np f0) ops = Ok (s, outs) ->
  Forall (fun md => exists secs, md = layout secs /\ Forall whole_entries secs) (g_mdsets (s_g s)) /\
  let secs := map meta_bytes (g_ranks (s_g s)) in
  g_mdsets (metaflush (s_g s)) =
    g_mdsets (s_g s) ++ (if Zlen (concat secs) =? 0 then [] else [layout secs]).
Proof.
  intros e cfg np f0 ops s outs H1 H2 H3. destruct (history_linv _ _ _ _ _ _ _ H1 H2 H3) as (sets & [I1 I2 I3 [N1 N2] I5 I6 I7]).
  split; auto. cbn zeta. destruct (md_content_layout _ N1 (all_fits _ _ I3)) as [M1 M2].
  unfold metaflush. cbn [g_mdsets]. rewrite M1, M2. pose proof (Zlen_nonneg _ (concat (map meta_bytes (g_ranks (s_g s))))) as HP.
  destruct (Z.eqb_spec (Zlen (concat (map meta_bytes (g_ranks (s_g s))))) 0) as [E|E];
  match goal with |- context [?a <? ?b] => destruct (Z.ltb_spec a b) as [L|L] end; try lia; auto. rewrite app_nil_r. auto.
Qed.

(** ** The decomposition *)
Lemma layout_start_words : forall secs, words (Zlen secs :: map (fun i => 8 * (Zlen secs + 1) + Zlen (concat (firstn (S i) secs))) (seq 0 (length secs))) =
  words (Zlen secs :: prefix_ends (8 * (Zlen secs + 1)) (map (@Zlen Z) secs)).
Proof. intros. rewrite layout_ends. reflexivity. Qed.

Definition fitting (secs : list (list Z)) : Prop := secs <> [] /\ Zlen (layout secs) < 2 ^ 63.

Lemma words_head : forall secs, Zlen (words (Zlen secs :: prefix_ends (8 * (Zlen secs + 1)) (map (@Zlen Z) secs))) = 8 * (Zlen secs + 1).
Proof. intros. unfold Zlen at 1. rewrite words_length. cbn [length]. rewrite prefix_ends_length, map_length. unfold Zlen. lia. Qed.
Lemma layout_Zlen : forall secs, Zlen (layout secs) = 8 * (Zlen secs + 1) + Zlen (concat secs).
Proof. intros. unfold layout. cbn zeta. rewrite layout_start_words, Zlen_app, words_head. reflexivity. Qed.
Lemma lens_sum : forall secs : list (list Z), Zsum (map (@Zlen Z) secs) = Zlen (concat secs).
Proof. induction secs; [reflexivity|]. cbn [map concat Zsum fold_right]. rewrite Zlen_app. unfold Zsum in IHsecs. rewrite IHsecs. reflexivity. Qed.

Lemma fit_limit : forall limit start offs i, fit limit start i offs = i \/ nth (fit limit start i offs - i - 1) offs 0 - start <= limit.
Proof.
  induction offs as [|o offs IH]; intros i; [left; reflexivity|]. cbn [fit]. destruct (Z.ltb_spec limit (o - start)) as [H|H]; [left; auto|].
  right. destruct (IH (S i)) as [E|E].
  - rewrite E. replace (S i - i - 1)%nat with 0%nat by lia. cbn. lia.
  - pose proof (fit_range limit start offs (S i)) as R. destruct (Nat.eq_dec (fit limit start (S i) offs) (S i)) as [Q|Q].
    + rewrite Q. replace (S i - i - 1)%nat with 0%nat by lia. cbn. lia.
    + replace (fit limit start (S i) offs - i - 1)%nat with (S (fit limit start (S i) offs - S i - 1)) by lia. exact E.
Qed.

Lemma load_part_layout : forall limit ms md sec secs, Forall fitting ms -> nth_error ms md = Some secs ->
  (sec < length secs)%nat ->
  exists n, (0 < n)%nat /\ (sec + n <= length secs)%nat /\
    (n = 1%nat \/ Zlen (concat (firstn n (skipn sec secs))) <= limit) /\
    load_part limit (map layout ms) md sec =
    Ok (concat (firstn n (skipn sec secs)),
        if (length secs <=? sec + n)%nat
        then (if (length ms <=? S md)%nat then None else Some (S md, 0%nat))
        else Some (md, sec + n)%nat).
Proof.
  intros limit ms md sec secs HM Hn Hs. assert (HMs : fitting secs) by (eapply Forall_forall; [exact HM|]; eapply nth_error_In; eauto).
  destruct HMs as [_ HMs]. pose proof HMs as HL. rewrite layout_Zlen in HL.
  pose proof (Zlen_nonneg _ secs) as P1. pose proof (Zlen_nonneg _ (concat secs)) as P2.
  set (offs := prefix_ends (8 * (Zlen secs + 1)) (map (@Zlen Z) secs)).
  assert (EL : layout secs = words (Zlen secs :: offs) ++ concat secs).
  { unfold layout. cbn zeta. rewrite layout_start_words. reflexivity. }
  unfold load_part. rewrite nth_error_map, Hn. cbn [option_map].
  assert (H0 : rd_i64 (layout secs) 0 = Some (Zlen secs)).
  { rewrite EL. cbn [words flat_map]. eapply rd_i64_at with (pre := []); [|reflexivity|lia].
    cbn [app]. rewrite <- app_assoc. reflexivity. }
  rewrite H0. cbn [or_ub bind].
  assert (HO : rd_words (layout secs) 8 (Z.to_nat (Zlen secs)) = Some offs).
  { rewrite EL. eapply rd_words_at with (pre := le 8 (Zlen secs)) (post := concat secs).
    - cbn [words flat_map]. rewrite <- app_assoc. reflexivity.
    - unfold Zlen at 1. rewrite le_length. reflexivity.
    - unfold offs. rewrite prefix_ends_length, map_length. unfold Zlen. lia.
    - eapply Forall_impl; [|apply (prefix_ends_bound _ _ (2 ^ 63 - 1))].
      + cbn beta. intros; lia.
      + apply Forall_map. apply Forall_forall. intros s _. apply Zlen_nonneg.
      + lia.
      + rewrite lens_sum. lia. }
  rewrite HO. cbn [or_ub bind]. destruct (Z.leb_spec (Zlen secs) (Z.of_nat sec)) as [Hc|Hc]; [unfold Zlen in Hc; lia|].
  set (h := 8 * (Zlen secs + 1)) in *. set (lens := map (@Zlen Z) secs) in *.
  assert (LL : length lens = length secs) by apply map_length.
  assert (Hst : (match sec with O => h | S s => nth s offs 0 end) = h + Zsum (firstn sec lens)).
  { destruct sec; [cbn; lia|]. unfold offs. rewrite prefix_ends_nth; [reflexivity|lia]. }
  rewrite Hst. set (start := h + Zsum (firstn sec lens)).
  pose proof (fit_range limit start (skipn (S sec) offs) (S sec)) as FR.
  pose proof (fit_limit limit start (skipn (S sec) offs) (S sec)) as FL.
  set (i := fit limit start (S sec) (skipn (S sec) offs)) in *.
  rewrite skipn_length in FR. unfold offs in FR at 1. rewrite prefix_ends_length in FR.
  assert (FRi : (S sec <= i <= length secs)%nat).
  { split; [lia|]. destruct FR as [_ FR]. unfold offs in FR. rewrite ?prefix_ends_length, ?LL in FR. lia. }
  clear FR. exists (i - sec)%nat. split; [lia|]. split; [lia|].
  replace (sec + (i - sec))%nat with i by lia.
  assert (Hcnt : nth (i - 1) offs 0 - start = Zsum (firstn (i - sec) (skipn sec lens))).
  { unfold offs. rewrite prefix_ends_nth by lia. replace (S (i - 1)) with i by lia.
    unfold start. rewrite (firstn_sum sec i) by lia. lia. }
  assert (Hsum : Zsum (firstn (i - sec) (skipn sec lens)) = Zlen (concat (firstn (i - sec) (skipn sec secs)))).
  { unfold lens. rewrite skipn_map, firstn_map, lens_sum. reflexivity. }
  split.
  { destruct (Nat.eq_dec i (S sec)) as [Q|Q]; [left; lia|right]. destruct FL as [FL|FL]; [congruence|].
    rewrite <- Hsum, <- Hcnt.
    assert (HNT : forall l (a b : nat), nth b (skipn a l) 0 = nth (a + b) l 0).
    { clear. induction l; intros [|x] b; cbn [skipn nth Nat.add]; auto. destruct b; reflexivity. }
    rewrite HNT in FL. replace (S sec + (i - S sec - 1))%nat with (i - 1)%nat in FL by lia. exact FL. }
  rewrite Hcnt.
  assert (Hb : rd (layout secs) start (Z.to_nat (Zsum (firstn (i - sec) (skipn sec lens)))) =
               Some (concat (firstn (i - sec) (skipn sec secs)))).
  { rewrite EL. eapply rd_at with (pre := words (Zlen secs :: offs) ++ concat (firstn sec secs))
      (post := concat (skipn (i - sec) (skipn sec secs))).
    - rewrite <- !app_assoc. f_equal. rewrite <- !concat_app. rewrite firstn_skipn, firstn_skipn. reflexivity.
    - rewrite Zlen_app. unfold offs, lens, h. rewrite words_head. unfold start. f_equal. unfold lens. rewrite firstn_map, lens_sum. reflexivity.
    - rewrite Hsum. unfold Zlen. lia. }
  destruct (Z.leb_spec (Zlen secs) (Z.of_nat i)) as [Hi|Hi].
  - rewrite Hb. cbn [or_ub bind]. rewrite map_length.
    replace (length secs <=? i)%nat with true by (symmetry; apply Nat.leb_le; unfold Zlen in Hi; lia). reflexivity.
  - rewrite Hb. cbn [or_ub bind]. rewrite map_length.
    replace (length secs <=? i)%nat with false by (symmetry; apply Nat.leb_gt; unfold Zlen in Hi; lia).
    replace (length ms <=? md)%nat with false; [reflexivity|].
    symmetry; apply Nat.leb_gt. apply nth_error_Some. congruence.
Qed.

Definition fair_group (limit : Z) (g : list (list Z)) : Prop :=
  g <> [] /\ (length g = 1%nat \/ Zlen (concat g) <= limit).

Lemma parts_layout : forall limit ms, Forall fitting ms -> forall fuel md sec secs, nth_error ms md = Some secs ->
  (sec < length secs)%nat -> (length (skipn sec secs) + length (concat (skipn (S md) ms)) <= fuel)%nat ->
  exists groups, loaded_parts fuel limit (map layout ms) md sec = Some (map (@concat Z) groups) /\
    concat groups = skipn sec secs ++ concat (skipn (S md) ms) /\ Forall (fair_group limit) groups.
Proof.
  intros limit ms HM. induction fuel as [|fuel IH]; intros md sec secs Hn Hs Hf.
  { rewrite skipn_length in Hf. lia. }
  destruct (load_part_layout limit ms md sec secs HM Hn Hs) as (n & N1 & N2 & N3 & HLP).
  cbn [loaded_parts]. rewrite HLP.
  set (grp := firstn n (skipn sec secs)) in *.
  assert (LG : length grp = n). { unfold grp. rewrite firstn_length, skipn_length. lia. }
  assert (FG : fair_group limit grp). { split; [intros E; rewrite E in LG; cbn in LG; lia|rewrite LG; exact N3]. }
  assert (SPL : skipn sec secs = grp ++ skipn (sec + n) secs).
  { unfold grp. rewrite <- skipn_add. symmetry. apply firstn_skipn. }
  rewrite SPL in Hf |- *. rewrite app_length, LG in Hf.
  destruct (Nat.leb_spec (length secs) (sec + n)) as [HE|HE].
  - rewrite (skipn_all2 secs HE), app_nil_r in *. destruct (Nat.leb_spec (length ms) (S md)) as [HD|HD].
    + exists [grp]. rewrite (skipn_all2 ms HD). cbn. rewrite !app_nil_r. auto.
    + destruct (nth_error ms (S md)) as [secs'|] eqn:E'; [|apply nth_error_None in E'; lia].
      assert (SK : skipn (S md) ms = secs' :: skipn (S (S md)) ms).
      { clear - E'. revert E'. generalize (S md). intros k. revert ms. induction k; intros [|x ms] E; cbn in *; try discriminate.
        - injection E as ->. reflexivity.
        - apply IHk. exact E. }
      rewrite SK in Hf |- *. cbn [concat] in Hf |- *. rewrite app_length in Hf.
      assert (F' : fitting secs'). { eapply Forall_forall; [exact HM|]. eapply nth_error_In; eauto. }
      destruct (IH (S md) 0%nat secs' E') as (gs & G1 & G2 & G3).
      * destruct F' as [F' _]. destruct secs'; [congruence|cbn; lia].
      * rewrite skipn_O. change (length (@nil (list Z))) with 0%nat in Hf. lia.
      * exists (grp :: gs). rewrite G1. cbn [option_map map concat]. split; auto. split; [|constructor; auto].
        rewrite G2. reflexivity.
  - destruct (IH md (sec + n)%nat secs Hn HE ltac:(lia)) as (gs & G1 & G2 & G3).
    exists (grp :: gs). rewrite G1. cbn [option_map map concat]. split; auto. split; [|constructor; auto].
    rewrite G2, app_assoc. reflexivity.
Qed.

Lemma parts_all : forall limit ms, ms <> [] -> Forall (fun secs => secs <> [] /\ Zlen (layout secs) < 2 ^ 63) ms ->
  exists groups, loaded_parts (length (concat ms)) limit (map layout ms) 0 0 = Some (map (@concat Z) groups) /\
    concat groups = concat ms /\
    Forall (fun g => g <> [] /\ (length g = 1%nat \/ Zlen (concat g) <= limit)) groups.
Proof.
  intros limit [|secs ms] Hne HF; [congruence|]. destruct (Forall_inv HF) as [S1 S2].
  destruct (parts_layout limit (secs :: ms) HF (length (concat (secs :: ms))) 0 0 secs eq_refl) as (gs & G1 & G2 & G3).
  - destruct secs; [congruence|cbn; lia].
  - cbn [concat skipn]. rewrite app_length. lia.
  - exists gs. auto.
Qed.

Lemma section_at : forall secs i sec, nth_error secs i = Some sec -> Zlen (layout secs) < 2 ^ 63 ->
  rd (layout secs) (section_start secs i) (length sec) = Some sec /\
  rd_i64 (layout secs) 0 = Some (Zlen secs) /\
  rd_i64 (layout secs) (8 * (Z.of_nat i + 1)) = Some (section_start secs (S i)) /\
  section_start secs (S i) = section_start secs i + Zlen sec /\
  section_start secs 0 = 8 * (Zlen secs + 1) /\ section_start secs (length secs) = Zlen (layout secs).
Proof.
  intros secs i sec Hn HL. pose proof HL as HL'. rewrite layout_Zlen in HL'.
  destruct (nth_error_split _ _ Hn) as (a & b & E & La).
  assert (F1 : firstn i secs = a). { rewrite E, <- La, firstn_app, Nat.sub_diag, firstn_all. cbn. apply app_nil_r. }
  assert (F2 : concat (firstn (S i) secs) = concat a ++ sec).
  { rewrite E. replace (S i) with (length a + 1)%nat by lia. rewrite firstn_app_2. cbn. rewrite concat_app. cbn. rewrite app_nil_r. reflexivity. }
  assert (F3 : concat secs = concat a ++ sec ++ concat b). { rewrite E, concat_app. reflexivity. }
  pose proof (Zlen_nonneg _ secs) as P1. pose proof (Zlen_nonneg _ (concat a)) as P2. pose proof (Zlen_nonneg _ (concat b)) as P3. pose proof (Zlen_nonneg _ sec) as P4.
  rewrite F3, !Zlen_app in HL'.
  assert (HW := words_head secs). rewrite <- layout_start_words in HW.
  split; [|split; [|split; [|split; [|split]]]].
  - unfold layout. cbn zeta. eapply rd_at with (pre := _ ++ concat a) (post := concat b); [rewrite F3, <- app_assoc; reflexivity| |reflexivity].
    rewrite Zlen_app, HW. unfold section_start. rewrite F1. reflexivity.
  - unfold layout. cbn zeta. cbn [words flat_map]. eapply rd_i64_at with (pre := []); [|reflexivity|lia].
    cbn [app]. rewrite <- app_assoc. reflexivity.
  - unfold layout. cbn zeta. set (f := fun k => _ + Zlen (concat (firstn (S k) secs))).
    assert (SQ : seq 0 (length secs) = seq 0 i ++ i :: seq (S i) (length b)).
    { rewrite E, app_length. cbn [length]. rewrite seq_app. cbn [seq Nat.add]. rewrite La. reflexivity. }
    rewrite SQ, map_app. cbn [map]. 
    eapply rd_i64_at with (pre := words (Zlen secs :: map f (seq 0 i))) (post := words (map f (seq (S i) (length b))) ++ concat secs).
    + unfold words. cbn [flat_map]. rewrite flat_map_app. cbn [flat_map]. rewrite <- !app_assoc. reflexivity.
    + unfold Zlen. rewrite words_length. cbn [length]. rewrite map_length, seq_length. lia.
    + unfold section_start. rewrite F2, Zlen_app. lia.
  - unfold section_start. rewrite F1, F2, Zlen_app. lia.
  - unfold section_start. cbn. lia.
  - unfold section_start. rewrite firstn_all, layout_Zlen. reflexivity.
Qed.
