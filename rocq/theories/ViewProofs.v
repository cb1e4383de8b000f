(** The file view of a read. *)
From Verif Require Import Base BaseProofs Spec MetaModel QueueModel FlushModel IndexModel ReadModel SysModel
  PendModel PendSpec GeomProofs MetaProofs SortProofs ReadProofs HitProofs.
From Coq Require Import ZifyNat ZifyN Permutation.

Lemma SS_app : forall A (R : A -> A -> Prop) a b, StronglySorted R a -> StronglySorted R b ->
  (forall x y, In x a -> In y b -> R x y) -> StronglySorted R (a ++ b).
Proof.
  induction a as [|x a IH]; intros b Ha Hb H; [exact Hb|]. cbn. inversion Ha; subst. constructor.
  - apply IH; auto. intros; apply H; cbn; auto.
  - apply Forall_app. split; auto. apply Forall_forall. intros y Hy. apply H; cbn; auto.
Qed.

Lemma byte_range_sorted : forall x n, StronglySorted Z.lt (byte_range x n).
Proof.
  intros x n. destruct (Z_le_gt_dec 0 n) as [H|H].
  - replace n with (Z.of_nat (Z.to_nat n)) by lia. induction (Z.to_nat n) as [|k IH].
    + constructor.
    + replace (Z.of_nat (S k)) with (Z.of_nat k + 1) by lia. rewrite byte_range_app by lia. apply SS_app; auto.
      * unfold byte_range. cbn. constructor; constructor.
      * intros a b Ha Hb. apply In_byte_range in Ha, Hb. lia.
  - unfold byte_range. rewrite zseq_0 by lia. constructor.
Qed.

(** ** Trimmed rows *)
Definition rbytes (r : row) : list Z := byte_range (ro_f r) (ro_len r).
Definition nsorted (rs : list row) : Prop :=
  ForallOrdPairs (fun k l => 0 < ro_len l -> ro_f k <= ro_f l) rs.

Lemma rbytes_pairs : forall r, map fst (row_pairs r) = rbytes r.
Proof. intros r. unfold row_pairs, rbytes. apply map_fst_combine. rewrite !byte_range_length. reflexivity. Qed.

Definition trimmed (k l : row) : row :=
  if ro_f l <? ro_f k + ro_len k then
    let size := Z.min (ro_len l) (ro_f k - ro_f l + ro_len k) in
    mkrow (ro_f l + size) (ro_m l + size) (ro_len l - size)
  else l.

Lemma trim_later_fst : forall k ls, fst (trim_later k ls) = map (trimmed k) ls.
Proof.
  intros k. induction ls as [|l ls IH]; [reflexivity|]. cbn [trim_later map]. unfold trimmed at 1.
  destruct (ro_f l <? ro_f k + ro_len k); destruct (trim_later k ls); cbn [fst] in *; congruence.
Qed.

Lemma trim_sorted : forall n rs, (length rs <= n)%nat -> Forall (fun r => 0 <= ro_len r) rs -> nsorted rs ->
  StronglySorted Z.lt (flat_map rbytes (fst (trim n rs))) /\
  (forall z, In z (flat_map rbytes (fst (trim n rs))) -> In z (flat_map rbytes rs)).
Proof.
  induction n as [|n IH]; intros rs Hl Hp Hs.
  { destruct rs; [|cbn in Hl; lia]. split; [constructor|auto]. }
  destruct rs as [|k rest]; [split; [constructor|auto]|]. cbn [trim].
  pose proof (trim_later_fst k rest) as HT. destruct (trim_later k rest) as [rest' cs]. cbn [fst] in HT. subst rest'.
  inversion Hs as [|? ? Hk Hs']; subst. inversion Hp as [|? ? Pk Pr]; subst.
  rewrite Forall_forall in Hk, Pr.
  assert (H1 : Forall (fun r => 0 <= ro_len r) (map (trimmed k) rest)).
  { apply Forall_forall. intros r Hr. apply in_map_iff in Hr. destruct Hr as (l & <- & Hl'). specialize (Pr l Hl'). unfold trimmed.
    destruct (ro_f l <? _); cbn; lia. }
  assert (H2 : nsorted (map (trimmed k) rest)).
  { clear - Hs' Pr Pk. unfold nsorted in *. apply FOP_map. revert Hs'. apply FOP_impl_In. intros a b Ha Hb H.
    pose proof (Pr a Ha). pose proof (Pr b Hb). unfold trimmed.
    destruct (Z.ltb_spec (ro_f a) (ro_f k + ro_len k)); destruct (Z.ltb_spec (ro_f b) (ro_f k + ro_len k)); cbn; intros; lia. }
  assert (Hl2 : (length (map (trimmed k) rest) <= n)%nat) by (rewrite map_length; cbn in Hl; lia).
  destruct (IH _ Hl2 H1 H2) as [I1 I2]. destruct (trim n (map (trimmed k) rest)) as [r2 cs2]. cbn [fst] in *. cbn [flat_map].
  assert (Hsub : forall z, In z (flat_map rbytes (map (trimmed k) rest)) -> In z (flat_map rbytes rest) /\ ro_f k + ro_len k <= z).
  { intros z Hz. apply in_flat_map in Hz. destruct Hz as (r & Hr & Hz). apply in_map_iff in Hr. destruct Hr as (l & <- & Hl').
    specialize (Pr l Hl'). specialize (Hk l Hl'). unfold rbytes in Hz. apply In_byte_range in Hz. revert Hz. unfold trimmed.
    assert (HQ : forall z, ro_f l <= z < ro_f l + ro_len l -> In z (flat_map rbytes rest)).
    { intros y Hy. apply in_flat_map. exists l. split; auto. unfold rbytes. apply In_byte_range. exact Hy. }
    destruct (Z.ltb_spec (ro_f l) (ro_f k + ro_len k)); cbn [ro_f ro_len]; intros Hz; (split; [apply HQ|]); lia. }
  split.
  - apply SS_app; auto.
    + apply byte_range_sorted.
    + intros x y Hx Hy. apply In_byte_range in Hx. apply I2, Hsub in Hy. lia.
  - intros z Hz. apply in_app_or in Hz. apply in_or_app. destruct Hz as [Hz|Hz]; [left; exact Hz|right]. apply I2, Hsub in Hz. tauto.
Qed.

(** ** One piece *)
Definition pbytes (s : sret) : list Z := map fst (single_pairs s).

Lemma piece_sr_ok : forall s, piece_ok s -> sr_ok s.
Proof.
  intros s (H1 & H2 & H3 & H4 & H5 & H6 & H7 & H8). constructor; auto.
  clear - H6 H7 H5. revert H5 H6 H7. generalize (sr_dstart s), (sr_dsize s). induction (sr_count s) as [|c cs IH]; intros st sz L F E; constructor.
  - destruct st; [discriminate|]. destruct sz; [discriminate|]. cbn in F. inversion F; subst. cbn in *. lia.
  - destruct st; [discriminate|]. destruct sz; [discriminate|]. cbn in F. inversion F; subst. apply (IH st sz); cbn in *; auto; lia.
Qed.

Lemma subarray_length : forall d1 d2 es s1 s2 sub st1 st2, length st1 = length sub -> length st2 = length sub ->
  length (subarray d1 es s1 sub st1) = length (subarray d2 es s2 sub st2).
Proof.
  intros d1 d2 es s1 s2 sub st1 st2 L1 L2. unfold subarray.
  assert (H : forall d s l, length (flat_map (fun c => byte_range (d + lin es s c) es) l) = (Z.to_nat es * length l)%nat).
  { intros d s. induction l as [|c l IH]; cbn [flat_map length]; [lia|]. rewrite app_length, byte_range_length, IH. lia. }
  rewrite !H. f_equal. clear - L1 L2. revert st1 st2 L1 L2. induction sub as [|n sub IH]; intros [|a st1] [|b st2] L1 L2; try discriminate; [reflexivity|].
  cbn in L1, L2. cbn [coords_of].
  assert (HL : forall (x : Z) (l : list Z) (g1 : list (list Z)), length (flat_map (fun i => map (cons (x + i)) g1) l) = (length l * length g1)%nat).
  { intros x l g1. induction l as [|i l IHl]; [reflexivity|]. cbn [flat_map length]. rewrite app_length, map_length, IHl. lia. }
  rewrite !HL. f_equal. apply IH; lia.
Qed.

Lemma pbytes_sub : forall s, piece_ok s -> pbytes s = subarray (block_from s) (sr_esize s) (sr_dsize s) (sr_count s) (sr_dstart s).
Proof.
  intros s (H1 & H2 & H3 & H4 & H5 & H6 & H7 & H8). unfold pbytes, single_pairs. apply map_fst_combine.
  apply subarray_length; congruence.
Qed.

Lemma coords_sorted : forall sz st ct, length sz = length ct ->
  Forall2 (fun n p => 0 <= fst p /\ 0 < snd p /\ fst p + snd p <= n) sz (combine st ct) -> length st = length ct ->
  StronglySorted Z.lt (map (rm sz) (coords_of st ct)) /\
  Forall (fun c => length c = length sz) (coords_of st ct) /\
  Forall (fun z => 0 <= z < Zprod sz) (map (rm sz) (coords_of st ct)).
Proof.
  induction sz as [|n sz IH]; intros st ct L F E.
  - destruct ct; [|discriminate]. destruct st; [|discriminate]. cbn. split; [repeat constructor|split; [repeat constructor|]]. constructor; [lia|constructor].
  - destruct ct as [|c ct]; [discriminate|]. destruct st as [|a st]; [discriminate|]. cbn in L, E, F. inversion F as [|? ? ? ? F1 F2]; subst. cbn in F1.
    destruct (IH st ct ltac:(lia) F2 ltac:(lia)) as (I1 & I2 & I3). cbn [coords_of].
    assert (HP : 0 <= Zprod sz).
    { clear - F2. generalize dependent (combine st ct). induction sz as [|m sz IH]; intros l F; [cbn; lia|]. inversion F; subst. rewrite Zprod_cons.
      apply Z.mul_nonneg_nonneg; [lia|]. eapply IH; eauto. }
    assert (HM : forall i, map (rm (n :: sz)) (map (cons (a + i)) (coords_of st ct)) = map (fun z => (a + i) * Zprod sz + z) (map (rm sz) (coords_of st ct))).
    { intros i. rewrite !map_map. apply map_ext_in. intros x Hx. cbn. reflexivity. }
    assert (Hone : forall i, StronglySorted Z.lt (map (rm (n :: sz)) (map (cons (a + i)) (coords_of st ct)))).
    { intros i. rewrite HM. clear - I1. induction I1; cbn; constructor; auto. rewrite Forall_map. revert H. apply Forall_impl. intros; lia. }
    assert (Hin : forall i z, In z (map (rm (n :: sz)) (map (cons (a + i)) (coords_of st ct))) -> (a + i) * Zprod sz <= z < (a + i) * Zprod sz + Zprod sz).
    { intros i z Hz. rewrite HM in Hz. apply in_map_iff in Hz. destruct Hz as (y & <- & Hy). rewrite Forall_forall in I3. specialize (I3 y Hy). lia. }
    assert (HZ : forall k, StronglySorted Z.lt (map (rm (n :: sz)) (flat_map (fun i => map (cons (a + i)) (coords_of st ct)) (zseq (Z.of_nat k)))) /\
       Forall (fun z => a * Zprod sz <= z < (a + Z.of_nat k) * Zprod sz) (map (rm (n :: sz)) (flat_map (fun i => map (cons (a + i)) (coords_of st ct)) (zseq (Z.of_nat k))))).
    { induction k as [|k [K1 K2]]; [cbn; split; constructor|]. replace (Z.of_nat (S k)) with (Z.of_nat k + 1) by lia.
      rewrite zseq_succ by lia. rewrite flat_map_app, map_app. cbn [flat_map]. rewrite app_nil_r. rewrite Forall_forall in K2. split.
      - apply SS_app; auto. intros x y Hx Hy. specialize (K2 x Hx). apply Hin in Hy. lia.
      - apply Forall_app. split; apply Forall_forall; intros x Hx; [specialize (K2 x Hx)|apply Hin in Hx]; nia. }
    replace c with (Z.of_nat (Z.to_nat c)) by lia. destruct (HZ (Z.to_nat c)) as [Z1 Z2]. split; [exact Z1|]. split.
    + apply Forall_forall. intros x Hx. apply in_flat_map in Hx. destruct Hx as (i & _ & Hx). apply in_map_iff in Hx.
      destruct Hx as (y & <- & Hy). rewrite Forall_forall in I2. cbn. f_equal. auto.
    + revert Z2. apply Forall_impl. intros z Hz. rewrite Zprod_cons. nia.
Qed.

Lemma subarray_sorted : forall d es sz st ct, 0 < es -> length sz = length ct ->
  Forall2 (fun n p => 0 <= fst p /\ 0 < snd p /\ fst p + snd p <= n) sz (combine st ct) -> length st = length ct ->
  StronglySorted Z.lt (subarray d es sz ct st) /\
  Forall (fun z => d <= z < d + es * Zprod sz) (subarray d es sz ct st).
Proof.
  intros d es sz st ct He L F E. destruct (coords_sorted sz st ct L F E) as (C1 & C2 & C3). unfold subarray, lin.
  generalize dependent (coords_of st ct). induction l as [|c l IH]; intros C1 C2 C3; [split; constructor|].
  cbn [map] in C1, C3. apply StronglySorted_inv in C1. destruct C1 as [C1 C1']. apply Forall_inv in C3 as C3'. apply Forall_inv_tail in C3.
  apply Forall_inv_tail in C2 as C2'. apply Forall_inv in C2.
  destruct (IH C1 C2' C3) as [I1 I2]. cbn [flat_map].
  assert (HR : sel_encode (dsteps_of sz) c = rm sz c) by (apply sel_encode_rm). rewrite HR.
  split.
  - apply SS_app; auto; [apply byte_range_sorted|]. intros x y Hx Hy. apply In_byte_range in Hx. apply in_flat_map in Hy.
    destruct Hy as (c' & Hc' & Hy). apply In_byte_range in Hy. rewrite sel_encode_rm in Hy.
    assert (rm sz c < rm sz c') by (rewrite Forall_forall in C1'; apply C1'; apply in_map; auto). nia.
  - apply Forall_app. split; auto. apply Forall_forall. intros z Hz. apply In_byte_range in Hz. nia.
Qed.

Lemma pbytes_sorted : forall s, piece_ok s -> StronglySorted Z.lt (pbytes s) /\ Forall (fun z => block_from s <= z < block_to s) (pbytes s).
Proof.
  intros s H. rewrite pbytes_sub by auto. destruct H as (H1 & H2 & H3 & H4 & H5 & H6 & H7 & H8). unfold block_to.
  apply subarray_sorted; auto.
Qed.

Lemma block_nonempty : forall s, piece_ok s -> block_from s < block_to s.
Proof.
  intros s (H1 & H2 & H3 & H4 & H5 & H6 & H7 & H8). unfold block_to.
  assert (0 < Zprod (sr_dsize s)).
  { clear - H6. generalize dependent (combine (sr_dstart s) (sr_count s)). induction (sr_dsize s) as [|m sz IH]; intros l F; [cbn; lia|].
    inversion F; subst. rewrite Zprod_cons. apply Z.mul_pos_pos; [lia|]. eapply IH; eauto. }
  nia.
Qed.

(** ** Groups *)
Definition before (x y : sret) : Prop := forall a b, In a (pbytes x) -> In b (pbytes y) -> a < b.
Definition related (s t : sret) : Prop := blocks_apart s t \/ same_1d_block s t.

Record dim1 (s : sret) (n a c : Z) : Prop := {
  d1_sz : sr_dsize s = [n]; d1_st : sr_dstart s = [a]; d1_ct : sr_count s = [c];
  d1_r : 0 <= a /\ 0 < c /\ a + c <= n }.
Lemma dim1_of : forall s, piece_ok s -> length (sr_dsize s) = 1%nat -> exists n a c, dim1 s n a c.
Proof.
  intros s (H1 & H2 & H3 & H4 & H5 & H6 & H7 & H8) E.
  destruct (sr_dsize s) as [|n [|? ?]] eqn:Es; try discriminate.
  destruct (sr_count s) as [|c [|? ?]] eqn:Ec; try discriminate.
  destruct (sr_dstart s) as [|a [|? ?]] eqn:Et; try discriminate.
  exists n, a, c. cbn in H6. inversion H6; subst. cbn in *. constructor; auto.
Qed.
Lemma dim1_bytes : forall s n a c, piece_ok s -> dim1 s n a c ->
  forall z, In z (pbytes s) <-> block_from s + sr_esize s * a <= z < block_from s + sr_esize s * (a + c).
Proof.
  intros s n a c H [E1 E2 E3 R] z. rewrite pbytes_sub by auto. destruct H as (He & _). rewrite E1, E2, E3. unfold subarray, lin. cbn [coords_of].
  rewrite in_flat_map. split.
  - intros (x & Hx & Hz). apply in_flat_map in Hx. destruct Hx as (i & Hi & Hx). destruct Hx as [<-|[]].
    apply zseq_In in Hi. apply In_byte_range in Hz. cbn in Hz. nia.
  - intros Hz. set (k := (z - block_from s) / sr_esize s).
    assert (Hk : sr_esize s * k <= z - block_from s < sr_esize s * k + sr_esize s).
    { pose proof (Z.div_mod (z - block_from s) (sr_esize s) ltac:(lia)). pose proof (Z.mod_pos_bound (z - block_from s) (sr_esize s) He). fold k in H. lia. }
    exists [k]. split.
    + apply in_flat_map. exists (k - a). split; [apply zseq_In; nia|]. left. f_equal. lia.
    + apply In_byte_range. cbn. lia.
Qed.

Lemma sr_lt_key : forall a b, sr_lt b a = false -> sr_key a <= sr_key b.
Proof. intros a b. unfold sr_lt. destruct (Z.ltb_spec (sr_key b) (sr_key a)); [discriminate|]. lia. Qed.

Lemma apart_before : forall x y, piece_ok x -> piece_ok y -> sr_key x <= sr_key y -> blocks_apart x y -> before x y.
Proof.
  intros x y Hx Hy Hk Ha a b A B. destruct (pbytes_sorted x Hx) as [_ X]. destruct (pbytes_sorted y Hy) as [_ Y].
  rewrite Forall_forall in X, Y. specialize (X a A). specialize (Y b B). pose proof (block_nonempty x Hx). pose proof (block_nonempty y Hy).
  unfold blocks_apart, sr_key in *. fold (block_from x) in Hk. fold (block_from y) in Hk. lia.
Qed.

Lemma groups_before : forall rest cur j,
  Forall piece_ok (j :: cur ++ rest) ->
  (forall x y, In x (j :: cur) -> In y rest -> related x y) -> ForallOrdPairs related rest ->
  (forall x y, In x (j :: cur) -> In y rest -> sr_lt y x = false) ->
  StronglySorted (fun a b => sr_lt b a = false) rest ->
  (forall x, In x cur -> x = j \/ (same_1d_block x j /\ forall n a c n' a' c', dim1 x n a c -> dim1 j n' a' c' -> a + c <= a' + c')) ->
  ForallOrdPairs (fun g1 g2 => forall x y, In x g1 -> In y g2 -> before x y) (groups_from cur j rest).
Proof.
  induction rest as [|b rest IH]; intros cur j HP HR HRR HS HSS HI; cbn [groups_from].
  { constructor; constructor. }
  assert (HPj : piece_ok j) by (inversion HP; auto).
  assert (HPc : forall x, In x cur -> piece_ok x).
  { intros x Hx. rewrite Forall_forall in HP. apply HP. right. apply in_or_app. auto. }
  assert (HPr : forall x, In x (b :: rest) -> piece_ok x).
  { intros x Hx. rewrite Forall_forall in HP. apply HP. right. apply in_or_app. auto. }
  assert (HPb : piece_ok b) by (apply HPr; cbn; auto).
  inversion HSS as [|? ? S1 S2]; subst. inversion HRR as [|? ? R1 R2]; subst. rewrite Forall_forall in S2, R1.
  destruct ((sr_foff j =? sr_foff b) && (sr_doff j =? sr_doff b) && interleve (sr_dstart j) (sr_count j) (sr_dstart b)) eqn:E.
  - apply andb_prop in E. destruct E as [E E3]. apply andb_prop in E. destruct E as [E1 E2].
    apply Z.eqb_eq in E1, E2.
    assert (HJ : same_1d_block j b).
    { destruct (HR j b (or_introl eq_refl) (or_introl eq_refl)) as [A|A]; auto. exfalso.
      pose proof (block_nonempty j HPj). pose proof (block_nonempty b HPb). unfold blocks_apart, block_to, block_from in *. lia. }
    set (j' := if sr_gt b j then b else j).
    assert (Hj' : j' = b \/ j' = j) by (unfold j'; destruct (sr_gt b j); auto).
    apply IH; auto.
    + constructor; [destruct Hj' as [-> | ->]; auto|]. apply Forall_forall. intros x Hx. cbn in Hx. destruct Hx as [<-|Hx]; auto.
      apply in_app_or in Hx. destruct Hx; auto. apply HPr. cbn. auto.
    + intros x y Hx Hy. destruct Hx as [<-|[<-|Hx]]; auto.
      * destruct Hj' as [-> | ->]; auto. apply HR; cbn; auto.
      * apply HR; cbn; auto.
    + intros x y Hx Hy. destruct Hx as [<-|[<-|Hx]]; auto.
      * destruct Hj' as [-> | ->]; auto. apply HS; cbn; auto.
      * apply HS; cbn; auto.
    + assert (HE : forall n a c n' a' c', dim1 b n a c -> dim1 j n' a' c' -> j' = if a' + c' <? a + c then b else j).
      { intros n a c n' a' c' [B1 B2 B3 _] [J1 J2 J3 _]. unfold j', sr_gt. rewrite B2, B3, J2, J3. cbn [ends_gt].
        destruct (a' + c' <? a + c); reflexivity. }
      destruct HJ as (Q1 & Q2 & Q3 & Q4 & Q5).
      destruct (dim1_of j HPj Q5) as (jn & ja & jc & Dj). destruct (dim1_of b HPb ltac:(congruence)) as (bn & ba & bc & Db).
      specialize (HE _ _ _ _ _ _ Db Dj).
      assert (HU : forall s n a c n' a' c', dim1 s n a c -> dim1 s n' a' c' -> a = a' /\ c = c').
      { intros s n a c n' a' c' [A1 A2 A3 _] [B1 B2 B3 _]. rewrite A2 in B2. rewrite A3 in B3. split; congruence. }
      intros x Hx. rewrite HE. destruct (Z.ltb_spec (ja + jc) (ba + bc)) as [Hlt|Hge].
      * destruct Hx as [<-|Hx]; [auto|]. right. destruct (HI x Hx) as [-> | [X1 X2]].
        -- split; [repeat split; auto|]. intros n a c n' a' c' U V. destruct (HU _ _ _ _ _ _ _ U Dj). destruct (HU _ _ _ _ _ _ _ V Db). lia.
        -- destruct X1 as (Y1 & Y2 & Y3 & Y4 & Y5). split; [repeat split; congruence|]. intros n a c n' a' c' U V.
           specialize (X2 _ _ _ _ _ _ U Dj). destruct (HU _ _ _ _ _ _ _ V Db). lia.
      * destruct Hx as [<-|Hx]; [|auto]. right. split; [repeat split; congruence|]. intros n a c n' a' c' U V.
        destruct (HU _ _ _ _ _ _ _ U Db). destruct (HU _ _ _ _ _ _ _ V Dj). lia.
  - assert (HB : forall x y, In x (j :: cur) -> In y (b :: rest) -> before x y).
    { intros x y Hx Hy. assert (PX : piece_ok x) by (destruct Hx as [<-|Hx]; auto). assert (PY : piece_ok y) by auto.
      pose proof (sr_lt_key _ _ (HS x y Hx Hy)) as HK.
      destruct (HR x y Hx Hy) as [A|A]; [apply apart_before; auto|].
      assert (XJ : x = j \/ (same_1d_block x j /\ forall n a c n' a' c', dim1 x n a c -> dim1 j n' a' c' -> a + c <= a' + c')).
      { destruct Hx as [<-|Hx]; auto. }
      assert (JY : same_1d_block j y).
      { destruct XJ as [<-|[(X1 & X2 & X3 & X4 & X5) _]]; auto. destruct A as (A1 & A2 & A3 & A4 & A5). repeat split; congruence. }
      assert (JB : same_1d_block j b).
      { destruct (HR j b (or_introl eq_refl) (or_introl eq_refl)) as [B|B]; auto. exfalso.
        assert (K1 : sr_key j <= sr_key b) by (apply sr_lt_key, HS; cbn; auto).
        assert (K2 : sr_key b <= sr_key y) by (destruct Hy as [<-|Hy]; [lia|apply sr_lt_key; auto]).
        pose proof (block_nonempty j HPj). pose proof (block_nonempty b HPb). destruct JY as (A1 & A2 & _).
        unfold blocks_apart, block_to, block_from, sr_key in *. lia. }
      destruct JY as (Y1 & Y2 & Y3 & Y4 & Y5). destruct JB as (B1 & B2 & B3 & B4 & B5).
      destruct (dim1_of j HPj Y5) as (jn & ja & jc & Dj). destruct (dim1_of b HPb ltac:(congruence)) as (bn & ba & bc & Db).
      destruct (dim1_of y PY ltac:(congruence)) as (yn & ya & yc & Dy).
      assert (HIv : ja + jc - 1 < ba).
      { rewrite (proj2 (Z.eqb_eq _ _) B1), (proj2 (Z.eqb_eq _ _) B2) in E. cbn [andb] in E. destruct Dj as [_ J2 J3 _]. destruct Db as [_ D2 _ _].
        rewrite J2, J3, D2 in E. cbn [interleve] in E. destruct (Z.ltb_spec (ja + jc - 1) ba); auto. destruct (ba <? ja + jc - 1); discriminate. }
      assert (HBY : ba <= ya).
      { destruct Hy as [<-|Hy].
        - destruct Db as [_ D2 _ _]. destruct Dy as [_ D3 _ _]. rewrite D2 in D3. injection D3. lia.
        - specialize (S2 y Hy). unfold sr_lt in S2. unfold sr_key in S2. rewrite <- B1, <- B2, <- Y1, <- Y2 in S2. rewrite Z.ltb_irrefl in S2.
          destruct Db as [_ D2 _ _]. destruct Dy as [_ D3 _ _]. rewrite D2, D3 in S2. cbn [lex_lt] in S2. destruct (Z.ltb_spec ya ba); [discriminate|lia]. }
      intros p q P Q. destruct A as (A1 & A2 & A3 & A4 & A5).
      destruct (dim1_of x PX A5) as (xn & xa & xc & Dx).
      assert (HXE : xa + xc <= ja + jc).
      { destruct XJ as [-> | [_ X]]; [|eapply X; eauto]. destruct Dx as [_ D2 D3 _]. destruct Dj as [_ D4 D5 _]. rewrite D2 in D4. rewrite D3 in D5. injection D4. injection D5. lia. }
      rewrite (dim1_bytes _ _ _ _ PX Dx) in P. rewrite (dim1_bytes _ _ _ _ PY Dy) in Q.
      unfold block_from in *. rewrite A1, A2, A3 in P. destruct PY as (He & _). nia. }
    constructor.
    + apply Forall_forall. intros g Hg x y Hx Hy. apply HB.
      * apply in_rev in Hx. cbn. auto.
      * assert (In y (concat (groups_from [b] b rest))) by (apply in_concat; exists g; auto). rewrite groups_from_concat in H. cbn in H. auto.
    + apply IH; auto.
      * constructor; auto. constructor; auto. apply Forall_forall. intros x Hx. apply HPr. cbn. auto.
      * intros x y Hx Hy. destruct Hx as [<-|[<-|[]]]; auto.
      * intros x y Hx Hy. destruct Hx as [<-|[<-|[]]]; auto.
      * intros x Hx. destruct Hx as [<-|[]]. auto.
Qed.

(** ** One group *)
Lemma rows_sorted_n : forall rs, rsorted rs -> nsorted rs.
Proof.
  intros rs H. unfold nsorted. induction H as [|r l H IH HF]; constructor; auto. revert HF. apply Forall_impl. intros x Hx _. exact Hx.
Qed.

Lemma group_view : forall g, Forall piece_ok g ->
  StronglySorted Z.lt (map fst (fst (group_rtype g))) /\
  (forall z, In z (map fst (fst (group_rtype g))) -> exists s, In s g /\ In z (pbytes s)).
Proof.
  intros g HP.
  assert (HM : forall g, Forall piece_ok g ->
    let rs := flat_map rows_of g in let t := trim (length rs) (sortoffsets (S (length rs)) rs) in
    StronglySorted Z.lt (map fst (flat_map row_pairs (fst t))) /\
    (forall z, In z (map fst (flat_map row_pairs (fst t))) -> exists s, In s g /\ In z (pbytes s))).
  { clear. intros g HP rs t.
    assert (HF : forall l, map fst (flat_map row_pairs l) = flat_map rbytes l).
    { induction l as [|r l IH]; [reflexivity|]. cbn [flat_map]. rewrite map_app, IH, rbytes_pairs. reflexivity. }
    rewrite HF. destruct (sortoffsets_ok (S (length rs)) rs ltac:(lia)) as [O1 O2].
    assert (HL : Forall (fun r => 0 <= ro_len r) (sortoffsets (S (length rs)) rs)).
    { eapply Permutation_Forall; [exact O2|]. apply Forall_forall. intros r Hr. unfold rs in Hr. apply in_flat_map in Hr. destruct Hr as (s & Hs & Hr).
      rewrite Forall_forall in HP. pose proof (rows_len_pos s r (piece_sr_ok s (HP s Hs)) Hr). lia. }
    destruct (trim_sorted (length rs) (sortoffsets (S (length rs)) rs)) as [T1 T2]; auto.
    - rewrite <- (Permutation_length O2). lia.
    - apply rows_sorted_n. exact O1.
    - fold t in T1, T2. split; auto. intros z Hz. apply T2 in Hz. apply in_flat_map in Hz. destruct Hz as (r & Hr & Hz).
      eapply Permutation_in in Hr; [|apply Permutation_sym; exact O2]. unfold rs in Hr. apply in_flat_map in Hr. destruct Hr as (s & Hs & Hr).
      exists s. split; auto. rewrite Forall_forall in HP. unfold pbytes. rewrite <- (rows_pairs s (piece_sr_ok s (HP s Hs))), HF.
      apply in_flat_map. exists r. auto. }
  destruct g as [|s [|s' g]].
  - split; [constructor|intros z []].
  - cbn [group_rtype fst]. apply Forall_inv in HP. split; [apply (pbytes_sorted s HP)|]. intros z Hz. exists s. cbn. auto.
  - specialize (HM _ HP). cbn zeta in HM. unfold group_rtype. destruct (trim _ _) as [rs' cs]. exact HM.
Qed.

(** ** The whole view *)
Theorem view_legal : forall sort blocks, is_sort sort -> Forall piece_ok blocks ->
  ForallOrdPairs (fun s t => blocks_apart s t \/ same_1d_block s t) blocks ->
  legal_view (file_view sort blocks).
Proof.
  intros sort blocks Hsort HP HR. destruct (Hsort blocks) as [S1 S2]. unfold file_view, gen_rtypes, legal_view. cbn [fst].
  assert (HP' : Forall piece_ok (sort blocks)) by (eapply Permutation_Forall; eauto).
  assert (HR' : ForallOrdPairs related (sort blocks)).
  { eapply FOP_perm; eauto. intros x y [H|H]; [left|right]; unfold blocks_apart, same_1d_block in *.
    - tauto.
    - destruct H as (A1 & A2 & A3 & A4 & A5). repeat split; congruence. }
  assert (HG : ForallOrdPairs (fun g1 g2 => forall x y, In x g1 -> In y g2 -> before x y) (groups (sort blocks))).
  { unfold groups. destruct (sort blocks) as [|b rest]; [constructor|].
    inversion S2; subst. inversion HR'; subst. inversion HP'; subst. rewrite Forall_forall in *. apply groups_before; auto.
    - constructor; auto. constructor; auto. apply Forall_forall. auto.
    - intros x y [<-|[<-|[]]] Hy; auto.
    - intros x y [<-|[<-|[]]] Hy; auto.
    - intros x [<-|[]]; auto. }
  assert (HC : Forall piece_ok (concat (groups (sort blocks)))) by (rewrite groups_concat; exact HP').
  clear - HG HC. induction (groups (sort blocks)) as [|g gs IH]; [constructor|]. inversion HG as [|? ? G1 G2]; subst.
  cbn [concat] in HC. apply Forall_app in HC. destruct HC as [C1 C2]. cbn [map flat_map]. rewrite map_app.
  destruct (group_view g C1) as [V1 V2]. apply SS_app; auto.
  intros x y Hx Hy. destruct (V2 x Hx) as (s & Hs & Hxs). rewrite Forall_forall in G1.
  assert (HY : exists g' t, In g' gs /\ In t g' /\ In y (pbytes t)).
  { clear - Hy C2. induction gs as [|g' gs IH]; [destruct Hy|]. cbn [map flat_map] in Hy. rewrite map_app in Hy. cbn [concat] in C2. apply Forall_app in C2.
    apply in_app_or in Hy. destruct Hy as [Hy|Hy].
    - destruct (group_view g' (proj1 C2)) as [_ V]. destruct (V y Hy) as (t & T1 & T2). exists g', t. cbn. auto.
    - destruct (IH (proj2 C2) Hy) as (g2 & t & T1 & T2 & T3). exists g2, t. cbn. auto. }
  destruct HY as (g' & t & T1 & T2 & T3). exact (G1 g' T1 s t Hs T2 x y Hxs T3).
Qed.
