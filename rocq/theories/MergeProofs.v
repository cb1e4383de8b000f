(** Proofs about merged requests. *)
From Verif Require Import Base BaseProofs Spec MetaModel MetaProofs LocalSpec MetaClaims MergeModel.
From Coq Require Import ZifyNat.

(** Settings with which a merged entry is what its header says. *)
Definition plain_cfg (cfg : Z) (d : dinfo) : Prop :=
  has cfg CFG_SEL_DEFLATE = false /\ (has cfg CFG_SEL_ENCODE = false \/ (di_ndim d <= 1)%nat).

Lemma init_plain : forall cfg did d, plain_cfg cfg d ->
  merge_init cfg did d = mkmreq did FLAG_MUL_SEL 0 [] [].
Proof.
  intros cfg did d [H1 H2]. unfold merge_init. rewrite H1.
  replace ((1 <? di_ndim d)%nat && has cfg CFG_SEL_ENCODE) with false; [reflexivity|].
  destruct H2 as [H2|H2]; [rewrite H2, andb_false_r; reflexivity|].
  replace (1 <? di_ndim d)%nat with false by (symmetry; apply Nat.ltb_ge; lia). reflexivity.
Qed.

Lemma append_plain : forall d m sels data, m_flag m = FLAG_MUL_SEL ->
  merge_append d m sels data =
    mkmreq (m_did m) FLAG_MUL_SEL (m_nsel m + Zlen sels)
      (m_tail m ++ words (encode_words None 0 sels)) (m_data m ++ data).
Proof. intros d m sels data E. unfold merge_append. rewrite E. reflexivity. Qed.

(** An entry whose bytes are those of a list of blocks is read as that list. *)
Lemma merged_decode : forall z d did sels data foff pre post,
  0 <= did < 2 ^ 31 -> coordinate foff -> coordinate (Zlen data) ->
  0 < Zlen sels < 2 ^ 31 -> Forall (well_shaped (di_ndim d)) sels ->
  let w := published (merge_entry (mkmreq did FLAG_MUL_SEL (Zlen sels) (words (encode_words None 0 sels)) data))
                     foff (Zlen data) in
  Zlen (wreq_bytes w) < 2 ^ 31 ->
  exists m, decode z d (pre ++ wreq_bytes w ++ post) (Zlen pre) = Ok m /\
    describes m did foff (Zlen data) (di_esize d) sels /\
    me_dsize m = di_esize d * count_elems sels.
Proof.
  intros z d did sels data foff pre post Hdid Hfo Hfs Hn Hs w Hw.
  assert (HB : body_ok false true false (di_dims d) sels).
  { split; [exact Hn|]. split; [discriminate|]. split; [exact Hs|]. split; discriminate. }
  set (h := mkhdr (Z.of_nat HDR + 4 + Zlen (words (encode_words None 0 sels))) did FLAG_MUL_SEL foff (Zlen data)).
  assert (Hwb : wreq_bytes w = enc_hdr h ++ body false true false (di_dims d) sels) by reflexivity.
  assert (Hh : hdr_ok h).
  { rewrite Hwb, Zlen_app in Hw. unfold Zlen in Hw at 1. rewrite enc_hdr_length in Hw.
    unfold body, selpart in Hw. cbn [app] in Hw. rewrite Zlen_app in Hw. unfold Zlen in Hw at 1.
    rewrite le_length in Hw. change (Z.of_nat HDR) with 28 in *. unfold hdr_ok, h.
    cbn [h_size h_did h_flag h_foff h_fsize]. unfold coordinate in *. change (Z.of_nat HDR) with 28.
    assert (0 <= Zlen (words (encode_words None 0 sels))) by (apply Zle_0_nat).
    unfold FLAG_MUL_SEL. revert Hw Hfo Hfs Hdid H. clear.
    generalize (Zlen (words (encode_words None 0 sels))) (Zlen data). intros. repeat split; lia. }
  pose proof (decode_ok z d (pre ++ wreq_bytes w ++ post) pre post (Zlen pre) h false true false (di_dims d) sels
                Hh eq_refl eq_refl eq_refl eq_refl eq_refl HB) as HD.
  rewrite Hwb, <- app_assoc in *. specialize (HD eq_refl eq_refl).
  eexists. split; [exact HD|]. split.
  - apply (describes_doffs h (di_ndim d)). auto.
  - cbn [me_dsize]. rewrite Nat.sub_0_r. apply dsize_whole; auto.
    intros ->. clear - Hn. cbn in Hn. lia.
Qed.

(** Two one-block writes leave the bytes of a write of other blocks: the start of the first with
    the start of the second as count, and the counts of both. *)
Definition crossed (a b : block) : list block :=
  [mkblock (b_start a) (b_start b); mkblock (b_count a) (b_count b)].

Lemma two_appends : forall cfg did d a b da db, plain_cfg cfg d ->
  merge_append d (merge_append d (merge_init cfg did d) [a] da) [b] db =
    mkmreq did FLAG_MUL_SEL 2 (words (encode_words None 0 (crossed a b))) (da ++ db).
Proof.
  intros cfg did d a b da db H. rewrite init_plain by auto. rewrite !append_plain by auto.
  cbn [m_did m_flag m_nsel m_tail m_data app]. f_equal. rewrite <- words_app. f_equal.
  unfold crossed, encode_words. cbn [flat_map b_start b_count skipn app].
  rewrite !app_nil_r, <- !app_assoc. reflexivity.
Qed.

(** ** Writes to different datasets *)

Lemma nodup_in : forall A (ws : list (Z * A)) did x y, NoDup (map fst ws) ->
  In (did, x) ws -> In (did, y) ws -> x = y.
Proof.
  induction ws as [|[e v] ws IH]; intros did x y Hnd H1 H2; [contradiction|].
  cbn in Hnd. inversion Hnd; subst. destruct H1 as [E1|H1], H2 as [E2|H2].
  - congruence.
  - injection E1 as -> ->. exfalso. apply H3. apply (in_map fst) in H2. exact H2.
  - injection E2 as -> ->. exfalso. apply H3. apply (in_map fst) in H1. exact H1.
  - eauto.
Qed.

Lemma writes_slots : forall cfg infos ws ms,
  Z.lxor cfg CFG_METADATA_MERGE <> 0 ->
  NoDup (map fst ws) ->
  Forall (fun w => 0 <= fst w /\ fst (snd w) <> [] /\
    (exists d, nth_error infos (Z.to_nat (fst w)) = Some (Some d)) /\
    nth_error ms (Z.to_nat (fst w)) = Some None) ws ->
  exists ms', merge_writes cfg infos ms ws = Ok ms' /\ length ms' = length ms /\
    (forall did sels data d, In (did, (sels, data)) ws ->
       nth_error infos (Z.to_nat did) = Some (Some d) ->
       nth_error ms' (Z.to_nat did) = Some (Some (merge_append d (merge_init cfg did d) sels data))) /\
    (forall i, ~ In i (map (fun w => Z.to_nat (fst w)) ws) -> nth_error ms' i = nth_error ms i).
Proof.
  induction ws as [|[did [sels data]] ws IH]; intros ms Hc Hnd HF.
  - exists ms. repeat split; auto. intros ? ? ? ? [].
  - cbn [map fst] in Hnd. inversion Hnd as [|? ? Hni Hnd']; subst.
    inversion HF as [|? ? (H0 & Hne & (d & Hd) & Hs) HF']; subst. cbn [fst snd] in *.
    cbn [merge_writes]. unfold merge_write at 1. destruct sels as [|b sels]; [congruence|].
    destruct (Z.eqb_spec (Z.lxor cfg CFG_METADATA_MERGE) 0); [congruence|].
    rewrite Hd, Hs. cbn [bind].
    set (m1 := merge_append d (merge_init cfg did d) (b :: sels) data).
    assert (Hlt : (Z.to_nat did < length ms)%nat) by (apply nth_error_Some; congruence).
    destruct (IH (upd_nth (Z.to_nat did) (Some m1) ms) Hc Hnd') as (ms' & E & L & HA & HB).
    { rewrite Forall_forall in *. intros w Hw. destruct (HF' w Hw) as (G0 & G1 & G2 & G3).
      repeat (split; auto). rewrite nth_error_upd_nth_ne; auto.
      intros Eq. apply Hni. replace did with (fst w) by lia. apply in_map. auto. }
    exists ms'. rewrite E, L, upd_nth_length. split; [reflexivity|]. split; [reflexivity|].
    assert (Hni' : ~ In (Z.to_nat did) (map (fun w => Z.to_nat (fst w)) ws)).
    { intros Hin. apply in_map_iff in Hin. destruct Hin as (w & Ew & Hw).
      rewrite Forall_forall in HF'. destruct (HF' w Hw) as (G0 & _).
      apply Hni. replace did with (fst w) by lia. apply in_map. auto. }
    split.
    + intros did' sels' data' d' [Eq|Hin] Hd'.
      * injection Eq as <- <- <-. rewrite HB by auto. rewrite nth_error_upd_nth_eq by auto.
        rewrite Hd in Hd'. injection Hd' as <-. reflexivity.
      * apply HA; auto.
    + intros i Hi. cbn [map fst] in Hi. rewrite HB by (intros Hin; apply Hi; right; auto).
      apply nth_error_upd_nth_ne. intros Eq. apply Hi. left. auto.
Qed.
