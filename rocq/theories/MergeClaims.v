(** Statements about metadata merging in the form used by P_Merge. *)
From Verif Require Import Base BaseProofs Spec MetaModel MetaProofs LocalSpec MetaClaims MergeModel MergeSpec MergeProofs MetaExamples.
From Coq Require Import ZifyNat.

Definition queued (ms : list (option mreq)) : list wreq := fst (merge_drain ms).

Lemma queued_in : forall ms w, In w (queued ms) ->
  exists i m, nth_error ms i = Some (Some m) /\ 0 < m_nsel m /\ w = merge_entry m.
Proof.
  intros ms w H. unfold queued, merge_drain in H. cbn [fst] in H. apply in_flat_map in H.
  destruct H as ([m|] & Hin & H); [|contradiction].
  destruct (Z.ltb_spec 0 (m_nsel m)); [|contradiction]. destruct H as [<-|[]].
  apply In_nth_error in Hin. destruct Hin as [i Hi]. eauto.
Qed.

Lemma in_queued : forall ms i m, nth_error ms i = Some (Some m) -> 0 < m_nsel m ->
  In (merge_entry m) (queued ms).
Proof.
  intros ms i m Hi Hn. unfold queued, merge_drain. cbn [fst]. apply in_flat_map.
  exists (Some m). split; [eapply nth_error_In; eauto|].
  destruct (Z.ltb_spec 0 (m_nsel m)); [left; reflexivity|lia].
Qed.

Lemma queued_nodup : forall ms k, (forall i m, nth_error ms i = Some (Some m) -> m_did m = k + Z.of_nat i) ->
  NoDup (map entry_did (queued ms)) /\ Forall (fun w => k <= entry_did w) (queued ms).
Proof.
  induction ms as [|s ms IH]; intros k H; [split; constructor|].
  destruct (IH (k + 1)) as [N F].
  { intros i m E. rewrite (H (S i) m E). lia. }
  assert (F' : Forall (fun w => k <= entry_did w) (queued ms)).
  { revert F. apply Forall_impl. intros. lia. }
  unfold queued, merge_drain in *. cbn [fst flat_map] in *.
  destruct s as [m|]; [|split; auto].
  destruct (Z.ltb_spec 0 (m_nsel m)); [|split; auto].
  pose proof (H O m eq_refl) as E. cbn [app map].
  split; constructor; auto.
  - intros Hin. apply in_map_iff in Hin. destruct Hin as (w & Ew & Hw).
    rewrite Forall_forall in F. specialize (F w Hw). cbn beta in F. rewrite Ew in F.
    unfold entry_did, merge_entry in F. cbn in F. lia.
  - unfold entry_did, merge_entry. cbn. lia.
Qed.

Lemma drained : forall ms, (forall i m, nth_error ms i = Some (Some m) -> 0 < m_nsel m) ->
  map (fun s => match s with Some m => if 0 <? m_nsel m then None else Some m | None => None end) ms =
  repeat None (length ms).
Proof.
  induction ms as [|s ms IH]; intros H; [reflexivity|]. cbn [map length repeat]. f_equal.
  - destruct s as [m|]; [|reflexivity]. pose proof (H O m eq_refl).
    destruct (Z.ltb_spec 0 (m_nsel m)); [reflexivity|lia].
  - apply IH. intros i m E. exact (H (S i) m E).
Qed.

(** Between two flushes every dataset is written at most once. *)
Lemma once_each : forall z cfg infos ws,
  Z.lxor cfg CFG_METADATA_MERGE <> 0 -> has cfg CFG_SEL_DEFLATE = false ->
  NoDup (map fst ws) ->
  (forall did sels data, In (did, (sels, data)) ws ->
     0 <= did < 2 ^ 31 /\ 0 < Zlen sels < 2 ^ 31 /\ coordinate (Zlen data) /\
     exists d, nth_error infos (Z.to_nat did) = Some (Some d) /\
       (has cfg CFG_SEL_ENCODE = false \/ (di_ndim d <= 1)%nat) /\
       Forall (well_shaped (di_ndim d)) sels) ->
  exists ms, merge_writes cfg infos (repeat None (length infos)) ws = Ok ms /\
    snd (merge_drain ms) = repeat None (length infos) /\
    NoDup (map entry_did (queued ms)) /\
    (forall w, In w (queued ms) -> exists sels, In (entry_did w, (sels, w_data w)) ws) /\
    (forall did sels data d, In (did, (sels, data)) ws ->
       nth_error infos (Z.to_nat did) = Some (Some d) ->
       exists w, In w (queued ms) /\ w_data w = data /\
         forall foff pre post, coordinate foff -> Zlen (wreq_bytes w) < 2 ^ 31 ->
           exists m, decode z d (pre ++ wreq_bytes (published w foff (Zlen data)) ++ post) (Zlen pre) = Ok m /\
             describes m did foff (Zlen data) (di_esize d) sels /\
             me_dsize m = di_esize d * count_elems sels).
Proof.
  intros z cfg infos ws Hc Hz Hnd HW.
  destruct (writes_slots cfg infos ws (repeat None (length infos)) Hc Hnd) as (ms & E & L & HA & HB).
  { rewrite Forall_forall. intros [did [sels data]] Hin. cbn [fst snd].
    destruct (HW _ _ _ Hin) as (H1 & H2 & _ & d & Hd & _). split; [lia|]. split.
    { intros ->. clear - H2. cbn in H2. lia. }
    split; [eauto|]. rewrite nth_error_repeat; [reflexivity|]. apply nth_error_Some. congruence. }
  rewrite repeat_length in L.
  assert (HS : forall i m, nth_error ms i = Some (Some m) -> exists sels data d,
     In (Z.of_nat i, (sels, data)) ws /\ nth_error infos i = Some (Some d) /\
     m = merge_append d (merge_init cfg (Z.of_nat i) d) sels data).
  { intros i m Hi. destruct (in_dec Nat.eq_dec i (map (fun w => Z.to_nat (fst w)) ws)) as [Hin|Hni].
    - apply in_map_iff in Hin. destruct Hin as ([did [sels data]] & Ei & Hin). cbn [fst] in Ei.
      destruct (HW _ _ _ Hin) as (H1 & H2 & _ & d & Hd & _).
      replace did with (Z.of_nat i) in * by lia. rewrite Nat2Z.id in Hd.
      pose proof (HA _ _ _ d Hin) as G. rewrite Nat2Z.id in G. specialize (G Hd). rewrite Hi in G.
      injection G as ->. eauto 10.
    - rewrite HB in Hi by auto. rewrite nth_error_repeat in Hi; [discriminate|].
      apply nth_error_Some. intros G. rewrite (proj2 (nth_error_None _ _)) in Hi; [discriminate|].
      rewrite repeat_length. apply nth_error_None. exact G. }
  assert (HM : forall did sels data d, In (did, (sels, data)) ws ->
     nth_error infos (Z.to_nat did) = Some (Some d) ->
     merge_append d (merge_init cfg did d) sels data =
       mkmreq did FLAG_MUL_SEL (Zlen sels) (words (encode_words None 0 sels)) data).
  { intros did sels data d Hin Hd. destruct (HW _ _ _ Hin) as (_ & _ & _ & d' & Hd' & Hp & _).
    rewrite Hd in Hd'. injection Hd' as <-. rewrite init_plain by (split; auto).
    rewrite append_plain by auto. reflexivity. }
  exists ms. split; [exact E|]. split.
  { rewrite <- L. unfold merge_drain. cbn [snd]. apply drained. intros i m Hi.
    destruct (HS i m Hi) as (sels & data & d & Hin & Hd & ->). destruct (HW _ _ _ Hin) as (_ & H2 & _).
    rewrite HM by (rewrite ?Nat2Z.id; auto). cbn [m_nsel]. lia. }
  split; [|split].
  - apply (queued_nodup ms 0). intros i m Hi. destruct (HS i m Hi) as (sels & data & d & Hin & Hd & ->).
    rewrite HM by (rewrite ?Nat2Z.id; auto). cbn. lia.
  - intros w Hw. apply queued_in in Hw. destruct Hw as (i & m & Hi & Hn & ->).
    destruct (HS i m Hi) as (sels & data & d & Hin & Hd & ->). exists sels.
    rewrite HM by (rewrite ?Nat2Z.id; auto). exact Hin.
  - intros did sels data d Hin Hd. destruct (HW _ _ _ Hin) as (H1 & H2 & H3 & d' & Hd' & Hp & Hs).
    rewrite Hd in Hd'. injection Hd' as <-.
    pose proof (HA _ _ _ d Hin Hd) as Hi. rewrite (HM _ _ _ _ Hin Hd) in Hi.
    eexists. split; [eapply in_queued; [exact Hi|cbn; lia]|]. split; [reflexivity|].
    intros foff pre post Hf Hlen. apply merged_decode; auto.
Qed.

Lemma rounds_once : forall z cfg infos rounds,
  Z.lxor cfg CFG_METADATA_MERGE <> 0 -> has cfg CFG_SEL_DEFLATE = false ->
  Forall (round_ok cfg infos) rounds ->
  exists qs, merge_rounds cfg infos (repeat None (length infos)) rounds = Ok qs /\
    Forall2 (entries_of z infos) rounds qs.
Proof.
  intros z cfg infos rounds Hc Hz. induction rounds as [|ws rounds IH]; intros H.
  { exists []. split; [reflexivity|constructor]. }
  inversion H as [|? ? [Hnd HW] HR]; subst. destruct (IH HR) as (qs & Eq & Fq).
  destruct (once_each z cfg infos ws Hc Hz Hnd HW) as (ms & E & D & N & S & T).
  exists (fst (merge_drain ms) :: qs). split.
  - cbn [merge_rounds]. rewrite E. cbn [bind]. rewrite D, Eq. reflexivity.
  - constructor; [|exact Fq]. exact (conj N (conj S T)).
Qed.

(** Two one-block writes to the same dataset. *)
Lemma twice : forall z cfg infos did d a b da db,
  Z.lxor cfg CFG_METADATA_MERGE <> 0 -> has cfg CFG_SEL_DEFLATE = false ->
  (has cfg CFG_SEL_ENCODE = false \/ (di_ndim d <= 1)%nat) ->
  0 <= did < 2 ^ 31 -> nth_error infos (Z.to_nat did) = Some (Some d) ->
  well_shaped (di_ndim d) a -> well_shaped (di_ndim d) b -> coordinate (Zlen (da ++ db)) ->
  exists ms w, merge_writes cfg infos (repeat None (length infos)) [(did, ([a], da)); (did, ([b], db))] = Ok ms /\
    In w (queued ms) /\ w_data w = da ++ db /\
    forall foff pre post, coordinate foff -> Zlen (wreq_bytes w) < 2 ^ 31 ->
      exists m, decode z d (pre ++ wreq_bytes (published w foff (Zlen (da ++ db))) ++ post) (Zlen pre) = Ok m /\
        (describes m did foff (Zlen (da ++ db)) (di_esize d) [a; b] <-> b_count a = b_start b).
Proof.
  intros z cfg infos did d a b da db Hc Hz Hp Hdid Hd Ha Hb Hl.
  assert (Hlt : (Z.to_nat did < length infos)%nat) by (apply nth_error_Some; congruence).
  assert (HM := two_appends cfg did d a b da db (conj Hz Hp)).
  eexists. eexists. split; [|split; [|split]].
  - cbn [merge_writes merge_write]. destruct (Z.eqb_spec (Z.lxor cfg CFG_METADATA_MERGE) 0); [congruence|].
    rewrite Hd, nth_error_repeat by auto. cbn [bind].
    rewrite nth_error_upd_nth_eq by (rewrite repeat_length; auto). rewrite HM. reflexivity.
  - eapply in_queued with (i := Z.to_nat did).
    + rewrite nth_error_upd_nth_eq; [reflexivity|]. rewrite upd_nth_length, repeat_length. auto.
    + cbn. lia.
  - reflexivity.
  - intros foff pre post Hf Hlen.
    destruct (merged_decode z d did (crossed a b) (da ++ db) foff pre post Hdid Hf Hl) as (m & E & D & _).
    + cbn. lia.
    + destruct Ha as (A1 & A2 & A3 & A4), Hb as (B1 & B2 & B3 & B4).
      unfold crossed. repeat (apply Forall_cons || apply Forall_nil); repeat split; cbn; auto.
    + revert Hlen. unfold wreq_bytes, Zlen. rewrite !app_length, !enc_hdr_length. auto.
    + exists m. split; [exact E|]. split.
      * intros D'. destruct D as (_ & _ & _ & D & _), D' as (_ & _ & _ & D' & _).
        rewrite D in D'. unfold crossed in D'. destruct a, b. cbn in *. congruence.
      * intros Eq. replace [a; b] with (crossed a b); [exact D|].
        unfold crossed. destruct a, b. cbn in *. subst. reflexivity.
Qed.

Lemma only_bit : forall infos ms did sels data, sels <> [] ->
  merge_write CFG_METADATA_MERGE infos ms did sels data = UB.
Proof. intros infos ms did sels data H. destruct sels; [congruence|reflexivity]. Qed.

(** Default settings with merging on: one write of one block to a 4x4 array. *)
Lemma encoded_refuted : exists z d b ms w m,
  described d /\ well_shaped (di_ndim d) b /\ in_array (di_dims d) b /\
  merge_writes 11 [Some d] [None] [(0, ([b], [1; 2]))] = Ok ms /\ queued ms = [w] /\
  decode z d (wreq_bytes (published w 100 2)) 0 = Ok m /\
  ~ describes m 0 100 2 (di_esize d) [b].
Proof.
  exists m_z, m_d2, (mkblock [1;2] [1;2]). eexists. eexists. eexists.
  split; [meta_tac|]. split; [meta_tac|]. split; [meta_tac|].
  split; [vm_compute; reflexivity|]. split; [vm_compute; reflexivity|].
  split; [vm_compute; reflexivity|]. intros (_ & _ & _ & H & _). vm_compute in H. discriminate.
Qed.

Lemma rounds_apply :
  let ws := [(1, ([mkblock [1;2] [1;2]; mkblock [3;0] [1;1]], [1;2;3])); (0, ([mkblock [0;0] [1;1]], [9]))] in
  let ws' := [(1, ([mkblock [1;2] [1;2]], [4;5]))] in
  Z.lxor 9 CFG_METADATA_MERGE <> 0 /\ has 9 CFG_SEL_DEFLATE = false /\
  Forall (round_ok 9 [Some m_d2; Some m_d2]) [ws; []; ws'].
Proof.
  cbv zeta. split; [discriminate|]. split; [reflexivity|].
  assert (W : forall did sels data (a : list block) (b : list Z) (k : Z), (k = 0 \/ k = 1) ->
    (Zlen a = 1 \/ Zlen a = 2) -> 0 <= Zlen b <= 3 -> Forall (well_shaped (di_ndim m_d2)) a ->
    (k, (a, b)) = (did, (sels, data)) ->
    0 <= did < 2 ^ 31 /\ 0 < Zlen sels < 2 ^ 31 /\ coordinate (Zlen data) /\
     exists d, nth_error [Some m_d2; Some m_d2] (Z.to_nat did) = Some (Some d) /\
       (has 9 CFG_SEL_ENCODE = false \/ (di_ndim d <= 1)%nat) /\
       Forall (well_shaped (di_ndim d)) sels).
  { intros did sels data a b k Hk Ha Hb Hf E. injection E as <- <- <-.
    split; [lia|]. split; [lia|]. split; [unfold coordinate; lia|]. exists m_d2.
    split; [destruct Hk; subst; reflexivity|]. split; [left; reflexivity|exact Hf]. }
  repeat (apply Forall_cons || apply Forall_nil); (split;
    [cbn; repeat (apply NoDup_cons || apply NoDup_nil); cbn; intuition discriminate|]);
    intros did sels data Hin; cbn [In] in Hin.
  - destruct Hin as [E|[E|[]]]; (eapply W; [..|exact E]); [lia|right; reflexivity|cbv; split; discriminate|meta_tac
      |lia|left; reflexivity|cbv; split; discriminate|meta_tac].
  - contradiction.
  - destruct Hin as [E|[]]; (eapply W; [..|exact E]); [lia|left; reflexivity|cbv; split; discriminate|meta_tac].
Qed.
