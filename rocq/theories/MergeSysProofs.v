(** Merged requests in whole histories: the queue after merging represents the pending writes. *)
From Verif Require Import Base BaseProofs Spec MetaModel QueueModel FlushModel IndexModel ReadModel SysModel
  SysSpec GeomProofs MetaProofs QueueProofs IndexProofs SearchProofs ReadProofs HitProofs MdProofs StoreProofs
  FlushProofs ReadOneProofs SysProofs MergeModel MergeSysModel MergeSysSpec.
From Coq Require Import ZifyNat ZifyN Permutation.

(** ** One pending write *)
Definition mreq_of (w : pwrite) : mreq :=
  mkmreq (pw_did w) FLAG_MUL_SEL (Zlen (pw_sels w)) (words (encode_words None 0 (pw_sels w))) (pw_data w).

(** What is required of a pending write; it does not depend on the current sizes of the dataset. *)
Definition pw_ok (e : env) (sets : list dinfo) (w : pwrite) : Prop :=
  0 <= pw_did w < 2 ^ 31 /\ pw_sels w <> [] /\
  exists d, nth_error sets (Z.to_nat (pw_did w)) = Some d /\
    Forall (blk_fits (di_ndim d)) (pw_sels w) /\
    Zlen (pw_data w) = di_esize d * sel_size (pw_sels w) /\
    meta_bound (Z.of_nat (di_ndim d)) (Zlen (pw_sels w)) < 2 ^ 31 /\
    (e_kind e = KCompact -> has_unlimited d = true ->
     Forall (fun b => hd 0 (b_start b) < 2 ^ 31) (pw_sels w)).

Definition awr_of (w : pwrite) : awr := mkawr (pw_did w) (pw_sels w) (pw_data w).
Lemma pw_of_awr_of : forall w, pw_of (awr_of w) = w.
Proof. intros []. reflexivity. Qed.

Lemma words_len : forall sels nd, Forall (blk_fits nd) sels ->
  Zlen (words (encode_words None 0 sels)) = 16 * Z.of_nat nd * Zlen sels.
Proof.
  assert (HW : forall l, Zlen (words l) = 8 * Zlen l).
  { intros l. unfold Zlen. rewrite words_length. lia. }
  intros sels nd H. rewrite HW. unfold encode_words.
  enough (E : length (flat_map (fun b : block => skipn 0 (b_start b)) sels) = (nd * length sels)%nat /\
              length (flat_map (fun b : block => skipn 0 (b_count b)) sels) = (nd * length sels)%nat).
  { destruct E as [E1 E2]. unfold Zlen. rewrite app_length, E1, E2. nia. }
  induction H as [|b l (B1 & B2 & _) H IH]; cbn [flat_map length skipn] in *; [rewrite Nat.mul_0_r; auto|].
  rewrite !app_length. destruct IH as [-> ->]. rewrite B1, B2. split; nia.
Qed.

Lemma inv_push : forall e cfg cv s sp h n C ms grs rk st w, inv e cfg cv s sp h n C ms grs ->
  has cfg CFG_SEL_ENCODE = false ->
  nth_error (g_ranks (s_g s)) rk = Some st -> pw_ok e (ss_sets sp) w -> n < 2 ^ 30 ->
  exists seen',
  inv e cfg cv (mksys (set_ranks (s_g s) (upd_nth rk (push_req st (merge_entry (mreq_of w))) (g_ranks (s_g s)))) (s_idx s))
      (mkss (ss_sets sp) (ss_store sp) (upd_nth rk (nth rk (ss_pend sp) [] ++ [w]) (ss_pend sp)))
      (mkhs (hs_hi h) seen') (n + 1) C ms (gwrite rk (awr_of w) grs).
Proof.
  intros e cfg cv s sp h n C ms grs rk st [did sels data] I Henc Hst (W2 & Hne & d & W1 & W3 & W4 & W5 & W8) Hn.
  cbn [pw_did pw_sels pw_data] in *.
  destruct (Forall2_nth_error _ _ _ _ _ _ _ (v_ranks _ _ _ _ _ _ _ _ _ _ I) Hst) as (gr & Hgr & Hrep).
  destruct (Forall2_nth_error _ _ _ _ _ _ _ (v_seen _ _ _ _ _ _ _ _ _ _ I) Hgr) as (seen & Hseen & Hin).
  assert (W1' : set_of sp did = Some d) by (unfold set_of; destruct (Z.ltb_spec did 0); [lia|exact W1]).
  destruct (set_of_info _ _ _ _ _ _ _ _ _ _ _ _ I W1') as (D0 & D1 & d' & D2 & D3 & D4 & D5 & D6 & D7 & D8 & D9 & D10).
  pose proof Hrep as ([Q M H] & N & P).
  assert (HG : geom (g_infos (s_g s)) did = Some (di_ndim d', di_esize d', unlim d')) by (unfold geom; rewrite D2; reflexivity).
  assert (EN : di_ndim d' = di_ndim d) by (unfold di_ndim; rewrite D5; reflexivity).
  set (a := mkawr did sels data). set (gr' := mkgr (gr_fl gr) (gr_pd gr ++ [a])).
  change (awr_of (mkpw did sels data)) with a.
  assert (HW : gwrite rk a grs = upd_nth rk gr' grs) by (unfold gwrite, a, gr'; cbn [a_sels]; rewrite Hgr; destruct sels; [congruence|reflexivity]).
  rewrite HW. clear HW.
  pose proof (words_len sels (di_ndim d) W3) as HWL.
  assert (Hl : 0 < Zlen sels) by (destruct sels; [congruence|]; rewrite Zlen_cons; pose proof (Zlen_nonneg _ sels); lia).
  assert (Hsz : Z.of_nat HDR + 4 + Zlen (words (encode_words None 0 sels)) < 2 ^ 31).
  { rewrite HWL. unfold meta_bound in W5. change (Z.of_nat HDR) with 28. nia. }
  assert (Hns : Zlen sels < 2 ^ 31) by (unfold meta_bound in W5; nia).
  assert (Hb : Forall (blk_ok (di_ndim d')) sels).
  { rewrite EN. revert W3. apply Forall_impl. intros b (B1 & B2 & B3 & B4). unfold blk_ok. split; auto. split; auto.
    split; [revert B3|revert B4]; apply Forall_impl; unfold word; intros; lia. }
  set (st' := push_req st (merge_entry (mreq_of (mkpw did sels data)))).
  assert (Hre : forall ctx, ereq (e_kind e) cfg (geom (g_infos (s_g s))) ctx
     (mkwreq (w_hdr (merge_entry (mreq_of (mkpw did sels data)))) (w_body (merge_entry (mreq_of (mkpw did sels data)))) 0 (k_mdsize st) data) a).
  { intros ctx. unfold ereq. cbn [merge_entry mreq_of pw_did pw_sels pw_data m_did m_flag m_nsel m_tail m_data w_hdr w_body w_data h_did h_fsize h_size h_flag a a_did a_sels a_data].
    split; [auto|]. split; [auto|]. split; [auto|]. split; [auto|].
    split; [rewrite Zlen_app; change (Zlen (le 4 (Zlen sels))) with (Z.of_nat (length (le 4 (Zlen sels)))); rewrite le_length; lia|]. split; [exact Hsz|].
    split; [unfold FLAG_MUL_SEL; lia|]. split; [reflexivity|].
    exists (di_ndim d'), (di_esize d'), (unlim d'). split; [exact HG|]. split; [discriminate|]. split; [lia|]. split; [exact Hb|].
    change (has FLAG_MUL_SEL FLAG_SEL_REF) with false. cbv iota.
    exists (di_dims d'), true. cbn [w_hdr w_body h_flag a_sels]. change (has FLAG_MUL_SEL FLAG_REC) with false.
    assert (HE : enc_of cfg false true (di_ndim d') = false) by (unfold enc_of; rewrite Henc; cbn [andb]; rewrite ?andb_false_r; reflexivity).
    rewrite HE. split; [reflexivity|]. split; [reflexivity|]. split; [reflexivity|]. split; [|reflexivity].
    split; [split; assumption|]. split; [discriminate|]. split; [exact Hb|]. split; discriminate. }
  assert (R5 : rinv (e_kind e) cfg (c_rec cv) (c_esize cv) (geom (g_infos (s_g s))) st' ((map snd (gr_fl gr) ++ gr_pd gr) ++ [a])).
  { constructor; unfold st', push_req; cbn [k_wreqs k_mdsize k_hash].
    - apply qrep_snoc; [exact Q| |apply Hre]. cbn [w_metaoff]. rewrite M. reflexivity.
    - unfold meta_len. cbn [k_wreqs]. rewrite map_app, Zsum_app, M. unfold meta_len. cbn. lia.
    - intros key tgt Hi. rewrite ctx_of_snoc by (eapply qrep_length; eauto).
      destruct (H key tgt Hi) as (-> & rec' & dims' & a' & es' & u' & P1 & P2 & P3 & P4 & P5).
      split; auto. exists rec', dims', a', es', u'. split; auto. split.
      { apply ctx_add_In; auto. }
      split; [apply in_or_app; auto|]. auto. }
  assert (Ha : apok (e_kind e) (geom (g_infos (s_g s))) a).
  { unfold apok, wsmall, wbytes, ndim_of, esize_of, unlim_of. cbn [snd a a_did a_sels a_data]. rewrite HG.
    split; [split; [|destruct D8; auto]|].
    - rewrite EN. revert W3. apply Forall_impl. intros b (B1 & B2 & B3 & B4). unfold blk_small. auto.
    - split; auto. split; [rewrite D4; exact W4|]. intros HK HU. apply recnum_small; [|lia]. apply W8; auto.
      unfold unlim in HU. unfold has_unlimited. rewrite <- D6. exact HU. }
  assert (Hfl : flat_map gr_fl (upd_nth rk gr' grs) = flat_map gr_fl grs).
  { destruct (upd_nth_flat_map _ _ gr_fl grs rk gr gr' Hgr) as [U1 U2]. rewrite U1, U2. reflexivity. }
  exists (upd_nth rk (sels :: seen) (hs_seen h)).
  constructor; cbn [s_g s_idx set_ranks g_cfg g_infos g_ranks g_file g_mdsets g_metadirty hs_hi hs_seen ss_sets ss_store ss_pend]; try (apply I).
  - apply Forall2_upd_nth; [apply I|]. split; [|split].
    + cbn [gr_fl gr_pd gr']. rewrite app_assoc. exact R5.
    + exact N.
    + unfold flushed in *. unfold st', push_req. cbn [k_wreqs k_nflushed gr_fl gr'].
      pose proof (rank_split _ _ _ _ _ _ Hrep) as (_ & _ & _ & _ & _ & NP & _). unfold num_pending in NP.
      pose proof (qrep_length _ _ _ _ _ _ _ Q) as QL. rewrite app_length, map_length in QL.
      rewrite firstn_app. replace (k_nflushed st - length (k_wreqs st))%nat with 0%nat by (unfold pwr in *; lia).
      cbn [firstn]. rewrite app_nil_r. exact P.
  - rewrite map_upd_nth. cbn [gr' gr_pd]. rewrite map_app. cbn [map pw_of a a_did a_sels a_data].
    rewrite (v_pend _ _ _ _ _ _ _ _ _ _ I). f_equal. f_equal.
    apply nth_error_nth. rewrite nth_error_map, Hgr. reflexivity.
  - rewrite Hfl. apply I.
  - rewrite Hfl. apply I.
  - unfold all_pd. destruct (upd_nth_flat_map _ _ gr_pd grs rk gr gr' Hgr) as [U1 U2]. rewrite U2.
    pose proof (v_pok _ _ _ _ _ _ _ _ _ _ I) as HP. unfold all_pd in HP. rewrite U1 in HP. rewrite !Forall_app in *. cbn [gr' gr_pd]. rewrite Forall_app.
    repeat split; try tauto. constructor; auto.
  - eapply Forall2_seen; eauto; [apply I|]. intros x Hx. cbn [gr' gr_fl gr_pd] in Hx. rewrite app_assoc in Hx. apply in_app_or in Hx.
    destruct Hx as [Hx|[<-|[]]]; auto.
  - rewrite map_upd_nth. rewrite (Zsum_upd _ _ (meta_len st)) by (rewrite nth_error_map, Hst; reflexivity).
    assert (Hml : meta_len st' <= meta_len st + 2 ^ 31).
    { unfold meta_len, st', push_req. cbn [k_wreqs]. rewrite map_app, Zsum_app. unfold Zsum at 2. cbn [map fold_right merge_entry mreq_of w_hdr h_size m_tail pw_sels].
      lia. }
    pose proof (v_meta _ _ _ _ _ _ _ _ _ _ I). lia.
  - pose proof (v_n _ _ _ _ _ _ _ _ _ _ I). lia.
  - rewrite upd_nth_length. apply I.
Qed.

(** ** Several pending writes *)
Definition upd_with {A B} (f : A -> B -> A) (d : A) (l : list A) (p : nat * B) : list A :=
  upd_nth (fst p) (f (nth (fst p) l d) (snd p)) l.

Definition spush (sp : sstate) (p : nat * pwrite) : sstate :=
  mkss (ss_sets sp) (ss_store sp) (upd_with (fun l w => l ++ [w]) [] (ss_pend sp) p).
Definition gpush (g : gfile) (p : nat * pwrite) : gfile :=
  set_ranks g (upd_with (fun st w => push_req st (merge_entry (mreq_of w))) rank0 (g_ranks g) p).

Lemma inv_pushes : forall e cfg cv ps s sp h n C ms grs, inv e cfg cv s sp h n C ms grs ->
  has cfg CFG_SEL_ENCODE = false ->
  Forall (fun p => (fst p < length (g_ranks (s_g s)))%nat /\ pw_ok e (ss_sets sp) (snd p)) ps ->
  n + Z.of_nat (length ps) < 2 ^ 30 ->
  exists h' grs', hs_hi h' = hs_hi h /\
    inv e cfg cv (mksys (fold_left gpush ps (s_g s)) (s_idx s)) (fold_left spush ps sp) h' (n + Z.of_nat (length ps)) C ms grs'.
Proof.
  induction ps as [|[rk w] ps IH]; intros s sp h n C ms grs I He HF Hn.
  - exists h, grs. split; auto. cbn [fold_left length]. rewrite Z.add_0_r. destruct s; exact I.
  - inversion HF as [|? ? [H1 H2] HF']; subst. cbn [fst snd] in *. cbn [length] in Hn.
    destruct (nth_error (g_ranks (s_g s)) rk) as [st|] eqn:Hst; [|apply nth_error_None in Hst; lia].
    destruct (inv_push _ _ _ _ _ _ _ _ _ _ rk st w I He Hst H2 ltac:(lia)) as (seen & I1).
    destruct (IH _ _ _ _ _ _ _ I1 He) as (h' & grs' & E1 & I2).
    + cbn [s_g set_ranks g_ranks ss_sets]. rewrite upd_nth_length. exact HF'.
    + lia.
    + exists h', grs'. split; [rewrite E1; reflexivity|]. cbn [s_g s_idx] in I2. cbn [fold_left length].
      replace (n + Z.of_nat (S (length ps))) with (n + 1 + Z.of_nat (length ps)) by lia.
      assert (E2 : gpush (s_g s) (rk, w) = set_ranks (s_g s) (upd_nth rk (push_req st (merge_entry (mreq_of w))) (g_ranks (s_g s)))).
      { unfold gpush, upd_with. cbn [fst snd]. rewrite (nth_error_nth _ _ _ Hst). reflexivity. }
      rewrite E2. exact I2.
Qed.

(** One list per index, applied in index order. *)
Fixpoint flat_ps {B} (k : nat) (Qs : list (list B)) : list (nat * B) :=
  match Qs with [] => [] | Q :: rest => map (pair k) Q ++ flat_ps (S k) rest end.

Lemma upd_with_one : forall A B (f : A -> B -> A) d Q pre x post,
  fold_left (upd_with f d) (map (pair (length pre)) Q) (pre ++ x :: post) = pre ++ fold_left f Q x :: post.
Proof.
  intros A B f d. induction Q as [|b Q IH]; intros pre x post; [reflexivity|]. cbn [map fold_left].
  assert (E : upd_with f d (pre ++ x :: post) (length pre, b) = pre ++ f x b :: post).
  { unfold upd_with. cbn [fst snd]. rewrite app_nth2 by lia. rewrite Nat.sub_diag. cbn [nth]. clear. induction pre as [|y pre IH]; [reflexivity|]. cbn. f_equal. exact IH. }
  rewrite E. apply IH.
Qed.
Lemma upd_with_all : forall A B (f : A -> B -> A) d Qs l pre, length Qs = length l ->
  fold_left (upd_with f d) (flat_ps (length pre) Qs) (pre ++ l) = pre ++ map (fun p => fold_left f (fst p) (snd p)) (combine Qs l).
Proof.
  intros A B f d. induction Qs as [|Q Qs IH]; intros [|x l] pre HL; try discriminate; [reflexivity|].
  cbn [flat_ps combine map fst snd]. rewrite fold_left_app, upd_with_one.
  replace (pre ++ fold_left f Q x :: l) with ((pre ++ [fold_left f Q x]) ++ l) by (rewrite <- app_assoc; reflexivity).
  replace (S (length pre)) with (length (pre ++ [fold_left f Q x])) by (rewrite app_length; cbn; lia).
  rewrite IH by (cbn in HL; lia). rewrite <- app_assoc. reflexivity.
Qed.
Lemma flat_ps_in : forall B (Qs : list (list B)) k p, In p (flat_ps k Qs) ->
  (fst p < k + length Qs)%nat /\ In (snd p) (concat Qs).
Proof.
  induction Qs as [|Q Qs IH]; intros k p H; [contradiction|]. cbn [flat_ps concat length] in *. apply in_app_or in H. destruct H as [H|H].
  - apply in_map_iff in H. destruct H as (b & <- & H). cbn. split; [lia|]. apply in_or_app; auto.
  - apply IH in H. destruct H. split; [lia|]. apply in_or_app; auto.
Qed.
Lemma flat_ps_length : forall B (Qs : list (list B)) k, length (flat_ps k Qs) = length (concat Qs).
Proof. induction Qs; intros; [reflexivity|]. cbn. rewrite !app_length, map_length, IHQs. reflexivity. Qed.

Lemma fold_gpush : forall ps g, fold_left gpush ps g =
  set_ranks g (fold_left (upd_with (fun st w => push_req st (merge_entry (mreq_of w))) rank0) ps (g_ranks g)).
Proof.
  induction ps as [|p ps IH]; intros g; [destruct g; reflexivity|]. cbn [fold_left]. rewrite IH. unfold gpush. cbn [set_ranks g_cfg g_infos g_ranks g_file g_mdsets g_nldset g_metadirty]. reflexivity.
Qed.
Lemma fold_spush : forall ps sp, fold_left spush ps sp =
  mkss (ss_sets sp) (ss_store sp) (fold_left (upd_with (fun l w => l ++ [w]) []) ps (ss_pend sp)).
Proof. induction ps as [|p ps IH]; intros sp; [destruct sp; reflexivity|]. cbn [fold_left]. rewrite IH. reflexivity. Qed.

(** Slots and the writes they hold. *)
Definition find_w (l : list pwrite) (i : nat) : option pwrite := find (fun w => Z.to_nat (pw_did w) =? i)%nat l.
Definition slots_of (n : nat) (l : list pwrite) : list (option mreq) := map (fun i => option_map mreq_of (find_w l i)) (seq 0 n).
Definition by_set (n : nat) (l : list pwrite) : list pwrite :=
  flat_map (fun i => match find_w l i with Some w => [w] | None => [] end) (seq 0 n).

Lemma nsel_pos : forall w, pw_sels w <> [] -> 0 <? m_nsel (mreq_of w) = true.
Proof. intros [did [|b s] data] H; cbn in *; [congruence|reflexivity]. Qed.

Lemma find_w_In : forall l i w, find_w l i = Some w -> In w l /\ Z.to_nat (pw_did w) = i.
Proof. intros l i w H. apply find_some in H. destruct H as [H1 H2]. apply Nat.eqb_eq in H2. auto. Qed.

Lemma drain_slots : forall n l, Forall (fun w => pw_sels w <> []) l ->
  fst (merge_drain (slots_of n l)) = map (fun w => merge_entry (mreq_of w)) (by_set n l) /\
  snd (merge_drain (slots_of n l)) = repeat None n /\
  length (filter (fun o => match o with Some m => (0 <? m_nsel m)%Z | None => false end) (slots_of n l)) = length (by_set n l).
Proof.
  intros n l H. unfold merge_drain, slots_of, by_set. cbn [fst snd].
  assert (HF : forall i w, find_w l i = Some w -> 0 <? m_nsel (mreq_of w) = true).
  { intros i w E. apply nsel_pos. rewrite Forall_forall in H. apply H. apply find_w_In in E. tauto. }
  generalize 0%nat. induction n as [|n IH]; intros k; [auto|]. cbn [seq map flat_map filter repeat]. destruct (IH (S k)) as (J1 & J2 & J3).
  destruct (find_w l k) as [w|] eqn:E; cbn [option_map].
  - rewrite (HF _ _ E). cbn [app map length]. rewrite J1, J2, J3. auto.
  - cbn [app]. rewrite J1, J2, J3. auto.
Qed.

Lemma by_set_in : forall n l w, In w (by_set n l) -> In w l.
Proof.
  intros n l w H. unfold by_set in H. apply in_flat_map in H. destruct H as (i & _ & H). destruct (find_w l i) eqn:E; [|contradiction].
  destruct H as [<-|[]]. apply find_w_In in E. tauto.
Qed.

Lemma find_w_NoDup : forall l w, NoDup (map pw_did l) -> Forall (fun w => 0 <= pw_did w) l -> In w l -> find_w l (Z.to_nat (pw_did w)) = Some w.
Proof.
  induction l as [|x l IH]; intros w Hd HF Hi; [contradiction|]. cbn [map] in Hd. inversion Hd as [|? ? Hd1 Hd2]; subst. inversion HF; subst.
  unfold find_w. cbn [find]. destruct Hi as [->|Hi]; [rewrite Nat.eqb_refl; reflexivity|].
  destruct (Nat.eqb_spec (Z.to_nat (pw_did x)) (Z.to_nat (pw_did w))) as [E|E]; [|apply IH; auto].
  exfalso. apply Hd1. rewrite Forall_forall in H2. pose proof (H2 w Hi). assert (pw_did x = pw_did w) by lia. rewrite H0. apply in_map. exact Hi.
Qed.

(** The writes of one dataset: the same before and after. *)
Lemma filter_none : forall (l : list pwrite) did, ~ In did (map pw_did l) -> filter (fun w => pw_did w =? did) l = [].
Proof.
  induction l as [|x l IH]; intros did H; [reflexivity|]. cbn [filter map] in *. destruct (Z.eqb_spec (pw_did x) did); [exfalso; apply H; left; auto|].
  apply IH. intros Q. apply H. right. exact Q.
Qed.
Lemma filter_one : forall (l : list pwrite) w, NoDup (map pw_did l) -> In w l -> filter (fun x => pw_did x =? pw_did w) l = [w].
Proof.
  induction l as [|x l IH]; intros w H Hi; [contradiction|]. cbn [map] in H. inversion H as [|? ? H1 H2]; subst. cbn [filter]. destruct Hi as [->|Hi].
  - rewrite Z.eqb_refl. rewrite filter_none by auto. reflexivity.
  - destruct (Z.eqb_spec (pw_did x) (pw_did w)) as [E|E]; [exfalso; apply H1; rewrite E; apply in_map; auto|]. apply IH; auto.
Qed.
Lemma by_set_nodup : forall n l, NoDup (map pw_did (by_set n l)).
Proof.
  intros n l. unfold by_set.
  assert (HA : forall m k, NoDup (map pw_did (flat_map (fun i => match find_w l i with Some w => [w] | None => [] end) (seq k m))) /\
    Forall (fun w => (k <= Z.to_nat (pw_did w))%nat) (flat_map (fun i => match find_w l i with Some w => [w] | None => [] end) (seq k m))).
  { induction m as [|m IH]; intros k; [split; constructor|]. cbn [seq flat_map]. destruct (IH (S k)) as [J1 J2].
    destruct (find_w l k) as [w|] eqn:E; cbn [app map].
    - apply find_w_In in E. destruct E as [_ E]. split.
      + constructor; auto. intros Q. apply in_map_iff in Q. destruct Q as (x & Q1 & Q2). rewrite Forall_forall in J2. pose proof (J2 x Q2). cbn beta in H. rewrite Q1 in H. lia.
      + constructor; [lia|]. eapply Forall_impl; [|exact J2]. cbn beta. lia.
    - split; auto. eapply Forall_impl; [|exact J2]. cbn beta. lia. }
  apply HA.
Qed.
Lemma by_set_all : forall n l w, NoDup (map pw_did l) -> Forall (fun w => 0 <= pw_did w /\ (Z.to_nat (pw_did w) < n)%nat) l -> In w l -> In w (by_set n l).
Proof.
  intros n l w H HF Hi. unfold by_set. apply in_flat_map. exists (Z.to_nat (pw_did w)).
  pose proof (proj1 (Forall_forall _ _) HF w Hi) as [Q1 Q2]. split; [apply in_seq; lia|].
  rewrite find_w_NoDup; auto; [left; auto|]. eapply Forall_impl; [|exact HF]. cbn beta. tauto.
Qed.
Lemma by_set_filter : forall n l did, NoDup (map pw_did l) -> Forall (fun w => 0 <= pw_did w /\ (Z.to_nat (pw_did w) < n)%nat) l ->
  filter (fun w => pw_did w =? did) (by_set n l) = filter (fun w => pw_did w =? did) l.
Proof.
  intros n l did H HF. destruct (in_dec Z.eq_dec did (map pw_did l)) as [Hi|Hi].
  - apply in_map_iff in Hi. destruct Hi as (w & <- & Hi). rewrite !filter_one; auto; [apply by_set_nodup|]. apply by_set_all; auto.
  - rewrite !filter_none; auto. intros Q. apply Hi. apply in_map_iff in Q. destruct Q as (w & <- & Q). apply in_map. eapply by_set_in; eauto.
Qed.
Lemma by_set_perm : forall n l, NoDup (map pw_did l) -> Forall (fun w => 0 <= pw_did w /\ (Z.to_nat (pw_did w) < n)%nat) l ->
  Permutation (by_set n l) l.
Proof.
  intros n l H HF. apply NoDup_Permutation.
  - eapply NoDup_map_inv. apply by_set_nodup.
  - eapply NoDup_map_inv. exact H.
  - intros w. split; [apply by_set_in|apply by_set_all; auto].
Qed.

(** ** Stores *)
Definition same_store (a b : store) : Prop := forall did c, a did c = b did c.

Lemma write_elems_local : forall cvs st st' did' did, (did' = did -> forall c, st did c = st' did c) -> did' = did ->
  forall c, write_elems st did' cvs did c = write_elems st' did' cvs did c.
Proof.
  unfold write_elems. induction cvs as [|cv cvs IH]; intros st st' did' did H E c; [apply H; auto|]. cbn [fold_left].
  apply IH; auto. intros _ c'. unfold set_elem. destruct ((did =? did') && coord_eqb (fst cv) c'); auto.
Qed.
Lemma write_elems_other : forall cvs st did' did c, did' <> did -> write_elems st did' cvs did c = st did c.
Proof.
  unfold write_elems. induction cvs as [|cv cvs IH]; intros st did' did c H; [reflexivity|]. cbn [fold_left]. rewrite IH by auto.
  unfold set_elem. destruct (Z.eqb_spec did did'); [congruence|reflexivity].
Qed.
Lemma apply_filter : forall sets l st st' did, (forall c, st did c = st' did c) ->
  forall c, fold_left (apply_write sets) l st did c = fold_left (apply_write sets) (filter (fun w => pw_did w =? did) l) st' did c.
Proof.
  induction l as [|w l IH]; intros st st' did H c; [apply H|]. cbn [fold_left filter]. destruct (Z.eqb_spec (pw_did w) did) as [E|E]; cbn [fold_left].
  - apply IH. intros c'. unfold apply_write, spec_write. apply write_elems_local; auto.
  - apply IH. intros c'. rewrite <- H. unfold apply_write, spec_write. apply write_elems_other. exact E.
Qed.
Lemma apply_same : forall sets l l' st st', same_store st st' ->
  (forall did, filter (fun w => pw_did w =? did) l = filter (fun w => pw_did w =? did) l') ->
  same_store (fold_left (apply_write sets) l st) (fold_left (apply_write sets) l' st').
Proof.
  intros sets l l' st st' H HF did c. rewrite (apply_filter sets l st st' did (H did)), HF. symmetry. apply apply_filter. reflexivity.
Qed.
Lemma sread_same : forall sets st st' p p' c, same_store st st' -> sread (mkss sets st p) c = sread (mkss sets st' p') c.
Proof.
  intros sets st st' p p' c H. unfold sread, set_of. cbn [ss_sets ss_store]. destruct (if rc_did c <? 0 then None else nth_error sets (Z.to_nat (rc_did c))); [|reflexivity].
  f_equal. unfold spec_read. apply map_ext. intros cd. rewrite H. reflexivity.
Qed.
