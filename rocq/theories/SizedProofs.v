(** Every legal history of sizes that fit a C int is accepted when selections are stored as
    coordinates and not shared. *)
From Verif Require Import Base BaseProofs Spec MetaModel QueueModel FlushModel IndexModel ReadModel SysModel
  SysSpec History GeomProofs MetaProofs QueueProofs IndexProofs SearchProofs SortProofs ReadProofs HitProofs MdProofs StoreProofs
  FlushProofs ReadOneProofs SysProofs HistoryProofs ClaimProofs SysCheck Examples ClaimProofs2.
From Coq Require Import ZifyNat ZifyN.

Lemma sized_fits : forall d b, 0 < di_esize d -> sized_set d -> block_in d b ->
  blk_fits (di_ndim d) b /\ last (b_count b) 1 * di_esize d < 2 ^ 31 /\
  (di_dims d <> [] -> hd 0 (b_start b) < 2 ^ 31).
Proof.
  intros d b S5 (S1 & S2 & S3) H. destruct (fits_in_blk _ _ _ H) as (A & B & C & D & E & F).
  assert (K1 : Forall (fun x => x < 2 ^ 31) (b_start b)).
  { apply (Forall2_le_lt _ (di_dims d) _) with (3 := E); [intros; lia|]. eapply Forall_impl; [|exact S3]. cbn beta. tauto. }
  assert (K2 : Forall (fun x => x < 2 ^ 31 /\ x * di_esize d < 2 ^ 31) (b_count b)).
  { apply (Forall2_le_lt _ (di_dims d) _) with (3 := F); [|exact S3]. intros d0 x [Q1 Q2] Hx. split; [lia|nia]. }
  split; [|split].
  - split; [exact A|]. split; [exact B|]. split.
    + rewrite Forall_forall in *. intros x Hx. specialize (C x Hx). specialize (K1 x Hx). lia.
    + rewrite Forall_forall in *. intros x Hx. specialize (D x Hx). specialize (K2 x Hx). lia.
  - destruct (list_eq_dec Z.eq_dec (b_count b) []) as [E0|Hne]; [rewrite E0; cbn [last]; lia|].
    rewrite Forall_forall in K2. destruct (exists_last Hne) as (l & a & El). rewrite El, last_last. apply K2. rewrite El. apply in_or_app. right. left. reflexivity.
  - intros Hne. destruct (b_start b) as [|x l]; [cbn; lia|]. cbn. exact (Forall_inv K1).
Qed.

Lemma Forall2_weak : forall A B (P Q : A -> B -> Prop) l l', (forall a b, P a b -> Q a b) -> Forall2 P l l' -> Forall2 Q l l'.
Proof. intros A B P Q l l' H F. induction F; constructor; auto. Qed.

Record zrel (s : sstate) (h : hstate) (t : trace) (hi : Z) (room : Z) : Prop := {
  z_rel : hrel s t;
  z_hi : hs_hi h = hi;
  z_seen : length (hs_seen h) = length (t_pend t);
  z_bytes : pend_bytes s = pending_bytes t;
  z_md : Forall (fun d => length (di_mdims d) = length (di_dims d)) (ss_sets s);
  z_room : Zlen (ss_sets s) + room < 2 ^ 31 }.

Lemma zplaced_flush : forall s h t hi room doff, zrel s h t hi room -> placed_after t hi doff -> ok_flush s h doff.
Proof. intros s h t hi room doff L [H1 H2] _. rewrite (z_hi _ _ _ _ _ L), (z_bytes _ _ _ _ _ L). auto. Qed.

Lemma Forall_upd_nth' : forall A (P : A -> Prop) l k x, Forall P l -> P x -> Forall P (upd_nth k x l).
Proof. intros A P l k x H Hx. revert k. induction H; intros [|k]; cbn; constructor; auto. Qed.

Section Sized.
Context (e : env) (cfg : Z) (cv : conv).
Hypotheses (Hplain : plain_cfg cfg) (Hlim : e_limit e = None) (Hcoll : e_coll e = true).

(** The clauses of [ok_op] about encoding and sharing. *)
Definition rest_ok (s : sstate) (h : hstate) (o : op) : Prop :=
  match o with
  | OCreate d => has cfg CFG_SEL_ENCODE = true -> di_dims d <> []
  | OWrite rk did sels data => forall seen d, nth_error (hs_seen h) rk = Some seen -> set_of s did = Some d -> sels <> [] ->
     (has cfg CFG_SEL_ENCODE = true -> multi sels = true ->
      let dims := if is_rec d sels then tl (di_dims d) else di_dims d in
      (1 < length dims)%nat ->
      Forall (fun x => 0 <= x < 2 ^ 63) (dsteps_of dims) /\
      Forall (fun b => blk_encodable dims (if is_rec d sels then drop1 b else b)) sels) /\
     (has cfg CFG_METADATA_SHARE = true ->
      (has cfg CFG_SEL_ENCODE = true -> multi sels = true ->
       is_rec d sels = c_rec cv (di_ndim d) (length sels)) /\
      (e_kind e = KArray -> multi sels = true ->
       di_esize d = c_esize cv (if is_rec d sels then map drop1 sels else sels)) /\
      (e_kind e = KCompact -> is_rec d sels = true -> ~ In sels seen))
  | _ => True
  end.

Lemma sized_ok_op : forall s h t hi room o, 0 <= room -> zrel s h t hi room -> Forall sized_set (t_sets t) ->
  legal_op t hi o -> sized_op o -> rest_ok s h o -> ok_op e cfg cv s h o.
Proof.
  intros s h t hi room o H0 L HZ Hl Hs HR. pose proof (z_rel _ _ _ _ _ L) as R.
  assert (HD : forall did d, dataset_of t did d -> sized_set d /\ (0 < di_esize d /\ length (di_mdims d) = length (di_dims d))).
  { intros did d [_ H]. apply nth_error_In in H. pose proof (r_good _ _ R) as G. rewrite <- (r_sets _ _ R) in G.
    pose proof (z_md _ _ _ _ _ L) as M. rewrite <- (r_sets _ _ R) in M.
    rewrite Forall_forall in HZ, G, M. destruct (G d H). auto. }
  destruct o; cbn [legal_op sized_op ok_op rest_ok] in *.
  - destruct Hl as (H1 & H2 & H3). unfold extent_ok in H2. split; auto. split; [symmetry; eapply Forall2_length; eauto|]. split; auto.
  - destruct Hl as (d & H1 & H2). exists d. split; [apply (sets_of_eq _ _ _ _ R H1)|].
    unfold extent_ok in H2. split.
    + destruct (HD _ _ H1) as [_ (G1 & G2)]. rewrite (Forall2_length _ _ _ _ _ H2). exact G2.
    + eapply Forall2_weak; [|exact H2]. cbn. tauto.
  - destruct Hl as (H1 & d & H2 & H3 & H4). destruct (HD _ _ H2) as [Z1 (Z2 & Z3)].
    assert (exists seen, nth_error (hs_seen h) rk = Some seen) as [seen Hseen].
    { destruct (nth_error (hs_seen h) rk) as [x|] eqn:E; [eauto|]. apply nth_error_None in E. rewrite (z_seen _ _ _ _ _ L) in E. lia. }
    exists seen. split; auto. intros Hne. destruct (HR seen d Hseen (sets_of_eq _ _ _ _ R H2) Hne) as [HR1 HR2].
    exists d. split; [apply (sets_of_eq _ _ _ _ R H2)|].
    assert (Hbf : Forall (blk_fits (di_ndim d)) sels) by (eapply Forall_impl; [|exact H3]; intros b Hb; apply sized_fits; auto).
    split. { destruct H2 as [H2 H2']. apply nth_error_lt in H2'. rewrite (r_sets _ _ R) in H2'. pose proof (z_room _ _ _ _ _ L). unfold Zlen in *. lia. }
    split; [exact Hbf|]. split.
    { rewrite H4. f_equal. unfold Zlen. apply (sel_coords_length (di_ndim d)). eapply Forall_impl; [|exact Hbf]. intros b (B1 & B2 & B3 & B4). unfold blk_small. auto. }
    split. { unfold meta_bound. destruct Z1 as (S1 & _). unfold di_ndim. change (2 ^ 31) with 2147483648. unfold Zlen in *. nia. }
    split; [exact HR1|]. split; [exact HR2|].
    intros _ U. eapply Forall_impl; [|exact H3]. intros b Hb. apply (sized_fits d b); auto.
    intros Q. unfold has_unlimited in U. rewrite Q in Z3. destruct (di_mdims d); [discriminate U|discriminate Z3].
  - eapply zplaced_flush; eauto.
  - destruct Hl as (H1 & H2 & H3). split; [rewrite Hcoll; eapply zplaced_flush; eauto|]. split; [congruence|]. split; auto.
    apply Forall_forall. intros c Hc. rewrite Forall_forall in H3, Hs. specialize (H3 c Hc). specialize (Hs c Hc). cbn beta in *.
    destruct H3 as (Hne & d & D1 & D2). split; auto. exists d. split; [apply (sets_of_eq _ _ _ _ R D1)|].
    destruct (HD _ _ D1) as [Z1 (Z2 & Z3)].
    split; [eapply Forall_impl; [|exact D2]; intros b Hb; apply sized_fits; auto|].
    split; [eapply Forall_impl; [|exact D2]; intros b Hb; apply sized_fits; auto|].
    split; [exact Hs|].
    intros _ U. eapply Forall_impl; [|exact D2]. intros b Hb. apply (sized_fits d b); auto.
    intros Q. unfold has_unlimited in U. rewrite Q in Z3. destruct (di_mdims d); [discriminate U|discriminate Z3].
  - destruct Hl as (H1 & H2 & H3). split; auto. split; auto. eapply zplaced_flush; eauto.
Qed.

Lemma sized_step : forall s h t hi room o, 0 <= room -> zrel s h t hi (room + 1) -> Forall sized_set (t_sets t) ->
  legal_op t hi o -> sized_op o -> rest_ok s h o ->
  zrel (fst (sstep (e_coll e) s o)) (hstep e s h o) (tstep (e_coll e) t o) (log_end t hi o) room.
Proof.
  intros s h t hi room o H0 L HZ Hl Hs HR. assert (H0' : 0 <= room + 1) by lia.
  pose proof (sized_ok_op _ _ _ _ _ _ H0' L HZ Hl Hs HR) as Hok. pose proof (z_rel _ _ _ _ _ L) as R.
  pose proof (hrel_step _ _ _ _ _ _ _ R Hok) as R'.
  destruct L as [_ L2 L3 L4 L5 L6]. rewrite Hcoll in *.
  constructor; auto; destruct o; cbn [legal_op sized_op sstep tstep hstep log_end fst hs_hi hs_seen ss_sets ss_pend t_pend] in *; auto; rewrite ?Hcoll.
  all: try (unfold hflush; rewrite <- L4, <- L2; destruct (pend_bytes s =? 0); cbn [hs_hi hs_seen]; auto; fail).
  - rewrite !upd_nth_length'. auto.
  - unfold hflush. rewrite map_length. destruct (pend_bytes s =? 0); auto.
  - unfold hflush. cbn [t_pend]. rewrite map_length. destruct (pend_bytes s =? 0); auto.
  - rewrite !repeat_length. reflexivity.
  - destruct Hl as (d & H1 & _). rewrite (sets_of_eq _ _ _ _ R H1). exact L4.
  - destruct Hl as (H1 & d & H2 & H3 & H4). unfold pending_bytes. cbn [t_pend].
    rewrite concat_upd_sum by auto. change (Zsum (map _ (concat (t_pend t)))) with (pending_bytes t). rewrite <- L4.
    assert (HG : set_good d). { pose proof (r_good _ _ R) as K. rewrite Forall_forall in K. apply K. rewrite <- (r_sets _ _ R). destruct H2 as [_ H2]. eapply nth_error_In; eauto. }
    unfold esize_at. rewrite (proj2 H2). etransitivity; [|apply (f_equal (fun x => pend_bytes s + x)); symmetry; apply assigns_sum; [apply HG|exact H4]].
    assert (HL : length (ss_pend s) = length (t_pend t)) by (rewrite (r_pend _ _ R), map_length; reflexivity).
    destruct sels as [|b l].
    + change (Zlen (sel_coords [])) with 0 in H4. lia.
    + unfold pend_bytes. cbn [ss_pend]. rewrite concat_upd_sum by lia. cbn. lia.
  - unfold pend_bytes, pending_bytes, sflush. cbn [ss_pend t_pend]. rewrite !sum_nil. reflexivity.
  - unfold pend_bytes, pending_bytes, sflush. cbn [ss_pend t_pend]. rewrite !sum_nil. reflexivity.
  - unfold pend_bytes, pending_bytes. cbn [ss_pend t_pend]. rewrite !sum_nil'. reflexivity.
  - apply Forall_app. split; auto. constructor; auto. destruct Hl as (H1 & H2 & H3). unfold extent_ok in H2. symmetry. eapply Forall2_length; eauto.
  - destruct Hl as (d & H1 & H2). rewrite (sets_of_eq _ _ _ _ R H1). cbn [ss_sets]. apply Forall_upd_nth'; auto.
    unfold extent_ok in H2. cbn [resize di_mdims di_dims]. symmetry. eapply Forall2_length; eauto.
  - destruct sels; auto.
  - rewrite Zlen_app. unfold Zlen in *. cbn [length]. lia.
  - destruct Hl as (d & H1 & H2). rewrite (sets_of_eq _ _ _ _ R H1). cbn [ss_sets]. unfold Zlen in *. rewrite upd_nth_length'. lia.
  - destruct sels; cbn [ss_sets]; lia.
  - unfold sflush. cbn [ss_sets]. lia.
  - unfold sflush. cbn [ss_sets]. lia.
  - lia.
Qed.

Lemma zrel_init : forall np room, 0 <= room < 2 ^ 31 -> zrel (sinit np) (mkhs 0 (repeat [] np)) (mktr [] [] (repeat [] np)) 0 room.
Proof.
  intros np room HR. constructor; cbn [sinit ss_sets ss_pend hs_hi hs_seen t_pend]; auto.
  - apply hrel_init.
  - rewrite !repeat_length. reflexivity.
  - unfold pend_bytes, pending_bytes, sinit. cbn [ss_pend t_pend]. rewrite !sum_nil'. reflexivity.
  - unfold Zlen. cbn [length]. lia.
Qed.

Context (Henc : has cfg CFG_SEL_ENCODE = false) (Hsh : has cfg CFG_METADATA_SHARE = false).
Lemma rest_off : forall s h o, rest_ok s h o.
Proof. intros s h o. destruct o; cbn [rest_ok]; auto; [intros; congruence|]. intros. split; intros; congruence. Qed.

Lemma sized_ok_run : forall ops s h t hi, zrel s h t hi (Zlen ops) -> legal_run (e_coll e) t hi ops ->
  sized_run (e_coll e) t ops -> ok_run e cfg cv s h ops.
Proof.
  induction ops as [|o ops IH]; intros s h t hi L Hl Hs; [exact I|]. destruct Hs as (Hz & Ho & Hs). destruct Hl as [H1 H2].
  rewrite Zlen_cons in L. replace (1 + Zlen ops) with (Zlen ops + 1) in L by lia. assert (H0 : 0 <= Zlen ops) by (unfold Zlen; lia). split; [eapply (sized_ok_op s h t hi (Zlen ops + 1)); eauto using rest_off; lia|].
  eapply IH; eauto. apply sized_step; auto using rest_off.
Qed.

Lemma sized_ok : forall np ops, is_sort (e_sort e) -> legal_history (e_coll e) np ops -> sized_history (e_coll e) np ops ->
  ok_history e cfg cv np ops.
Proof.
  intros np ops HS (H1 & H2 & H3 & H4) Hs. split; auto. split; auto. split; auto. split; auto. split; auto.
  eapply sized_ok_run; eauto. apply zrel_init. unfold Zlen. lia.
Qed.
End Sized.

Lemma coordinate_reads : forall e cfg f0 ops,
  e_coll e = true -> e_limit e = None -> is_sort (e_sort e) -> plain_cfg cfg ->
  has cfg CFG_SEL_ENCODE = false -> has cfg CFG_METADATA_SHARE = false ->
  Forall one_process ops -> legal_history true 1 ops -> sized_history true 1 ops ->
  exists s outs, run e (init cfg 1 f0) ops = Ok (s, outs) /\ length outs = length ops /\
    forall i doff calls, nth_error ops i = Some (ORead doff calls) ->
      exists bufs, nth_error outs i = Some bufs /\
        Forall2 (fun c buf => exists d,
          nth_error (t_sets (trace_of true 1 (firstn i ops))) (Z.to_nat (rc_did c)) = Some d /\
          length (elems (di_esize d) buf) = length (sel_coords (rc_sels c)) /\
          forall k x, nth_error (sel_coords (rc_sels c)) k = Some x ->
            nth_error (elems (di_esize d) buf) k
              = Some (expected (program_order [] (firstn i ops)) d c k x)) calls bufs.
Proof.
  intros e cfg f0 ops E1 E2 E3 E4 E5 E6 H1 H2 H3. apply (one_process_reads e cfg (mkconv (fun _ _ => false) (fun _ => 1))); auto.
  apply sized_ok; auto; rewrite E1; auto.
Qed.

Lemma coordinate_reads_all : forall e cfg np f0 ops,
  e_coll e = true -> e_limit e = None -> is_sort (e_sort e) -> plain_cfg cfg ->
  has cfg CFG_SEL_ENCODE = false -> has cfg CFG_METADATA_SHARE = false ->
  legal_history true np ops -> sized_history true np ops ->
  exists s outs, run e (init cfg np f0) ops = Ok (s, outs) /\ length outs = length ops /\
    forall i doff calls, nth_error ops i = Some (ORead doff calls) ->
      exists bufs, nth_error outs i = Some bufs /\
        let t := trace_of true np (firstn i ops) in
        Forall2 (correct_read (mktr (t_sets t) (t_pub t ++ concat (t_pend t)) [])) calls bufs.
Proof.
  intros e cfg np f0 ops E1 E2 E3 E4 E5 E6 H2 H3.
  assert (H : ok_history e cfg (mkconv (fun _ _ => false) (fun _ => 1)) np ops) by (apply sized_ok; auto; rewrite E1; auto).
  destruct (all_reads_correct _ _ _ _ f0 _ H) as (s & outs & R1 & R2 & R3). exists s, outs. split; auto. split; auto.
  intros i doff calls Hi. destruct (R3 i doff calls Hi) as (bufs & B1 & B2). exists bufs. split; auto. cbv zeta.
  rewrite (firstn_S_app _ _ _ _ Hi), E1, trace_snoc in B2. cbn [tstep] in B2.
  eapply Forall2_weak; [|exact B2]. intros c b. unfold correct_read. cbn [t_sets t_pub]. auto.
Qed.

(** A checker. *)
Definition sized_set_b (d : dinfo) : bool :=
  (length (di_dims d) <=? 32)%nat && (di_esize d <? 2 ^ 31) &&
  forallb (fun x => (x <? 2 ^ 31) && (x * di_esize d <? 2 ^ 31)) (di_dims d).
Definition sized_op_b (o : op) : bool :=
  match o with
  | OWrite _ _ sels _ => Zlen sels <=? 4000000
  | ORead _ calls => forallb (fun c => pairwise_b (rc_sels c)) calls
  | _ => true
  end.
Fixpoint sized_b (coll : bool) (t : trace) (ops : list op) : bool :=
  forallb sized_set_b (t_sets t) &&
  match ops with
  | [] => true
  | o :: rest => sized_op_b o && sized_b coll (tstep coll t o) rest
  end.
Lemma sized_b_run : forall coll ops t, sized_b coll t ops = true -> sized_run coll t ops.
Proof.
  assert (HS : forall l, forallb sized_set_b l = true -> Forall sized_set l).
  { intros l. apply forallb_Forall. intros d H. unfold sized_set_b in H. rewrite !andb_true_iff in H. destruct H as [[A B] C].
    apply Nat.leb_le in A. apply Z.ltb_lt in B. split; auto. split; auto. revert C. apply forallb_Forall.
    intros x Hx. apply andb_true_iff in Hx. destruct Hx as [X Y]. apply Z.ltb_lt in X. apply Z.ltb_lt in Y. auto. }
  induction ops as [|o ops IH]; intros t H; cbn [sized_b sized_run] in *; apply andb_true_iff in H; destruct H as [H1 H2]; split; auto.
  apply andb_true_iff in H2. destruct H2 as [H2 H3]. split; auto.
  destruct o; cbn [sized_op sized_op_b] in *; auto.
  - apply Z.leb_le in H2. exact H2.
  - revert H2. apply forallb_Forall. intros c. apply pairwise_b_ok.
Qed.
Lemma sized_b_ok : forall coll np ops, sized_b coll (mktr [] [] (repeat [] np)) ops = true -> sized_history coll np ops.
Proof. intros. apply sized_b_run. auto. Qed.

(** Two processes; a block of full width in a multi-block write, a record written twice, several
    element sizes, extension, a scalar dataset. *)
Definition h_any : list op :=
  [ OCreate dA; OCreate dR; OCreate scalar;
    OWrite 0 0 [B [0;0] [2;6]; B [3;1] [1;2]] (by_ 10 28);
    OWrite 1 1 [B [2;0] [1;4]] (by_ 60 4);
    OWrite 1 1 [B [2;0] [1;4]] (by_ 70 4);
    OWrite 0 2 [B [] []] [1];
    OFlush 100;
    OSetExtent 1 [9;4];
    OWrite 1 1 [B [7;0] [1;4]; B [7;1] [1;1]] (by_ 80 5);
    OWrite 1 1 [B [7;0] [2;4]; B [0;1] [1;1]] (by_ 90 9);
    ORead 1000 [mkrcall 0 [B [0;0] [2;6]; B [3;0] [1;6]] 0 junk; mkrcall 1 [B [0;0] [9;4]] 0 junk; mkrcall 2 [B [] []] 0 junk];
    OReopen 5000 3; OWrite 2 0 [B [0;0] [1;6]; B [1;0] [1;6]] (by_ 5 24);
    ORead 9000 [mkrcall 0 [B [0;0] [4;6]] 0 junk]].
Lemma h_any_ok : legal_history true 2 h_any /\ sized_history true 2 h_any.
Proof.
  split; [legal|]. apply sized_b_ok. vm_compute. reflexivity.
Qed.

(** A write of two elements, then a record write whose stored form is a prefix of the first's. *)
Definition d8 : dinfo := mkdinfo 1 [8; 8] [8; 8] [] (Some [9]).
Definition dr : dinfo := mkdinfo 1 [3; 100] [UNLIMITED; 100] [] (Some [9]).
Definition w_kind : list op :=
  [OCreate d8; OCreate dr;
   OWrite 0 0 [B [3;6] [1;1]; B [1;2] [1;1]] [1;2];
   OWrite 0 1 [B [2;8] [1;10]; B [2;30] [1;9]] (by_ 20 19);
   ORead 100 [mkrcall 1 [B [2;0] [1;40]] 0 junk]].
Lemma kind_refuted : legal_history true 1 w_kind /\
  exists s s' outs outs', outs <> outs' /\
    run e_dflt (init cfg_dflt 1 f_zero) w_kind = Ok (s, outs) /\
    run e_dflt (init (cfg_dflt - CFG_METADATA_SHARE) 1 f_zero) w_kind = Ok (s', outs').
Proof.
  split; [legal|]. eexists. eexists. eexists. eexists. split; [|split; vm_compute; reflexivity]. discriminate.
Qed.

(** Record and other multi-block writes in one history, of several element sizes: the numbers of
    blocks, or the ranks, differ. *)
Definition d3 : dinfo := mkdinfo 4 [4; 3; 5] [4; 3; 5] [] None.
Definition h_mixed : list op :=
  [ OCreate dA; OCreate dR; OCreate d3;
    OWrite 0 0 [B [0;0] [2;3]; B [1;1] [2;2]] (by_ 10 20);
    OWrite 0 1 [B [2;0] [1;1]; B [2;2] [1;1]; B [2;3] [1;1]] (by_ 60 3);
    OWrite 0 2 [B [0;0;0] [1;2;1]; B [1;0;2] [1;1;1]; B [3;1;1] [1;1;2]] (by_ 70 20);
    OWrite 0 1 [B [1;0] [1;1]; B [1;2] [1;1]; B [1;3] [1;1]] (by_ 80 3);
    OWrite 0 0 [B [0;0] [2;3]; B [1;1] [2;2]] (by_ 100 20);
    ORead 1000 [mkrcall 0 [B [0;0] [4;6]] 0 junk; mkrcall 1 [B [0;0] [3;4]] 0 junk; mkrcall 2 [B [0;0;0] [4;3;5]] 0 junk] ].
Definition cv_mixed : conv :=
  mkconv (fun nd n => (nd =? 2)%nat && (n =? 3)%nat)
         (fun s => match s with
                   | mkblock [_; _; _] _ :: _ => 4
                   | mkblock [_; _] _ :: _ => 2
                   | _ => 1
                   end).
Lemma h_mixed_ok : ok_history e_dflt cfg_dflt cv_mixed 1 h_mixed /\ ok_history e_arr cfg_dflt cv_mixed 1 h_mixed.
Proof. split; hist. Qed.

Lemma h_one_sized : Forall one_process h_one /\ legal_history true 1 h_one /\ sized_history true 1 h_one /\
  plain_cfg 4 /\ has 4 CFG_SEL_ENCODE = false /\ has 4 CFG_METADATA_SHARE = false.
Proof.
  split; [repeat constructor|]. split; [legal|]. split; [apply sized_b_ok; vm_compute; reflexivity|].
  split; [split; [vm_compute; split; [discriminate|reflexivity]|reflexivity]|]. split; reflexivity.
Qed.
