(** Default settings: [default_history] is accepted. *)
From Verif Require Import Base BaseProofs Spec MetaModel QueueModel FlushModel IndexModel ReadModel SysModel
  SysSpec History GeomProofs MetaProofs MetaClaims QueueProofs IndexProofs SearchProofs SortProofs ReadProofs HitProofs MdProofs StoreProofs
  FlushProofs ReadOneProofs SysProofs HistoryProofs ClaimProofs SysCheck Examples ClaimProofs2 SizedProofs DefSpec.
From Coq Require Import ZifyNat ZifyN.

Lemma is_rec_record : forall d sels, is_rec d sels = true -> record_write d sels.
Proof.
  intros d sels. unfold is_rec, record_write. destruct (di_mdims d) as [|m0 ms]; [discriminate|]. destruct sels as [|b0 sels]; [discriminate|].
  rewrite andb_true_iff. intros [H1 H2]. apply Z.eqb_eq in H1. split; auto. exists (hd 0 (b_start b0)).
  rewrite forallb_forall in H2. apply Forall_forall. intros b Hb. specialize (H2 b Hb). apply andb_prop in H2. destruct H2 as [A B].
  apply Z.eqb_eq in A, B. auto.
Qed.

Lemma fits_parts : forall dims s n, fits_in dims s n -> Forall2 (fun d x => 0 <= x < d) dims s /\ Forall2 (fun d x => 0 < x <= d) dims n.
Proof.
  induction dims as [|d dims IH]; intros [|s0 s] [|n0 n] H; cbn in H; try contradiction; [split; constructor|].
  destruct H as (A & B & C & D). destruct (IH _ _ D). split; constructor; auto; lia.
Qed.

Lemma dims_pos : forall dims n, Forall2 (fun d x => 0 < x <= d) dims n -> Forall (fun d => 0 < d) dims.
Proof. induction 1; constructor; auto; lia. Qed.

Lemma steps_bound : forall dims, Forall (fun d => 0 < d) dims -> Forall (fun x => 0 <= x <= Zprod dims) (dsteps_of dims).
Proof.
  induction 1 as [|d dims Hd HF IH]; [constructor|]. rewrite dsteps_of_cons, (Zprod_cons).
  assert (0 < Zprod dims) by (apply Zprod_pos; auto). constructor; [nia|]. eapply Forall_impl; [|exact IH]. cbn. intros x Hx. nia.
Qed.

Lemma Forall2_tl : forall A B (P : A -> B -> Prop) l l', Forall2 P l l' -> Forall2 P (tl l) (tl l').
Proof. destruct 1; cbn; auto. Qed.

Lemma narrow_encodable : forall d b, block_in d b -> di_dims d <> [] -> Zprod (di_dims d) < 2 ^ 62 -> narrow d b -> blk_encodable (di_dims d) b.
Proof.
  intros d b HB HN HP HW. destruct (fits_parts _ _ _ HB) as [F1 F2]. unfold narrow in HW.
  split; split; rewrite ?sel_encode_rm.
  - apply Forall2_tl in F1. eapply Forall2_weak; [|exact F1]. cbn. lia.
  - destruct (rm_lt _ _ F1). lia.
  - exact HW.
  - destruct F2 as [|d0 n0 dims n H1 F2]; [congruence|]. cbn [rm tl] in *. rewrite Zprod_cons in HP.
    assert (HR : 0 <= rm dims n < Zprod dims). { apply rm_lt. clear - F2 HW. revert HW. induction F2; intros HW; inversion HW; subst; constructor; auto; lia. }
    assert (0 < d0) by lia. change (2 ^ 63) with (2 * 2 ^ 62). nia.
Qed.

Section Default.
Context (e : env) (cfg : Z).
Definition dcv := mkconv (fun _ _ => false) (fun _ => 1).
Context (Hplain : plain_cfg cfg) (Hlim : e_limit e = None) (Hcoll : e_coll e = true).
Context (Hkind : has cfg CFG_METADATA_SHARE = false \/ e_kind e = KCompact).

Definition seen_ok (h : hstate) (seen : list (nat * list block)) : Prop :=
  forall rk l sels, nth_error (hs_seen h) rk = Some l -> In sels l -> In (rk, sels) seen.

Lemma default_rest : forall s h t hi room o seen, zrel s h t hi room -> legal_op t hi o -> Forall (fun d => di_dims d <> []) (t_sets t) ->
  default_op t seen o -> seen_ok h seen -> rest_ok e cfg dcv s h o.
Proof.
  intros s h t hi room o seen L Hl HD Hd HS. pose proof (z_rel _ _ _ _ _ L) as R. destruct o as [d|did dims|rk did sels data|doff|doff calls|doff np]; cbn [rest_ok]; auto.
  intros l d Hl1 Hd1 Hne. cbn [legal_op default_op] in *. destruct Hl as (L1 & d' & D1 & D2 & D3).
  assert (d' = d) by (rewrite (sets_of_eq _ _ _ _ R D1) in Hd1; congruence). subst d'. destruct (Hd d D1) as [E1 E2].
  assert (HN : di_dims d <> []). { rewrite Forall_forall in HD. apply HD. destruct D1 as [_ D1]. eapply nth_error_In; eauto. }
  assert (HM : multi sels = true -> is_rec d sels = false /\ Zprod (di_dims d) < 2 ^ 62 /\ Forall (narrow d) sels).
  { intros HM. unfold multi in HM. apply Nat.ltb_lt in HM. destruct (E1 HM) as (A & B & C). split; auto. destruct (is_rec d sels) eqn:E; auto. apply is_rec_record in E. contradiction. }
  split.
  - intros _ HM'. destruct (HM HM') as (A & B & C). rewrite A. cbv zeta. intros _.
    assert (HP : Forall (fun x => 0 < x) (di_dims d)). { destruct sels as [|b sels]; [congruence|]. apply Forall_inv in D2. destruct (fits_parts _ _ _ D2) as [_ F2]. eapply dims_pos; eauto. }
    split. { eapply Forall_impl; [|apply steps_bound; exact HP]. cbn beta. intros x Hx. change (2 ^ 63) with (2 * 2 ^ 62). lia. }
    rewrite Forall_forall in *. intros b Hb. apply narrow_encodable; auto.
  - intros HSh. split; [|split].
    + intros _ HM'. destruct (HM HM') as (A & _). rewrite A. reflexivity.
    + intros K. destruct Hkind; congruence.
    + intros _ HR HI. assert (HL : length sels = 1%nat).
      { destruct (multi sels) eqn:EM; [destruct (HM eq_refl); congruence|]. unfold multi in EM. apply Nat.ltb_ge in EM. destruct sels; [congruence|]. cbn in *. lia. }
      apply (E2 HL (is_rec_record _ _ HR)). eapply HS; eauto.
Qed.

Lemma seen_step : forall s h t hi room o seen, zrel s h t hi room -> seen_ok h seen ->
  seen_ok (hstep e s h o) (match o with OWrite rk _ sels _ => (rk, sels) :: seen | _ => seen end).
Proof.
  intros s h t hi room o seen L HS. destruct o as [d|did dims|rk did sels data|doff|doff calls|doff np]; cbn [hstep]; auto.
  - intros rk' l sels' H1 H2. cbn [hs_seen] in H1. destruct (Nat.eq_dec rk rk') as [->|Hn].
    + destruct (le_lt_dec (length (hs_seen h)) rk') as [Hge|Hlt].
      { rewrite upd_oob in H1 by auto. right. eapply HS; eauto. }
      rewrite nth_error_upd_nth_eq in H1 by auto. assert (l = sels :: nth rk' (hs_seen h) []) by congruence. subst l.
      destruct H2 as [->|H2]; [left; reflexivity|right]. apply (HS rk' (nth rk' (hs_seen h) [])); auto. apply nth_error_nth'. auto.
    + rewrite nth_error_upd_nth_ne in H1 by auto. right. eapply HS; eauto.
  - unfold hflush. destruct (pend_bytes s =? 0); auto.
  - rewrite Hcoll. unfold hflush. destruct (pend_bytes s =? 0); auto.
  - intros rk l sels H1 H2. cbn [hs_seen] in H1. apply nth_error_In, repeat_spec in H1. subst l. destruct H2.
Qed.

Lemma ranked_step : forall t hi o, Forall (fun d => length (di_mdims d) = length (di_dims d)) (t_sets t) ->
  Forall (fun d => di_dims d <> []) (t_sets t) -> legal_op t hi o -> (forall d, o = OCreate d -> di_dims d <> []) ->
  Forall (fun d => di_dims d <> []) (t_sets (tstep true t o)).
Proof.
  intros t hi o HM HD Hl Hd. destruct o as [d|did dims|rk did sels data|doff|doff calls|doff np]; cbn [tstep t_sets legal_op] in *; auto.
  - apply Forall_app. auto.
  - destruct Hl as (d & [_ D1] & D2). rewrite D1. apply Forall_upd_nth'; auto. cbn [di_dims]. intros ->.
    assert (E : di_mdims d = []) by (unfold extent_ok in D2; inversion D2; auto). apply nth_error_In in D1. rewrite Forall_forall in HD, HM.
    specialize (HD d D1). specialize (HM d D1). rewrite E in HM. destruct (di_dims d); [congruence|discriminate].
Qed.

Lemma default_ok_run : forall ops s h t hi seen, zrel s h t hi (Zlen ops) -> legal_run true t hi ops -> sized_run true t ops ->
  default_run t seen ops -> seen_ok h seen -> Forall (fun d => di_dims d <> []) (t_sets t) -> ok_run e cfg dcv s h ops.
Proof.
  induction ops as [|o ops IH]; intros s h t hi seen L Hl Hs Hd HS HN; [exact I|]. destruct Hs as (Hz & Ho & Hs). destruct Hl as [H1 H2]. destruct Hd as [D1 D2].
  rewrite Zlen_cons in L. replace (1 + Zlen ops) with (Zlen ops + 1) in L by lia. assert (H0 : 0 <= Zlen ops) by (unfold Zlen; lia).
  pose proof (default_rest s h t hi _ o seen L H1 HN D1 HS) as HR.
  split; [eapply (sized_ok_op e cfg dcv Hlim Hcoll s h t hi (Zlen ops + 1)); eauto; lia|].
  pose proof (sized_step e cfg dcv Hlim Hcoll s h t hi (Zlen ops) o H0 L Hz H1 Ho HR) as HZ. rewrite Hcoll in HZ.
  rewrite Hcoll. eapply IH; eauto.
  - eapply seen_step; eauto.
  - eapply ranked_step; eauto; [|intros d ->; exact D1]. pose proof (z_md _ _ _ _ _ L) as M. rewrite <- (r_sets _ _ (z_rel _ _ _ _ _ L)) in M. exact M.
Qed.

Lemma default_ok : forall np ops, is_sort (e_sort e) -> legal_history true np ops -> sized_history true np ops -> default_history np ops ->
  ok_history e cfg dcv np ops.
Proof.
  intros np ops HS (H1 & H2 & H3 & H4) Hs Hd. split; auto. split; auto. split; auto. split; auto. split; auto.
  eapply (default_ok_run ops _ _ (mktr [] [] (repeat [] np)) 0 []); eauto.
  - eapply zrel_init with (e := e); auto; try exact dcv. unfold Zlen. lia.
  - intros rk l sels E1 E2. cbn [hs_seen] in E1. apply nth_error_In, repeat_spec in E1. subst l. destruct E2.
  - constructor.
Qed.
End Default.

(** ** The array index *)
Section Array.
Context (e : env) (cfg : Z) (f : list block -> Z).
Definition acv := mkconv (fun _ _ => false) f.
Context (Hplain : plain_cfg cfg) (Hlim : e_limit e = None) (Hcoll : e_coll e = true) (Hkind : e_kind e = KArray).

Lemma array_rest : forall s h t hi room o, zrel s h t hi room -> legal_op t hi o -> Forall (fun d => di_dims d <> []) (t_sets t) ->
  array_op f t o -> rest_ok e cfg acv s h o.
Proof.
  intros s h t hi room o L Hl HD Hd. pose proof (z_rel _ _ _ _ _ L) as R. destruct o as [d|did dims|rk did sels data|doff|doff calls|doff np]; cbn [rest_ok]; auto.
  intros l d Hl1 Hd1 Hne. cbn [legal_op array_op] in *. destruct Hl as (L1 & d' & D1 & D2 & D3).
  assert (d' = d) by (rewrite (sets_of_eq _ _ _ _ R D1) in Hd1; congruence). subst d'.
  assert (HN : di_dims d <> []). { rewrite Forall_forall in HD. apply HD. destruct D1 as [_ D1]. eapply nth_error_In; eauto. }
  assert (HM : multi sels = true -> is_rec d sels = false /\ Zprod (di_dims d) < 2 ^ 62 /\ Forall (narrow d) sels /\ di_esize d = f sels).
  { intros HM. unfold multi in HM. apply Nat.ltb_lt in HM. destruct (Hd HM d D1) as (A & B & C & D). split; auto. destruct (is_rec d sels) eqn:E; auto. apply is_rec_record in E. contradiction. }
  split.
  - intros _ HM'. destruct (HM HM') as (A & B & C & _). rewrite A. cbv zeta. intros _.
    assert (HP : Forall (fun x => 0 < x) (di_dims d)). { destruct sels as [|b sels]; [congruence|]. apply Forall_inv in D2. destruct (fits_parts _ _ _ D2) as [_ F2]. eapply dims_pos; eauto. }
    split. { eapply Forall_impl; [|apply steps_bound; exact HP]. cbn beta. intros x Hx. change (2 ^ 63) with (2 * 2 ^ 62). lia. }
    rewrite Forall_forall in *. intros b Hb. apply narrow_encodable; auto.
  - intros HSh. split; [|split].
    + intros _ HM'. destruct (HM HM') as (A & _). rewrite A. reflexivity.
    + intros _ HM'. destruct (HM HM') as (A & _ & _ & B). rewrite A. exact B.
    + intros K. congruence.
Qed.

Lemma array_ok_run : forall ops s h t hi, zrel s h t hi (Zlen ops) -> legal_run true t hi ops -> sized_run true t ops ->
  array_run f t ops -> Forall (fun d => di_dims d <> []) (t_sets t) -> ok_run e cfg acv s h ops.
Proof.
  induction ops as [|o ops IH]; intros s h t hi L Hl Hs Hd HN; [exact I|]. destruct Hs as (Hz & Ho & Hs). destruct Hl as [H1 H2]. destruct Hd as [D1 D2].
  rewrite Zlen_cons in L. replace (1 + Zlen ops) with (Zlen ops + 1) in L by lia. assert (H0 : 0 <= Zlen ops) by (unfold Zlen; lia).
  pose proof (array_rest s h t hi _ o L H1 HN D1) as HR.
  split; [eapply (sized_ok_op e cfg acv Hlim Hcoll s h t hi (Zlen ops + 1)); eauto; lia|].
  pose proof (sized_step e cfg acv Hlim Hcoll s h t hi (Zlen ops) o H0 L Hz H1 Ho HR) as HZ. rewrite Hcoll in HZ.
  rewrite Hcoll. eapply IH; eauto.
  eapply ranked_step; eauto; [|intros d ->; exact D1]. pose proof (z_md _ _ _ _ _ L) as M. rewrite <- (r_sets _ _ (z_rel _ _ _ _ _ L)) in M. exact M.
Qed.

Lemma array_ok : forall np ops, is_sort (e_sort e) -> legal_history true np ops -> sized_history true np ops ->
  array_run f (mktr [] [] (repeat [] np)) ops -> ok_history e cfg acv np ops.
Proof.
  intros np ops HS (H1 & H2 & H3 & H4) Hs Hd. split; auto. split; auto. split; auto. split; auto. split; auto.
  eapply (array_ok_run ops _ _ (mktr [] [] (repeat [] np)) 0); eauto.
  - eapply zrel_init with (e := e); auto; try exact acv. unfold Zlen. lia.
  - constructor.
Qed.
End Array.

Lemma default_reads : forall e cfg np f0 ops,
  e_coll e = true -> e_limit e = None -> is_sort (e_sort e) -> plain_cfg cfg -> e_kind e = KCompact ->
  legal_history true np ops -> sized_history true np ops -> default_history np ops ->
  exists s outs, run e (init cfg np f0) ops = Ok (s, outs) /\ length outs = length ops /\
    forall i doff calls, nth_error ops i = Some (ORead doff calls) ->
      exists bufs, nth_error outs i = Some bufs /\
        let t := trace_of true np (firstn i ops) in
        Forall2 (correct_read (mktr (t_sets t) (t_pub t ++ concat (t_pend t)) [])) calls bufs.
Proof.
  intros e cfg np f0 ops E1 E2 E3 E4 E5 H2 H3 H4.
  assert (H : ok_history e cfg dcv np ops) by (apply default_ok; auto).
  destruct (all_reads_correct _ _ _ _ f0 _ H) as (s & outs & R1 & R2 & R3). exists s, outs. split; auto. split; auto.
  intros i doff calls Hi. destruct (R3 i doff calls Hi) as (bufs & B1 & B2). exists bufs. split; auto. cbv zeta.
  rewrite (firstn_S_app _ _ _ _ Hi), E1, trace_snoc in B2. cbn [tstep] in B2.
  eapply Forall2_weak; [|exact B2]. intros c b. unfold correct_read. cbn [t_sets t_pub]. auto.
Qed.

Lemma default_reads_one : forall e cfg f0 ops,
  e_coll e = true -> e_limit e = None -> is_sort (e_sort e) -> plain_cfg cfg -> e_kind e = KCompact ->
  Forall one_process ops -> legal_history true 1 ops -> sized_history true 1 ops -> default_history 1 ops ->
  exists s outs, run e (init cfg 1 f0) ops = Ok (s, outs) /\ length outs = length ops /\
    forall i doff calls, nth_error ops i = Some (ORead doff calls) ->
      exists bufs, nth_error outs i = Some bufs /\
        Forall2 (fun c buf => exists d,
          nth_error (t_sets (trace_of true 1 (firstn i ops))) (Z.to_nat (rc_did c)) = Some d /\
          length (elems (di_esize d) buf) = length (sel_coords (rc_sels c)) /\
          forall k x, nth_error (sel_coords (rc_sels c)) k = Some x ->
            nth_error (elems (di_esize d) buf) k
              = Some (expected (program_order [] (firstn i ops)) d c k x)) calls bufs.
Proof.
  intros e cfg f0 ops E1 E2 E3 E4 E5 H1 H2 H3 H4. apply (one_process_reads e cfg dcv); auto. apply default_ok; auto.
Qed.

(** ** Check by computation *)
Definition narrow_b (d : dinfo) (b : block) : bool :=
  (length (tl (di_dims d)) =? length (tl (b_count b)))%nat &&
  forallb (fun p => snd p <? fst p) (combine (tl (di_dims d)) (tl (b_count b))).
Definition record_b (d : dinfo) (sels : list block) : bool :=
  (hd 0 (di_mdims d) =? UNLIMITED) &&
  forallb (fun b => (hd 0 (b_start b) =? hd 0 (b_start (hd (B [] []) sels))) && (hd 0 (b_count b) =? 1)) sels.
Definition block_eqb (a b : block) : bool := coord_eqb (b_start a) (b_start b) && coord_eqb (b_count a) (b_count b).
Fixpoint sels_eqb (a b : list block) : bool :=
  match a, b with x :: a', y :: b' => block_eqb x y && sels_eqb a' b' | [], [] => true | _, _ => false end.
Definition default_op_b (t : trace) (seen : list (nat * list block)) (o : op) : bool :=
  match o with
  | OCreate d => match di_dims d with [] => false | _ => true end
  | OWrite rk did sels _ =>
      match nth_error (t_sets t) (Z.to_nat did) with
      | Some d =>
          (if (1 <? length sels)%nat then (Zprod (di_dims d) <? 2 ^ 62) && forallb (narrow_b d) sels && negb (record_b d sels) else true) &&
          (if (length sels =? 1)%nat && record_b d sels then negb (existsb (fun p => (fst p =? rk)%nat && sels_eqb (snd p) sels) seen) else true)
      | None => true
      end
  | _ => true
  end.
Fixpoint default_run_b (t : trace) (seen : list (nat * list block)) (ops : list op) : bool :=
  match ops with
  | [] => true
  | o :: rest => default_op_b t seen o &&
      default_run_b (tstep true t o) (match o with OWrite rk _ sels _ => (rk, sels) :: seen | _ => seen end) rest
  end.
Lemma sels_eqb_refl : forall a, sels_eqb a a = true.
Proof.
  induction a as [|b a IH]; [reflexivity|]. cbn. rewrite IH. unfold block_eqb. rewrite (proj2 (coord_eqb_eq _ _) eq_refl), (proj2 (coord_eqb_eq (b_count b) _) eq_refl). reflexivity.
Qed.
Lemma record_b_ok : forall d sels, sels <> [] -> record_write d sels -> record_b d sels = true.
Proof.
  intros d sels HN [H1 [r H2]]. unfold record_b. rewrite H1. cbn [andb]. destruct sels as [|b0 sels]; [congruence|]. cbn [hd].
  apply forallb_forall. intros b Hb. rewrite Forall_forall in H2. destruct (H2 b Hb) as [A B]. destruct (H2 b0 (or_introl eq_refl)) as [C _].
  rewrite A, B, C, Z.eqb_refl. reflexivity.
Qed.
Lemma default_b_ok : forall np ops, default_run_b (mktr [] [] (repeat [] np)) [] ops = true -> default_history np ops.
Proof.
  intros np ops. unfold default_history. generalize (mktr [] [] (repeat [] np)) as t. generalize (@nil (nat * list block)) as seen.
  induction ops as [|o ops IH]; intros seen t H; [exact I|]. cbn [default_run_b] in H. apply andb_prop in H. destruct H as [H1 H2].
  split; [|apply IH; auto]. destruct o as [d|did dims|rk did sels data|doff|doff calls|doff np']; cbn [default_op default_op_b] in *; auto.
  - destruct (di_dims d); [discriminate|discriminate].
  - intros d [_ D]. rewrite D in H1. apply andb_prop in H1. destruct H1 as [A B]. split.
    + intros HL. apply Nat.ltb_lt in HL as HL'. rewrite HL' in A. rewrite !andb_true_iff in A. destruct A as [[A1 A2] A3]. split; [apply Z.ltb_lt; auto|].
      split.
      * rewrite forallb_forall in A2. apply Forall_forall. intros b Hb. specialize (A2 b Hb). unfold narrow_b in A2. apply andb_prop in A2. destruct A2 as [L F].
        apply Nat.eqb_eq in L. unfold narrow. revert L F. generalize (tl (di_dims d)), (tl (b_count b)). induction l as [|x l IHl]; intros [|y l'] L F; try discriminate; constructor.
        -- cbn in F. apply andb_prop in F. apply Z.ltb_lt, F.
        -- cbn in F. apply andb_prop in F. apply IHl; [cbn in L; lia|apply F].
      * intros HR. apply record_b_ok in HR; [|intros ->; cbn in HL; lia]. rewrite HR in A3. discriminate.
    + intros HL HR HI. apply record_b_ok in HR; [|intros ->; discriminate]. rewrite HR, HL in B. cbn in B. apply negb_true_iff in B.
      assert (existsb (fun p => (fst p =? rk)%nat && sels_eqb (snd p) sels) seen = true); [|congruence].
      apply existsb_exists. exists (rk, sels). split; auto. cbn. rewrite Nat.eqb_refl, sels_eqb_refl. reflexivity.
Qed.

Lemma h_full_default : legal_history true 2 h_full /\ sized_history true 2 h_full /\ default_history 2 h_full.
Proof.
  split; [legal|]. split; [apply sized_b_ok; vm_compute; reflexivity|]. apply default_b_ok. vm_compute. reflexivity.
Qed.
Lemma h_one_default : Forall one_process h_one /\ legal_history true 1 h_one /\ sized_history true 1 h_one /\ default_history 1 h_one.
Proof.
  split; [repeat constructor|]. split; [legal|]. split; [apply sized_b_ok; vm_compute; reflexivity|]. apply default_b_ok. vm_compute. reflexivity.
Qed.

(** The array condition, by computation, for one element size. *)
Definition array_op_b (es : Z) (t : trace) (o : op) : bool :=
  match o with
  | OCreate d => match di_dims d with [] => false | _ => true end
  | OWrite rk did sels _ =>
      match nth_error (t_sets t) (Z.to_nat did) with
      | Some d => if (1 <? length sels)%nat then (Zprod (di_dims d) <? 2 ^ 62) && forallb (narrow_b d) sels && negb (record_b d sels) && (di_esize d =? es) else true
      | None => true
      end
  | _ => true
  end.
Fixpoint array_run_b (es : Z) (t : trace) (ops : list op) : bool :=
  match ops with [] => true | o :: rest => array_op_b es t o && array_run_b es (tstep true t o) rest end.
Lemma narrow_b_ok : forall d b, narrow_b d b = true -> narrow d b.
Proof.
  intros d b A. unfold narrow_b in A. apply andb_prop in A. destruct A as [L F]. apply Nat.eqb_eq in L. unfold narrow. revert L F.
  generalize (tl (di_dims d)), (tl (b_count b)). induction l as [|x l IHl]; intros [|y l'] L F; try discriminate; constructor.
  - cbn in F. apply andb_prop in F. apply Z.ltb_lt, F.
  - cbn in F. apply andb_prop in F. apply IHl; [cbn in L; lia|apply F].
Qed.
Lemma array_b_ok : forall es np ops, array_run_b es (mktr [] [] (repeat [] np)) ops = true -> array_history np ops.
Proof.
  intros es np ops H. exists (fun _ => es). revert H. generalize (mktr [] [] (repeat [] np)) as t.
  induction ops as [|o ops IH]; intros t H; [exact I|]. cbn [array_run_b] in H. apply andb_prop in H. destruct H as [H1 H2].
  split; [|apply IH; auto]. destruct o as [d|did dims|rk did sels data|doff|doff calls|doff np']; cbn [array_op array_op_b] in *; auto.
  - destruct (di_dims d); [discriminate|discriminate].
  - intros HL d [_ D]. rewrite D in H1. apply Nat.ltb_lt in HL as HL'. rewrite HL', !andb_true_iff in H1. destruct H1 as [[[A1 A2] A3] A4].
    split; [apply Z.ltb_lt; auto|]. split; [|split; [|apply Z.eqb_eq; auto]].
    + rewrite forallb_forall in A2. apply Forall_forall. intros b Hb. apply narrow_b_ok. auto.
    + intros HR. apply record_b_ok in HR; [|intros ->; cbn in HL; lia]. rewrite HR in A3. discriminate.
Qed.
