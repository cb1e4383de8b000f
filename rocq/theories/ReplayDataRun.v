(** h5lreplay on the file of a whole run. *)
From Verif Require Import Base BaseProofs Spec MetaModel QueueModel FlushModel IndexModel ReadModel SysModel
  SysSpec LogSpec History GeomProofs MetaProofs QueueProofs IndexProofs SearchProofs SortProofs ReadProofs HitProofs MdProofs StoreProofs
  FlushProofs ReadOneProofs SysProofs HistoryProofs ClaimProofs SysCheck Examples ClaimProofs2 SizedProofs DefSpec DefProofs DumpModel DumpSpec DumpProofs DumpRun
  ReplayModel ReplayDataModel ReplayDataSpec ReplayDataProofs.
From Coq Require Import ZifyNat ZifyN Permutation.

(** ** Everything in the log was written *)
Definition wrote (ops : list op) (i : issued) : Prop := exists rk, In (OWrite rk (is_did i) (is_sels i) (is_data i)) ops.
Definition wrote_l (ops : list op) (l : logged) : Prop := wrote ops (mkis (lg_did l) (lg_sels l) (lg_data l)).
Definition all_written (ops : list op) (s : lstate) : Prop :=
  Forall (Forall (Forall (wrote_l ops))) (ls_md s) /\ Forall (Forall (wrote_l ops)) (ls_fl s) /\ Forall (Forall (wrote ops)) (ls_pd s).

Lemma Forall_repeat : forall A (P : A -> Prop) x n, P x -> Forall P (repeat x n).
Proof. induction n; cbn; auto. Qed.
Lemma Forall_empty : forall A B (P : B -> Prop) (l : list A), Forall (Forall P) (map (fun _ => []) l).
Proof. intros. rewrite Forall_map. apply Forall_forall. auto. Qed.

Lemma lay_one_written : forall ops l off, Forall (wrote ops) l -> Forall (wrote_l ops) (lay_one off l).
Proof. intros ops l. induction l as [|i l IH]; intros off H; cbn; constructor; inversion H; subst; auto. Qed.
Lemma lay_all_written : forall ops pd off, Forall (Forall (wrote ops)) pd -> Forall (Forall (wrote_l ops)) (lay_all off pd).
Proof. intros ops pd. induction pd as [|l pd IH]; intros off H; cbn; constructor; inversion H; subst; auto using lay_one_written. Qed.
Lemma join_Forall : forall (P : logged -> Prop) a b, Forall (Forall P) a -> Forall (Forall P) b -> Forall (Forall P) (join a b).
Proof.
  intros P a. induction a as [|x a IH]; intros [|y b] HA HB; unfold join; cbn; constructor; inversion HA; inversion HB; subst.
  - apply Forall_app. auto.
  - apply IH; auto.
Qed.
Lemma flush_written : forall ops s doff, all_written ops s -> all_written ops (l_flush doff s).
Proof.
  intros ops s doff (H1 & H2 & H3). unfold l_flush. split; [exact H1|]. cbn [ls_fl ls_pd]. split; [|apply Forall_empty].
  apply join_Forall; auto using lay_all_written.
Qed.
Lemma publish_written : forall ops s, all_written ops s -> all_written ops (l_publish s).
Proof.
  intros ops s (H1 & H2 & H3). unfold l_publish. split; [|split; [apply Forall_empty|exact H3]]. cbn [ls_md].
  destruct (forallb _ (ls_fl s)); auto. apply Forall_app. auto.
Qed.
Lemma step_written : forall ops s o, In o ops -> all_written ops s -> all_written ops (l_step s o).
Proof.
  intros ops s o Hi H. destruct o as [d|did dims|rk did sels data|doff|doff calls|doff np]; cbn [l_step]; auto using flush_written, publish_written.
  - destruct sels as [|b sels]; auto. destruct H as (H1 & H2 & H3). split; [exact H1|]. split; [exact H2|]. cbn [ls_pd].
    apply Forall_upd_nth'; auto. apply Forall_app. split.
    + destruct (nth_in_or_default rk (ls_pd s) []) as [K| ->]; [|constructor]. rewrite Forall_forall in H3. auto.
    + constructor; [|constructor]. exists rk. exact Hi.
  - destruct (publish_written ops _ (flush_written ops s doff H)) as (K & _). split; [exact K|]. split; apply Forall_repeat; constructor.
Qed.
Lemma log_written : forall np ops, all_written ops (log_of np ops).
Proof.
  intros np ops. unfold log_of. assert (K : forall post s, (forall o, In o post -> In o ops) -> all_written ops s -> all_written ops (fold_left l_step post s)).
  { induction post as [|o post IH]; intros s Hin Hs; [exact Hs|]. cbn [fold_left]. apply IH; [intros; apply Hin; right; auto|]. apply step_written; auto. apply Hin. left. reflexivity. }
  apply K; auto. split; [constructor|]. split; apply Forall_repeat; constructor.
Qed.

(** ** The writes of the replaying processes *)
Lemma slice_map : forall A B (f : A -> B) r np l, slice r np (map f l) = map f (slice r np l).
Proof. intros. unfold slice. rewrite Zlen_map, skipn_map, firstn_map. reflexivity. Qed.

Lemma info_of_set : forall cfg infos sets did d, Forall2 (info_rep cfg) infos sets -> 0 <= did -> nth_error sets (Z.to_nat did) = Some d ->
  exists dip, info_at infos did = Some (Some dip) /\ di_dims dip = di_dims d.
Proof.
  intros cfg infos sets did d H H0 E. unfold info_at. destruct (Z.ltb_spec did 0); [lia|].
  destruct (Forall2_nth_error_r _ _ _ _ _ _ _ H E) as (o & O1 & dip & O2 & _ & O3 & _). exists dip. subst o. auto.
Qed.

Lemma proc_inv : forall e cfg cv s sp h n C ms grs z r nr ops, e_kind e = KArray -> inv e cfg cv s sp h n C ms grs ->
  Forall (Forall (Forall (wrote_l ops))) (map (map (map lg_of)) (map (map snd) ms)) ->
  Forall (fun o => match o with
    | OWrite _ did sels data => Zlen data < 2 ^ 31 /\ exists d, (0 <= did /\ nth_error (ss_sets sp) (Z.to_nat did) = Some d) /\ Forall (block_in d) sels
    | _ => True end) ops ->
  Forall (fun md => Zlen md < 2 ^ 31) (g_mdsets (s_g s)) -> 0 <= r < nr ->
  Forall (fun secs => nr <= Zlen secs) (ls_md (ls_of (glog ms grs))) ->
  exists ws, replay_proc z r nr (s_g s) = Ok ws /\
    forall did x, content ws did x =
      last_assigned did x (flat_map (log_assigns (ss_sets sp)) (flat_map (fun secs => concat (slice r nr secs)) (ls_md (ls_of (glog ms grs))))).
Proof.
  intros e cfg cv s sp h n C ms grs z r nr ops HK I HW HO H31 Hr Hnr.
  pose proof (v_infos _ _ _ _ _ _ _ _ _ _ I) as VI. pose proof (v_secs _ _ _ _ _ _ _ _ _ _ I) as HS. pose proof (v_ok _ _ _ _ _ _ _ _ _ _ I) as HP. rewrite HK in *.
  unfold ls_of, glog in *. cbn [fst ls_md] in *.
  destruct (replay_proc_ok z cfg (s_g s) r nr ms) as (ws & W1 & W2); auto.
  - apply (v_cfg _ _ _ _ _ _ _ _ _ _ I).
  - apply (v_md _ _ _ _ _ _ _ _ _ _ I).
  - rewrite (v_md _ _ _ _ _ _ _ _ _ _ I) in H31. rewrite Forall_map in H31. rewrite !Forall_map in Hnr. rewrite Forall_forall in *. intros m Hm.
    split; [apply H31; auto|]. pose proof (Hnr m Hm) as K. rewrite !Zlen_map in K. lia.
  - assert (F1 := Forall_in3 _ _ _ _ (v_perm _ _ _ _ _ _ _ _ _ _ I) HP).
    assert (F2 := Forall_in3 _ _ _ _ (v_perm _ _ _ _ _ _ _ _ _ _ I) (v_file _ _ _ _ _ _ _ _ _ _ I)).
    rewrite Forall_map in HW. rewrite Forall_forall in *. intros m Hm. specialize (F1 m Hm). specialize (F2 m Hm). specialize (HW m Hm). rewrite Forall_map in HW.
    rewrite Forall_forall in *. intros sec Hs. specialize (F1 sec Hs). specialize (F2 sec Hs). specialize (HW sec Hs). rewrite Forall_map in HW.
    rewrite Forall_forall in *. intros p Hp. split; [exact (F1 p Hp)|]. split; [exact (F2 p Hp)|].
    destruct (HW p Hp) as [rk Hin]. specialize (HO _ Hin). cbn [lg_of is_did is_sels is_data lg_did lg_sels lg_data] in HO. destruct HO as (D1 & d & (D2 & D3) & D4).
    split; [exact D1|]. destruct (info_of_set _ _ _ _ _ VI D2 D3) as (dip & I1 & I2). exists dip. split; [exact I1|].
    rewrite Forall_forall in *. intros b Hb. unfold block_in. rewrite I2. exact (D4 b Hb).
  - exists ws. split; [exact W1|]. intros did x. rewrite W2. f_equal. clear - VI. induction ms as [|m ms IH]; [reflexivity|].
    cbn [flat_map map]. rewrite !flat_map_app, IH. f_equal. rewrite !slice_map, map_map. clear - VI. induction (slice r nr m) as [|s0 l IHl]; [reflexivity|].
    cbn [flat_map map concat]. rewrite !flat_map_app. rewrite IHl. f_equal. clear - VI. induction (snd s0) as [|p l' IHp]; [reflexivity|]. cbn [flat_map map]. rewrite IHp. f_equal.
    unfold pwr_assigns, log_assigns, lg_of. cbn [lg_did lg_sels lg_data]. rewrite (info_esize _ _ _ _ VI). reflexivity.
Qed.

Lemma proc_ok : forall z cfg cv np f0 ops s outs r nr, ok_history (e_list z) cfg cv np ops ->
  run (e_list z) (init cfg np f0) ops = Ok (s, outs) ->
  Forall (stays_in (trace_of true np ops)) ops -> Forall (fun md => Zlen md < 2 ^ 31) (g_mdsets (s_g s)) ->
  0 <= r < nr -> Forall (fun secs => nr <= Zlen secs) (ls_md (log_of np ops)) ->
  exists ws, replay_proc z r nr (s_g s) = Ok ws /\
    forall did x, content ws did x = last_assigned did x
      (flat_map (log_assigns (t_sets (trace_of true np ops))) (flat_map (fun secs => concat (slice r nr secs)) (ls_md (log_of np ops)))).
Proof.
  intros z cfg cv np f0 ops s outs r nr (_ & H1 & H2 & H3 & H4 & H5) HR HI HM Hr Hnr.
  destruct (run_ok_log (e_list z) cfg cv ops _ _ _ _ _ _ _ (inv_init (e_list z) cfg cv np f0 H1 H2) H4 H5 ltac:(lia)) as (s' & C' & ms' & grs' & h' & R1 & R2 & R3).
  assert (s' = s) by congruence. subst s'.
  pose proof (hrel_run _ _ _ _ _ _ _ (hrel_init np) H5) as HT. change (e_coll (e_list z)) with true in *.
  assert (HL : ls_of (glog ms' grs') = log_of np ops).
  { rewrite R3, ls_run. unfold log_of. f_equal. unfold ls_of, glog. cbn [fst snd map]. f_equal; clear; (induction np as [|np IH]; [reflexivity|]); cbn [repeat map]; f_equal; exact IH. }
  assert (HS : t_sets (trace_of true np ops) = ss_sets (fst (srun true (mkss [] empty_store (repeat [] np)) ops))) by (unfold trace_of; apply (r_sets _ _ HT)).
  destruct (proc_inv (e_list z) _ _ _ _ _ _ _ _ _ z r nr ops eq_refl R2) as (ws & W1 & W2); auto.
  - pose proof (log_written np ops) as (K & _). rewrite <- HL in K. exact K.
  - unfold stays_in, dataset_of in HI. rewrite HS in HI. exact HI.
  - rewrite HL. exact Hnr.
  - exists ws. split; [exact W1|]. intros did x. rewrite W2, HL, HS. reflexivity.
Qed.

Lemma proc_all : forall e cfg np f0 ops s outs r nr, e_coll e = true -> plain_cfg cfg ->
  legal_history true np ops -> sized_history true np ops ->
  ((has cfg CFG_SEL_ENCODE = false /\ has cfg CFG_METADATA_SHARE = false) \/ array_history np ops) ->
  run e (init cfg np f0) ops = Ok (s, outs) ->
  Forall (stays_in (trace_of true np ops)) ops -> Forall (fun md => Zlen md < 2 ^ 31) (g_mdsets (s_g s)) ->
  0 <= r < nr -> Forall (fun secs => nr <= Zlen secs) (ls_md (log_of np ops)) ->
  exists ws, replay_proc (e_zlib e) r nr (s_g s) = Ok ws /\
    forall did x, content ws did x = last_assigned did x
      (flat_map (log_assigns (t_sets (trace_of true np ops))) (flat_map (fun secs => concat (slice r nr secs)) (ls_md (log_of np ops)))).
Proof.
  intros e cfg np f0 ops s outs r nr Hc Hp Hl Hs Hb HR HI HM Hr Hnr.
  assert (exists cv, ok_history (e_list (e_zlib e)) cfg cv np ops) as [cv Hok].
  { destruct Hb as [[B1 B2]|[f B]].
    - exists (mkconv (fun _ _ => false) (fun _ => 1)). apply sized_ok; auto. exact isort_is_sort.
    - exists (acv f). apply array_ok; auto. exact isort_is_sort. }
  destruct (run_spec _ _ _ _ f0 _ Hok) as [s' R'].
  assert (HG : s_g s = s_g s') by (eapply same_file; [| | |exact HR|exact R']; auto). rewrite HG in *. eapply proc_ok; eauto.
Qed.

(** One process: the order of the log. *)
Lemma slice_all : forall A (l : list A), slice 0 1 l = l.
Proof.
  intros A l. unfold slice. change (0 * Zlen l / 1) with 0. change ((0 + 1) * Zlen l / 1) with (match Zlen l with 0 => 0 | Z.pos y => Z.pos y | Z.neg y => Z.neg y end / 1).
  rewrite Z.div_1_r. cbn [Z.to_nat skipn]. rewrite Nat.sub_0_r. apply firstn_all2. unfold Zlen. destruct (Z.of_nat (length l)) eqn:E; lia.
Qed.

(** ** Log order and program order *)
Definition by_rank (F : list dinfo) (rk : nat) (o : op) : list assignment :=
  match o with
  | OWrite rk' did sels data => if (rk' =? rk)%nat then assigns_of (esize_at F did) did sels data else []
  | _ => []
  end.
Definition is_assigns (F : list dinfo) (i : issued) : list assignment := assigns_of (esize_at F (is_did i)) (is_did i) (is_sels i) (is_data i).
Definition rank_log (rk : nat) (md : list (list (list logged))) : list logged := flat_map (fun secs => nth rk secs []) md.
Definition rank_state (F : list dinfo) (rk : nat) (s : lstate) : list assignment :=
  flat_map (log_assigns F) (rank_log rk (ls_md s) ++ nth rk (ls_fl s) []) ++ flat_map (is_assigns F) (nth rk (ls_pd s) []).
Definition even_state (n : nat) (s : lstate) : Prop := length (ls_fl s) = n /\ length (ls_pd s) = n.

Lemma lay_one_assigns : forall F l off, flat_map (log_assigns F) (lay_one off l) = flat_map (is_assigns F) l.
Proof. intros F. induction l as [|i l IH]; intros off; [reflexivity|]. cbn [lay_one flat_map]. rewrite IH. reflexivity. Qed.
Lemma lay_all_nth : forall F pd off rk, flat_map (log_assigns F) (nth rk (lay_all off pd) []) = flat_map (is_assigns F) (nth rk pd []).
Proof.
  intros F. induction pd as [|l pd IH]; intros off rk; [destruct rk; reflexivity|]. destruct rk as [|rk]; cbn [lay_all nth]; [apply lay_one_assigns|apply IH].
Qed.
Lemma lay_all_length : forall pd off, length (lay_all off pd) = length pd.
Proof. induction pd; intros off; cbn; auto. Qed.
Lemma join_nth : forall a b rk, length a = length b -> nth rk (join a b) [] = nth rk a [] ++ nth rk b [].
Proof.
  induction a as [|x a IH]; intros [|y b] rk H; try discriminate; [destruct rk; reflexivity|]. unfold join. cbn [combine map fst snd].
  destruct rk as [|rk]; cbn [nth]; [reflexivity|]. apply IH. cbn in H. lia.
Qed.
Lemma join_length : forall a b, length a = length b -> length (join a b) = length a.
Proof. intros a b H. unfold join. rewrite map_length, combine_length. lia. Qed.
Lemma nth_empties : forall A B (l : list A) rk, nth rk (map (fun _ => @nil B) l) [] = [].
Proof. induction l as [|x l IH]; intros [|rk]; cbn; auto. Qed.
Lemma nth_repeat_nil : forall A n rk, nth rk (repeat (@nil A) n) [] = [].
Proof. induction n; intros [|rk]; cbn; auto. Qed.

Lemma nth_upd_other : forall A (l : list A) i j x d, i <> j -> nth j (upd_nth i x l) d = nth j l d.
Proof. induction l as [|y l IH]; intros [|i] [|j] x d H; cbn; auto; try congruence. Qed.

Lemma flush_state : forall F rk n s doff, even_state n s -> rank_state F rk (l_flush doff s) = rank_state F rk s /\ even_state n (l_flush doff s).
Proof.
  intros F rk n s doff [H1 H2]. assert (HJ : length (ls_fl s) = length (lay_all doff (ls_pd s))) by (rewrite lay_all_length; lia). split.
  - unfold rank_state, l_flush. cbn [ls_md ls_fl ls_pd]. rewrite join_nth by exact HJ. rewrite nth_empties. cbn [flat_map].
    rewrite app_nil_r, app_assoc, flat_map_app, lay_all_nth. reflexivity.
  - unfold even_state, l_flush. cbn [ls_fl ls_pd]. rewrite join_length, map_length by exact HJ. auto.
Qed.
Lemma publish_state : forall F rk n s, even_state n s -> rank_state F rk (l_publish s) = rank_state F rk s /\ even_state n (l_publish s) /\ nth rk (ls_fl (l_publish s)) [] = [].
Proof.
  intros F rk n s [H1 H2]. split; [|split].
  - unfold rank_state, l_publish. cbn [ls_md ls_fl ls_pd]. rewrite nth_empties, app_nil_r. f_equal. f_equal.
    destruct (forallb _ (ls_fl s)) eqn:E.
    + assert (K : nth rk (ls_fl s) [] = []). { clear - E. revert rk. induction (ls_fl s) as [|x l IH]; intros [|rk]; auto; cbn in *; destruct x; try discriminate; auto. }
      rewrite K, app_nil_r. reflexivity.
    + unfold rank_log. rewrite flat_map_app. cbn [flat_map]. rewrite app_nil_r. reflexivity.
  - unfold even_state, l_publish. cbn [ls_fl ls_pd]. rewrite map_length. auto.
  - unfold l_publish. cbn [ls_fl]. apply nth_empties.
Qed.

Definition next_np (n : nat) (o : op) : nat := match o with OReopen _ np => np | _ => n end.
Definition in_ranks (n : nat) (o : op) : Prop := match o with OWrite rk _ _ _ => (rk < n)%nat | _ => True end.
Lemma step_state : forall F rk n s o, even_state n s -> in_ranks n o ->
  rank_state F rk (l_step s o) = rank_state F rk s ++ by_rank F rk o /\ even_state (next_np n o) (l_step s o).
Proof.
  intros F rk n s o HE Ho. destruct o as [d|did dims|rk' did sels data|doff|doff calls|doff np]; cbn [l_step by_rank next_np]; rewrite ?app_nil_r; auto.
  - destruct sels as [|b sels].
    { split; [|exact HE]. unfold assigns_of. cbn [sel_coords flat_map combine map]. destruct (rk' =? rk)%nat; rewrite app_nil_r; reflexivity. }
    destruct HE as [H1 H2]. cbn [in_ranks] in Ho. split.
    + unfold rank_state. cbn [ls_md ls_fl ls_pd]. rewrite <- app_assoc. f_equal. destruct (Nat.eqb_spec rk' rk) as [->|Hne].
      * rewrite ClaimProofs.nth_upd_same by lia. rewrite flat_map_app. cbn [flat_map]. rewrite app_nil_r. reflexivity.
      * rewrite nth_upd_other by auto. rewrite app_nil_r. reflexivity.
    + split; cbn [ls_fl ls_pd]; auto. rewrite upd_nth_length. exact H2.
  - apply flush_state; auto.
  - destruct (flush_state F rk n s doff HE) as [F1 F2]. destruct (publish_state F rk n _ F2) as (P1 & P2 & _). rewrite P1, F1. auto.
  - destruct (flush_state F rk n s doff HE) as [F1 F2]. destruct (publish_state F rk n _ F2) as (P1 & P2 & P3). split.
    + rewrite <- F1, <- P1. unfold rank_state. cbn [ls_md ls_fl ls_pd]. rewrite !nth_repeat_nil, P3. f_equal. f_equal.
      unfold l_publish, l_flush. cbn [ls_pd]. rewrite nth_empties. reflexivity.
    + split; cbn [ls_fl ls_pd]; apply repeat_length.
Qed.

Fixpoint ranks_ok (n : nat) (ops : list op) : Prop :=
  match ops with [] => True | o :: rest => in_ranks n o /\ ranks_ok (next_np n o) rest end.
Lemma run_state : forall F rk ops n s, even_state n s -> ranks_ok n ops ->
  rank_state F rk (fold_left l_step ops s) = rank_state F rk s ++ flat_map (by_rank F rk) ops.
Proof.
  intros F rk. induction ops as [|o ops IH]; intros n s HE HR; cbn [fold_left flat_map]; [rewrite app_nil_r; reflexivity|].
  destruct HR as [R1 R2]. destruct (step_state F rk n s o HE R1) as [S1 S2]. rewrite (IH _ _ S2 R2), S1, app_assoc. reflexivity.
Qed.

Lemma tstep_pend : forall t o, length (t_pend (tstep true t o)) = next_np (length (t_pend t)) o.
Proof.
  intros t o. destruct o; cbn [tstep t_pend next_np]; rewrite ?upd_nth_length, ?map_length, ?repeat_length; auto.
Qed.
Lemma legal_ranks : forall ops t hi, legal_run true t hi ops -> ranks_ok (length (t_pend t)) ops.
Proof.
  induction ops as [|o ops IH]; intros t hi H; [exact Logic.I|]. destruct H as [H1 H2]. split.
  - destruct o; cbn [in_ranks]; auto. apply H1.
  - rewrite <- tstep_pend. eapply IH. exact H2.
Qed.

Lemma esize_nth : forall a did, esize_at a did = nth (Z.to_nat did) (map di_esize a) 0.
Proof.
  intros a did. unfold esize_at. generalize (Z.to_nat did) as k. induction a as [|d a IH]; intros [|k]; cbn; auto.
Qed.
Lemma program_order_ext : forall ops a b, map di_esize a = map di_esize b -> program_order a ops = program_order b ops.
Proof.
  induction ops as [|o ops IH]; intros a b H; [reflexivity|]. destruct o; cbn [program_order]; auto.
  - apply IH. rewrite !map_app, H. reflexivity.
  - rewrite !esize_nth, H. f_equal. auto.
Qed.
Definition new_esize (o : op) : list Z := match o with OCreate d => [di_esize d] | _ => [] end.
Lemma tstep_esizes : forall t o, map di_esize (t_sets (tstep true t o)) = map di_esize (t_sets t) ++ new_esize o.
Proof.
  intros t o. destruct o; cbn [tstep t_sets new_esize]; rewrite ?app_nil_r, ?map_app; auto.
  destruct (nth_error (t_sets t) (Z.to_nat did)) as [d|] eqn:E; auto. generalize dependent (Z.to_nat did). clear. generalize (t_sets t) as l.
  induction l as [|x l IH]; intros [|k] E; cbn in *; try discriminate; auto.
  - injection E as ->. reflexivity.
  - rewrite IH; auto.
Qed.
Lemma run_esizes : forall ops t, map di_esize (t_sets (fold_left (tstep true) ops t)) = map di_esize (t_sets t) ++ flat_map new_esize ops.
Proof.
  induction ops as [|o ops IH]; intros t; cbn [fold_left flat_map]; [rewrite app_nil_r; reflexivity|]. rewrite IH, tstep_esizes, app_assoc. reflexivity.
Qed.

Definition by_any (F : list dinfo) (o : op) : list assignment :=
  match o with OWrite _ did sels data => assigns_of (esize_at F did) did sels data | _ => [] end.
Lemma program_final : forall ops t hi, legal_run true t hi ops ->
  program_order (t_sets t) ops = flat_map (by_any (t_sets (fold_left (tstep true) ops t))) ops.
Proof.
  intros ops t hi H. pose proof (run_esizes ops t) as E. set (F := t_sets (fold_left (tstep true) ops t)) in *. clearbody F.
  revert t hi H E. induction ops as [|o ops IH]; intros t hi H E; [reflexivity|]. destruct H as [H1 H2]. cbn [flat_map] in *.
  pose proof (tstep_esizes t o) as ES. rewrite app_assoc, <- ES in E. specialize (IH _ _ H2 E). rewrite <- IH.
  destruct o; cbn [program_order by_any app].
  - cbn [tstep t_sets]. reflexivity.
  - apply program_order_ext. rewrite ES. cbn [new_esize]. rewrite app_nil_r. reflexivity.
  - f_equal. destruct H1 as (_ & d & (D1 & D2) & _). f_equal. rewrite !esize_nth, E, ES. cbn [new_esize]. rewrite app_nil_r.
    rewrite app_nth1; [reflexivity|]. rewrite map_length. apply nth_error_Some. congruence.
  - reflexivity.
  - reflexivity.
  - reflexivity.
Qed.

(** ** Elements written by one process *)
Lemma assigns_touch : forall did x es did' sels data, ~ (did' = did /\ In x (sel_coords sels)) -> last_assigned did x (assigns_of es did' sels data) = None.
Proof.
  intros did x es did' sels data H. apply last_assigned_none. intros v Hv. unfold assigns_of in Hv. apply in_map_iff in Hv. destruct Hv as ([c w] & E & Hin).
  cbn [fst snd] in E. injection E as -> -> ->. apply H. split; [reflexivity|]. eapply in_combine_l. exact Hin.
Qed.
Lemma owned_rank : forall did x rk F ops, Forall (fun o => match o with OWrite rk' did' sels _ => did' = did -> In x (sel_coords sels) -> rk = rk' | _ => True end) ops ->
  last_assigned did x (flat_map (by_any F) ops) = last_assigned did x (flat_map (by_rank F rk) ops) /\
  forall j, j <> rk -> last_assigned did x (flat_map (by_rank F j) ops) = None.
Proof.
  intros did x rk F ops H. induction H as [|o ops H1 _ [IH1 IH2]]; [split; reflexivity|]. cbn [flat_map].
  split; [|intros j Hj]; rewrite !last_assigned_app; rewrite ?IH1, ?(IH2 j Hj).
  - destruct (last_assigned did x (flat_map (by_rank F rk) ops)); [reflexivity|]. destruct o as [| |rk' did' sels data| | |]; auto. cbn [by_any by_rank].
    destruct (Nat.eqb_spec rk' rk); [reflexivity|]. apply assigns_touch. intros [T1 T2]. specialize (H1 T1 T2). congruence.
  - destruct o as [| |rk' did' sels data| | |]; auto. cbn [by_rank]. destruct (Nat.eqb_spec rk' j); [|reflexivity]. apply assigns_touch. intros [T1 T2]. specialize (H1 T1 T2). congruence.
Qed.

Lemma last_flat_none : forall A did x (f : A -> list assignment) l, last_assigned did x (flat_map f l) = None -> Forall (fun a => last_assigned did x (f a) = None) l.
Proof.
  induction l as [|a l IH]; intros H; [constructor|]. cbn [flat_map] in H. rewrite last_assigned_app in H. destruct (last_assigned did x (flat_map f l)); [discriminate|]. auto.
Qed.
Lemma last_flat_ext : forall A did x (f g : A -> list assignment) l, Forall (fun a => last_assigned did x (f a) = last_assigned did x (g a)) l ->
  last_assigned did x (flat_map f l) = last_assigned did x (flat_map g l).
Proof. induction 1 as [|a l H _ IH]; [reflexivity|]. cbn [flat_map]. rewrite !last_assigned_app, IH, H. reflexivity. Qed.
Lemma last_flat_nth : forall A did x (f : A -> list assignment) d l k, f d = [] -> (forall j, j <> k -> last_assigned did x (f (nth j l d)) = None) ->
  last_assigned did x (flat_map f l) = last_assigned did x (f (nth k l d)).
Proof.
  induction l as [|a l IH]; intros k Hd H.
  - cbn. destruct k; rewrite Hd; reflexivity.
  - cbn [flat_map]. rewrite last_assigned_app. destruct k as [|k].
    + rewrite (IH (length l) Hd). 2: { intros j Hj. apply (H (S j)). lia. }
      rewrite nth_overflow by lia. rewrite Hd. reflexivity.
    + cbn [nth]. rewrite (IH k Hd). 2: { intros j Hj. apply (H (S j)). lia. }
      destruct (last_assigned did x (f (nth k l d))); [reflexivity|]. apply (H O). lia.
Qed.

Lemma flat_map_flat_map : forall A B C (f : B -> list C) (g : A -> list B) l, flat_map f (flat_map g l) = flat_map (fun a => flat_map f (g a)) l.
Proof. induction l as [|a l IH]; [reflexivity|]. cbn [flat_map]. rewrite flat_map_app, IH. reflexivity. Qed.
Lemma flat_map_concat : forall A B (f : A -> list B) l, flat_map f (concat l) = flat_map (flat_map f) l.
Proof. induction l as [|a l IH]; [reflexivity|]. cbn [concat flat_map]. rewrite flat_map_app, IH. reflexivity. Qed.
Lemma nth_firstn : forall A (l : list A) n j d, (j < n)%nat -> nth j (firstn n l) d = nth j l d.
Proof. induction l as [|a l IH]; intros [|n] [|j] d H; cbn; auto; try lia. apply IH. lia. Qed.
Lemma nth_skipn : forall A (l : list A) n j d, nth j (skipn n l) d = nth (n + j) l d.
Proof. induction l as [|a l IH]; intros [|n] j d; cbn; auto. destruct j; reflexivity. Qed.

Section Slices.
Context (F : list dinfo) (did : Z) (x : list Z) (rk : nat).
Let LA := flat_map (log_assigns F).

Lemma slice_section : forall secs r nr, (forall j, j <> rk -> last_assigned did x (LA (nth j secs [])) = None) ->
  let a := Z.to_nat (r * Zlen secs / nr) in let b := Z.to_nat ((r + 1) * Zlen secs / nr) in
  (((a <= rk)%nat /\ (rk < b)%nat) \/ (length secs <= rk)%nat -> last_assigned did x (LA (concat (slice r nr secs))) = last_assigned did x (LA (nth rk secs []))) /\
  (~ ((a <= rk)%nat /\ (rk < b)%nat) -> last_assigned did x (LA (concat (slice r nr secs))) = None).
Proof.
  intros secs r nr H a b. unfold LA. rewrite flat_map_concat. unfold slice. fold a b.
  assert (HN : forall j, nth j (firstn (b - a) (skipn a secs)) [] = if (j <? b - a)%nat then nth (a + j) secs [] else []).
  { intros j. destruct (Nat.ltb_spec j (b - a)); [rewrite nth_firstn, nth_skipn by lia; reflexivity|]. apply nth_overflow. rewrite firstn_length. lia. }
  assert (OUT : ~ ((a <= rk)%nat /\ (rk < b)%nat) -> last_assigned did x (flat_map (flat_map (log_assigns F)) (firstn (b - a) (skipn a secs))) = None).
  { intros Hout. rewrite (last_flat_nth _ did x (flat_map (log_assigns F)) [] _ (length (firstn (b - a) (skipn a secs))) eq_refl); [rewrite nth_overflow by lia; reflexivity|].
    intros j Hj. rewrite HN. destruct (Nat.ltb_spec j (b - a)); [|reflexivity]. apply H. lia. }
  split; [|exact OUT]. intros HI.
  destruct (le_lt_dec a rk) as [HA|HA]; [destruct (le_lt_dec b rk) as [HB|HB]|].
  - rewrite OUT by lia. destruct HI as [HI|HI]; [lia|]. rewrite (nth_overflow secs) by exact HI. reflexivity.
  - rewrite (last_flat_nth _ did x (flat_map (log_assigns F)) [] _ (rk - a)%nat eq_refl).
    + rewrite HN. destruct (Nat.ltb_spec (rk - a) (b - a)); [|lia]. replace (a + (rk - a))%nat with rk by lia. reflexivity.
    + intros j Hj. rewrite HN. destruct (Nat.ltb_spec j (b - a)); [|reflexivity]. apply H. lia.
  - rewrite OUT by lia. destruct HI as [HI|HI]; [lia|]. rewrite (nth_overflow secs) by exact HI. reflexivity.
Qed.

Lemma slice_mdsets : forall md r nr, (forall j, j <> rk -> last_assigned did x (LA (rank_log j md)) = None) ->
  let a := fun secs : list (list logged) => Z.to_nat (r * Zlen secs / nr) in let b := fun secs : list (list logged) => Z.to_nat ((r + 1) * Zlen secs / nr) in
  (Forall (fun secs => ((a secs <= rk)%nat /\ (rk < b secs)%nat) \/ (length secs <= rk)%nat) md ->
     last_assigned did x (LA (flat_map (fun secs => concat (slice r nr secs)) md)) = last_assigned did x (LA (rank_log rk md))) /\
  (Forall (fun secs => ~ ((a secs <= rk)%nat /\ (rk < b secs)%nat)) md ->
     last_assigned did x (LA (flat_map (fun secs => concat (slice r nr secs)) md)) = None).
Proof.
  intros md r nr H a b. unfold LA, rank_log in *. rewrite !flat_map_flat_map.
  assert (HJ : Forall (fun secs => forall j, j <> rk -> last_assigned did x (flat_map (log_assigns F) (nth j secs [])) = None) md).
  { rewrite Forall_forall. intros secs Hs j Hj. specialize (H j Hj). rewrite flat_map_flat_map in H. apply last_flat_none in H. rewrite Forall_forall in H. exact (H secs Hs). }
  split; intros HM.
  - apply last_flat_ext. rewrite Forall_forall in *. intros secs Hs. destruct (slice_section secs r nr (HJ secs Hs)) as [S1 _]. apply S1. exact (HM secs Hs).
  - replace (@None value) with (last_assigned did x (flat_map (fun _ : list (list logged) => []) md)). 2: { clear. induction md; auto. }
    apply last_flat_ext. rewrite Forall_forall in *. intros secs Hs. destruct (slice_section secs r nr (HJ secs Hs)) as [_ S2]. apply S2. exact (HM secs Hs).
Qed.
End Slices.

(** ** Interleavings *)
Lemma interleaving_content : forall parts l r0 did x, interleaving parts l ->
  (forall r, r <> r0 -> content (nth r parts []) did x = None) -> content l did x = content (nth r0 parts []) did x.
Proof.
  intros parts l r0 did x HI. induction HI as [ls H|ls i w r l E HI IH]; intros H0.
  - destruct (nth_in_or_default r0 ls []) as [K| ->]; [|reflexivity]. rewrite Forall_forall in H. rewrite (H _ K). reflexivity.
  - assert (Hi : (i < length ls)%nat) by (apply nth_error_Some; congruence).
    assert (En : nth i ls [] = w :: r) by (apply nth_error_nth with (d := []) in E; exact E).
    assert (HC : forall r', content (w :: r') did x = match content r' did x with Some v => Some v | None => last_assigned did x (stored w) end).
    { intros r'. unfold content. cbn [flat_map]. apply last_assigned_app. }
    assert (IH' : content l did x = content (nth r0 (upd_nth i r ls) []) did x).
    { apply IH. intros r' Hr'. destruct (Nat.eq_dec r' i) as [->|Hne].
      - rewrite ClaimProofs.nth_upd_same by exact Hi. pose proof (H0 i Hr') as K. rewrite En, HC in K. destruct (content r did x); [discriminate|reflexivity].
      - rewrite nth_upd_other by auto. auto. }
    rewrite HC, IH'. destruct (Nat.eq_dec i r0) as [->|Hne].
    + rewrite ClaimProofs.nth_upd_same by exact Hi. rewrite En, HC. reflexivity.
    + rewrite nth_upd_other by auto. pose proof (H0 i Hne) as K. rewrite En, HC in K. destruct (content r did x); [discriminate|]. rewrite K.
      destruct (content (nth r0 ls []) did x); reflexivity.
Qed.
