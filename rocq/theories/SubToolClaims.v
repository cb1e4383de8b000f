(** Closing a file with subfiles, and the utilities on it: proofs of the claims. *)
From Coq Require Import Ascii String ZifyNat.
From Verif Require Import Base BaseProofs Spec MetaModel QueueModel FlushModel IndexModel ReadModel SysModel SysSpec History HistoryProofs ClaimProofs AnyProofs
  SysProofs SortProofs SysCheck Examples SizedProofs DefSpec DefProofs DumpModel DumpSpec DumpProofs DumpRun ReplayDataModel ReplayDataSpec ReplayDataProofs ReplayDataRun ReplayDataClaims
  SubModel SubSpec SubProofs SubClaims SubToolModel SubToolSpec SubToolProofs SubCloseProofs.
Open Scope list_scope. Open Scope Z_scope.

(** ** Without reads only the deflate implementation matters *)
Definition noread (o : op) : Prop := match o with ORead _ _ => False | _ => True end.
Lemma run_noread : forall e e' ops s, e_zlib e = e_zlib e' -> Forall noread ops -> run e s ops = run e' s ops.
Proof.
  intros e e' ops. induction ops as [|o ops IH]; intros s Hz HF; [reflexivity|]. inversion HF as [|? ? Ho HF']; subst. cbn [run].
  assert (E : step e s o = step e' s o) by (destruct o; try (exfalso; exact Ho); cbn [step]; rewrite ?Hz; reflexivity).
  rewrite E. destruct (step e' s o) as [[s1 x]| |]; cbn [bind fst]; auto. rewrite (IH s1 Hz HF'). reflexivity.
Qed.
Lemma own_noread : forall ng gid np ops doffs, Forall (writing_op ng) ops -> Forall noread (own_session gid np ops doffs).
Proof.
  intros ng gid np ops doffs H. unfold own_session. apply Forall_app. split; [|repeat constructor].
  eapply Forall_impl; [|apply (own_writing ng gid ops H)]. intros []; cbn; auto.
Qed.

Lemma group_runs : forall e cfg np f0 own, plain_cfg cfg -> group_ok cfg np own -> Forall noread own -> exists p, run e (init cfg np f0) own = Ok p.
Proof.
  intros e cfg np f0 own Hp (Hl & Hs & Hb) Hn.
  assert (exists cv, ok_history (e_list (e_zlib e)) cfg cv np own) as [cv Hok].
  { destruct Hb as [[B1 B2]|[f B]].
    - exists (mkconv (fun _ _ => false) (fun _ => 1)). apply sized_ok; auto. exact isort_is_sort.
    - exists (acv f). apply array_ok; auto. exact isort_is_sort. }
  destruct (run_spec _ _ _ _ f0 _ Hok) as [s' R']. rewrite (run_noread e (e_list (e_zlib e))); eauto.
Qed.

(** ** The subfile of a group *)
Lemma own_split : forall e s0 k np ops doffs s outs, run e s0 (own_session k np ops doffs) = Ok (s, outs) ->
  exists p infos, run e s0 (own_part k ops) = Ok p /\ reopen_infos (g_cfg (s_g (fst p))) (g_infos (s_g (fst p))) = Ok infos /\
    set_ranks (s_g s) [] = (let g1 := close_file (nth k doffs 0) (s_g (fst p)) in mkg (g_cfg (s_g (fst p))) infos [] (g_file g1) (g_mdsets g1) (g_nldset g1) false).
Proof.
  intros e s0 k np ops doffs s outs H. unfold own_session in H. rewrite run_app in H. destruct (run e s0 (own_part k ops)) as [p| |] eqn:R; try discriminate. cbn [bind] in H.
  cbn [run step] in H. cbv zeta in H. destruct (reopen_infos _ _) as [infos| |] eqn:E; try discriminate. cbn [bind fst snd] in H. injection H as <- _.
  exists p, infos. split; [reflexivity|]. split; [exact E|]. reflexivity.
Qed.

Lemma on_path_at : forall ps (fs : list gfile) k p f, NoDup ps -> length ps = length fs -> nth_error ps k = Some p -> nth_error fs k = Some f -> on_path p (combine ps fs) = Ok f.
Proof.
  induction ps as [|q ps IH]; intros [|h fs] k p f ND HL Hp Hf; try (destruct k; discriminate). inversion ND as [|? ? N1 N2]; subst. cbn [combine on_path].
  destruct k as [|k]; cbn [nth_error] in *.
  - injection Hp as ->. injection Hf as ->. rewrite String.eqb_refl. reflexivity.
  - destruct (String.eqb_spec p q) as [->|_]; [exfalso; apply N1; eapply nth_error_In; exact Hp|]. cbn in HL. eapply IH; eauto.
Qed.
Lemma paths_nodup : forall name n, NoDup (map (create_path name) (seq 0 n)).
Proof.
  intros name n. apply FinFun.Injective_map_NoDup; [|apply seq_NoDup]. intros i j H. exact (paths_inj _ _ _ H).
Qed.

Lemma close_cfg : forall d g, g_cfg (close_file d g) = g_cfg g /\ g_infos (close_file d g) = g_infos g.
Proof. intros d g. unfold close_file, metaflush, flush_writes. cbv zeta. cbn [g_cfg g_infos]. destruct (Zsum _ =? 0); split; reflexivity. Qed.

Lemma close_ok : forall e name cfg nps f0 ops doffs, Forall (writing_op (length nps)) ops -> length doffs = length nps -> all_or_none (length nps) ops ->
  (forall k np, nth_error nps k = Some np -> exists p, run e (init (Z.land cfg 15) np f0) (own_session k np ops doffs) = Ok p) ->
  exists s outs c, sub_run e (sub_init name cfg nps f0) ops = SOk (s, outs) /\ sub_close doffs s = SOk c /\ cl_name c = name /\ cl_nsub c = length nps /\
    forall k np sk ok, nth_error nps k = Some np -> run e (init (Z.land cfg 15) np f0) (own_session k np ops doffs) = Ok (sk, ok) ->
      subfile c k = Ok (set_ranks (s_g sk) []).
Proof.
  intros e name cfg nps f0 ops doffs HF HD HA HR.
  assert (HR' : forall k, (k < length nps)%nat -> exists p, run e (init (Z.land cfg 15) (nth k nps 0%nat) f0) (own_part k ops) = Ok p).
  { intros k Hk. destruct (nth_error_lt_some _ nps k Hk) as [np E]. destruct (HR k np E) as [[sk ok] R]. apply own_split in R. destruct R as (p & _ & R & _). rewrite (nth_error_nth nps k 0%nat E). eauto. }
  destruct (session e name cfg nps f0 ops HF HR') as (s & outs & S1 & S2 & S3 & S4 & S5 & S6).
  destruct (close_sim s (stk e cfg nps f0 ops) doffs) as (fs & C1 & C2 & C3); try (rewrite S2); auto.
  { intros k Hk. apply S6. exact Hk. }
  { destruct HA as [A|A]; [right|left]; intros k Hk; rewrite (proj2 (S6 k Hk)); auto. }
  exists s, outs, (mkcl (sf_name s) (length (sf_groups s)) (combine (sf_created s) fs)). split; [exact S1|]. split; [exact C1|]. split; [exact S3|]. split; [exact S2|].
  intros k np sk ok E R. pose proof (nth_error_lt _ _ _ _ E) as Hk. destruct (nth_error_lt_some _ fs k ltac:(lia)) as [f Ef].
  unfold subfile. cbn [cl_name cl_disk]. rewrite S3, S4. change (tool_path name k) with (create_path name k).
  rewrite (on_path_at _ fs k (create_path name k) f); auto.
  - cbn [bind]. rewrite (C3 k f Ef). destruct (own_split _ _ _ _ _ _ _ _ R) as (p & infos & R1 & R2 & R3).
    assert (HS : stk e cfg nps f0 ops k = fst p). { unfold stk. rewrite (nth_error_nth nps k 0%nat E), R1. reflexivity. }
    rewrite HS. cbn [left_on_disk g_cfg g_infos]. destruct (close_cfg (nth k doffs 0) (s_g (fst p))) as [-> ->]. rewrite R2. cbn [bind]. rewrite R3. f_equal.
    unfold set_infos, left_on_disk. cbn [g_cfg g_ranks g_file g_mdsets g_nldset g_metadirty]. rewrite (proj1 (close_cfg (nth k doffs 0) (s_g (fst p)))). reflexivity.
  - apply paths_nodup.
  - rewrite map_length, seq_length. lia.
  - rewrite nth_error_map. rewrite nth_error_nth' with (d := 0%nat) by (rewrite seq_length; exact Hk). rewrite seq_nth by exact Hk. reflexivity.
Qed.

Lemma close_returns : forall e name cfg nps f0 ops doffs, plain_cfg (Z.land cfg 15) ->
  Forall (writing_op (length nps)) ops -> length doffs = length nps -> all_or_none (length nps) ops ->
  (forall k np, nth_error nps k = Some np -> group_ok (Z.land cfg 15) np (own_session k np ops doffs)) ->
  exists s outs c, sub_run e (sub_init name cfg nps f0) ops = SOk (s, outs) /\ sub_close doffs s = SOk c /\ cl_name c = name /\ cl_nsub c = length nps /\
    forall k np, nth_error nps k = Some np -> exists sk ok,
      run e (init (Z.land cfg 15) np f0) (own_session k np ops doffs) = Ok (sk, ok) /\ subfile c k = Ok (set_ranks (s_g sk) []).
Proof.
  intros e name cfg nps f0 ops doffs Hp HF HD HA HG.
  assert (HR : forall k np, nth_error nps k = Some np -> exists p, run e (init (Z.land cfg 15) np f0) (own_session k np ops doffs) = Ok p).
  { intros k np E. apply group_runs; auto. eapply own_noread. exact HF. }
  destruct (close_ok e name cfg nps f0 ops doffs HF HD HA HR) as (s & outs & c & C1 & C2 & C3 & C4 & C5). exists s, outs, c. repeat (split; [assumption|]).
  intros k np E. destruct (HR k np E) as [[sk ok] R]. exists sk, ok. split; [exact R|]. eapply C5; eauto.
Qed.

Lemma close_uneven : forall e name cfg nps f0 ops doffs a b, plain_cfg (Z.land cfg 15) ->
  Forall (writing_op (length nps)) ops -> length doffs = length nps ->
  (forall k np, nth_error nps k = Some np -> group_ok (Z.land cfg 15) np (own_session k np ops doffs)) ->
  (a < length nps)%nat -> (b < length nps)%nat -> SubToolSpec.wrote a ops -> ~ SubToolSpec.wrote b ops ->
  exists s outs, sub_run e (sub_init name cfg nps f0) ops = SOk (s, outs) /\ sub_close doffs s = SHang.
Proof.
  intros e name cfg nps f0 ops doffs a b Hp HF HD HG Ha Hb Wa Wb.
  assert (HR' : forall k, (k < length nps)%nat -> exists p, run e (init (Z.land cfg 15) (nth k nps 0%nat) f0) (own_part k ops) = Ok p).
  { intros k Hk. destruct (nth_error_lt_some _ nps k Hk) as [np E]. destruct (group_runs e (Z.land cfg 15) np f0 _ Hp (HG k np E) (own_noread _ k np ops doffs HF)) as [[sk ok] R].
    apply own_split in R. destruct R as (p & _ & R & _). rewrite (nth_error_nth nps k 0%nat E). eauto. }
  destruct (session e name cfg nps f0 ops HF HR') as (s & outs & S1 & S2 & S3 & S4 & S5 & S6). exists s, outs. split; [exact S1|].
  eapply (close_hang s (stk e cfg nps f0 ops) doffs a b); rewrite ?S2; auto.
  - intros k Hk. apply S6. exact Hk.
  - rewrite (proj2 (S6 a Ha)). auto.
  - rewrite (proj2 (S6 b Hb)). auto.
Qed.

(** ** The listing *)
Lemma each_all : forall A B (f : A -> res B) (Q : A -> B -> Prop) l, (forall a, In a l -> exists b, f a = Ok b /\ Q a b) -> exists bs, each f l = Ok bs /\ Forall2 Q l bs.
Proof.
  intros A B f Q l. induction l as [|a l IH]; intros H; [exists []; split; [reflexivity|constructor]|].
  destruct (H a (or_introl eq_refl)) as (b & B1 & B2). destruct IH as (bs & E1 & E2); [intros; apply H; right; assumption|].
  exists (b :: bs). cbn [each]. rewrite B1. cbn [bind]. rewrite E1. split; [reflexivity|constructor; assumption].
Qed.
Lemma Forall2_seq : forall B (Q : nat -> B -> Prop) bs a n, Forall2 Q (seq a n) bs -> length bs = n /\ forall k b, nth_error bs k = Some b -> Q (a + k)%nat b.
Proof.
  intros B Q bs. induction bs as [|b bs IH]; intros a [|n] H; inversion H; subst.
  - split; [reflexivity|]. intros [|k] b E; discriminate.
  - destruct (IH _ _ H5) as [I1 I2]. split; [cbn; lia|]. intros [|k] b' E; cbn in E.
    + injection E as <-. rewrite Nat.add_0_r. assumption.
    + rewrite Nat.add_succ_r. exact (I2 k b' E).
Qed.

Lemma dump_close : forall e name cfg nps f0 ops doffs wd, e_coll e = true -> plain_cfg (Z.land cfg 15) ->
  Forall (writing_op (length nps)) ops -> length doffs = length nps -> all_or_none (length nps) ops ->
  (forall k np, nth_error nps k = Some np -> group_ok (Z.land cfg 15) np (own_session k np ops doffs)) ->
  exists s outs c ds, sub_run e (sub_init name cfg nps f0) ops = SOk (s, outs) /\ sub_close doffs s = SOk c /\ dump_sub (e_zlib e) wd c = Ok ds /\ length ds = length nps /\
    forall k np d, nth_error nps k = Some np -> nth_error ds k = Some d ->
      map (map (map listed)) d = map (map (map (show wd (t_sets (trace_of true np (own_session k np ops doffs)))))) (ls_md (log_of np (own_session k np ops doffs))).
Proof.
  intros e name cfg nps f0 ops doffs wd Hc Hp HF HD HA HG.
  destruct (close_returns e name cfg nps f0 ops doffs Hp HF HD HA HG) as (s & outs & c & C1 & C2 & C3 & C4 & C5).
  set (Q := fun k d => forall np, nth_error nps k = Some np -> map (map (map listed)) d = map (map (map (show wd (t_sets (trace_of true np (own_session k np ops doffs)))))) (ls_md (log_of np (own_session k np ops doffs)))).
  destruct (each_all _ _ (fun i => do g <- subfile c i; dump_file (e_zlib e) wd g) Q (seq 0 (cl_nsub c))) as (ds & D1 & D2).
  - intros k Hk. apply in_seq in Hk. rewrite C4 in Hk. destruct (nth_error_lt_some _ nps k ltac:(lia)) as [np E]. destruct (C5 k np E) as (sk & ok & R1 & R2). rewrite R2. cbn [bind].
    destruct (HG k np E) as (G1 & G2 & G3). destruct (dump_all e _ np f0 _ sk ok wd Hc Hp G1 G2 G3 R1) as (d & D1 & D2). exists d. split; [exact D1|].
    intros np' E'. assert (np' = np) by congruence. subst np'. exact D2.
  - exists s, outs, c, ds. split; [exact C1|]. split; [exact C2|]. split; [exact D1|]. rewrite C4 in D2. destruct (Forall2_seq _ Q ds 0%nat _ D2) as [L1 L2]. split; [exact L1|].
    intros k np d E1 E2. exact (L2 k d E2 np E1).
Qed.

(** ** Replaying *)
Lemma assigns_sel : forall es did sels data d x v, In (d, x, v) (assigns_of es did sels data) -> d = did /\ In x (sel_coords sels).
Proof.
  intros es did sels data d x v H. unfold assigns_of in H. apply in_map_iff in H. destruct H as ([c w] & E & H). cbn in E. injection E as -> -> _. split; [reflexivity|].
  apply in_combine_l in H. exact H.
Qed.
Lemma assigns_none : forall es did sels data d x, ~ (d = did /\ In x (sel_coords sels)) -> last_assigned d x (assigns_of es did sels data) = None.
Proof. intros es did sels data d x H. apply last_assigned_none. intros v Hv. apply H. eapply assigns_sel. exact Hv. Qed.

(** Only group [o] writes element [x] of dataset [did]. *)
Definition only_group (did : Z) (x : list Z) (o : nat) (s : sop) : Prop :=
  match s with SWrite g _ did' sels _ => did' = did -> In x (sel_coords sels) -> g = o | _ => True end.

Lemma order_app : forall a b sets did x, last_assigned did x (program_order sets (a ++ b)) =
  match last_assigned did x (program_order (sets ++ flat_map (fun o => match o with OCreate d => [d] | _ => [] end) a) b) with Some v => Some v | None => last_assigned did x (program_order sets a) end.
Proof.
  induction a as [|o a IH]; intros b sets did x.
  - cbn [app flat_map program_order last_assigned]. rewrite app_nil_r. destruct (last_assigned _ _ _); reflexivity.
  - destruct o; cbn [app flat_map program_order]; rewrite ?app_nil_l; try apply IH.
    + rewrite IH, <- app_assoc. reflexivity.
    + rewrite !last_assigned_app, IH. destruct (last_assigned did x (program_order (sets ++ _) b)); [reflexivity|]. reflexivity.
Qed.

Lemma order_own : forall ng did x o ops sets, Forall (writing_op ng) ops -> Forall (only_group did x o) ops ->
  last_assigned did x (program_order sets (everyone ops)) = last_assigned did x (program_order sets (own_part o ops)).
Proof.
  intros ng did x o ops. induction ops as [|s ops IH]; intros sets HF HO; [reflexivity|]. inversion HF as [|? ? F1 F2]; subst. inversion HO as [|? ? O1 O2]; subst.
  unfold everyone, own_part. cbn [flat_map]. fold (everyone ops). fold (own_part o ops).
  destruct s; cbn [together own writing_op session_op app program_order] in *; try (exfalso; exact F1); try (apply IH; assumption).
  destruct (Nat.eqb_spec gid o) as [->|N]; cbn [app program_order]; rewrite !last_assigned_app, IH by assumption; [reflexivity|].
  rewrite assigns_none; [destruct (last_assigned _ _ _); reflexivity|]. intros [-> K]. apply N. auto.
Qed.
Lemma order_other : forall ng did x o k ops sets, Forall (writing_op ng) ops -> Forall (only_group did x o) ops -> k <> o ->
  last_assigned did x (program_order sets (own_part k ops)) = None.
Proof.
  intros ng did x o k ops. induction ops as [|s ops IH]; intros sets HF HO HK; [reflexivity|]. inversion HF as [|? ? F1 F2]; subst. inversion HO as [|? ? O1 O2]; subst.
  unfold own_part. cbn [flat_map]. fold (own_part k ops).
  destruct s; cbn [own writing_op session_op app program_order] in *; try (exfalso; exact F1); try (apply IH; assumption).
  destruct (Nat.eqb_spec gid k) as [->|N]; cbn [app program_order]; [|apply IH; assumption]. rewrite last_assigned_app, IH by assumption.
  apply assigns_none. intros [-> K]. apply HK. symmetry. rewrite <- (O1 eq_refl K). reflexivity.
Qed.
Lemma order_nobody : forall ng did x o ops sets, Forall (writing_op ng) ops -> (ng <= o)%nat -> last_assigned did x (program_order sets (own_part o ops)) = None.
Proof.
  intros ng did x o ops. induction ops as [|s ops IH]; intros sets HF HK; [reflexivity|]. inversion HF as [|? ? F1 F2]; subst.
  unfold own_part. cbn [flat_map]. fold (own_part o ops).
  destruct s; cbn [own writing_op session_op app program_order] in *; try (exfalso; exact F1); try (apply IH; assumption).
  destruct (Nat.eqb_spec gid o) as [->|N]; [lia|]. cbn [app]. apply IH; assumption.
Qed.
Lemma order_session : forall k np ops doffs did x, last_assigned did x (program_order [] (own_session k np ops doffs)) = last_assigned did x (program_order [] (own_part k ops)).
Proof. intros. unfold own_session. rewrite order_app. reflexivity. Qed.

Lemma content_app : forall a b did x, content (a ++ b) did x = match content b did x with Some v => Some v | None => content a did x end.
Proof. intros. unfold content. rewrite flat_map_app, last_assigned_app. reflexivity. Qed.
Lemma content_concat_none : forall l did x, Forall (fun b => content b did x = None) l -> content (concat l) did x = None.
Proof. intros l did x H. induction H as [|b l H1 _ IH]; [reflexivity|]. cbn [concat]. rewrite content_app, IH. exact H1. Qed.
Lemma content_concat_one : forall (is : list nat) l did x o v, Forall2 (fun i b => content b did x = if (i =? o)%nat then v else None) is l ->
  content (concat l) did x = if existsb (Nat.eqb o) is then v else None.
Proof.
  intros is l did x o v H. induction H as [|i b is l H1 _ IH]; [reflexivity|]. cbn [concat existsb]. rewrite content_app, IH, H1, (Nat.eqb_sym o i).
  destruct (i =? o)%nat; cbn [orb]; destruct (existsb _ is), v; reflexivity.
Qed.

(** ** The two groups of processes of h5lreplay *)
Lemma zseq_parts : forall (P : Z -> list rwrite -> Prop) (f : Z -> res (list rwrite)) nr, 0 <= nr -> (forall r, 0 <= r < nr -> exists ws, f r = Ok ws /\ P r ws) ->
  exists parts, map f (zseq nr) = map Ok parts /\ length parts = Z.to_nat nr /\ forall r, (r < Z.to_nat nr)%nat -> P (Z.of_nat r) (nth r parts []).
Proof.
  intros P f nr Hnr H. unfold zseq. assert (K : forall r, (r < Z.to_nat nr)%nat -> exists ws, f (Z.of_nat r) = Ok ws /\ P (Z.of_nat r) ws) by (intros r Hr; apply H; lia).
  clear H Hnr. revert K. generalize (Z.to_nat nr) as n. induction n as [|n IH]; intros K.
  - exists []. repeat split. intros r Hr. lia.
  - destruct IH as (parts & P1 & P2 & P3); [intros r Hr; apply K; lia|]. destruct (K n ltac:(lia)) as (ws & W1 & W2). exists (parts ++ [ws]).
    rewrite seq_S, !map_app, P1. cbn [map plus]. rewrite W1. repeat split; [rewrite app_length; cbn; lia|]. intros r Hr.
    destruct (Nat.eq_dec r n) as [->|N]; [rewrite app_nth2, P2, Nat.sub_diag by lia; exact W2|]. rewrite app_nth1 by lia. apply P3. lia.
Qed.

Lemma replay_close : forall e name cfg nps f0 ops doffs s outs c nr, e_coll e = true -> plain_cfg (Z.land cfg 15) ->
  Forall (writing_op (length nps)) ops -> length doffs = length nps -> all_or_none (length nps) ops ->
  (forall k np, nth_error nps k = Some np -> group_ok (Z.land cfg 15) np (own_session k np ops doffs) /\
     Forall (stays_in (trace_of true np (own_session k np ops doffs))) (own_session k np ops doffs)) ->
  sub_run e (sub_init name cfg nps f0) ops = SOk (s, outs) -> sub_close doffs s = SOk c ->
  (forall k g, subfile c k = Ok g -> Forall (fun md => Zlen md < 2 ^ 31) (g_mdsets g)) ->
  owned_sub ops -> 0 < nr -> Forall (fun np => nr <= 2 * Z.of_nat np) nps ->
  exists parts, map (fun r => replay_sub (e_zlib e) r nr c) (zseq nr) = map Ok parts /\
    forall l, interleaving parts l -> forall did x, content l did x = last_assigned did x (program_order [] (everyone ops)).
Proof.
  intros e name cfg nps f0 ops doffs s outs c nr Hc Hp HF HD HA HG HS HC HM [owner HO] Hnr HNP.
  destruct (close_returns e name cfg nps f0 ops doffs Hp HF HD HA (fun k np E => proj1 (HG k np E))) as (s' & outs' & c' & C1 & C2 & _ & C4 & C5).
  assert (s' = s) by congruence. subst s'. assert (c' = c) by congruence. subst c'. clear C1.
  (* the processes of the group that replays subfile k *)
  set (cl := fun k : nat => Z.of_nat k mod nnode nr). set (nk := fun k : nat => (nr + 1 - cl k) / 2).
  assert (Hcl : forall k, 0 <= cl k < 2 /\ cl k < nr). { intros k. unfold cl, nnode. pose proof (Z.mod_pos_bound (Z.of_nat k) (Z.min nr 2)). lia. }
  assert (Hnk : forall k, 0 < nk k). { intros k. unfold nk. pose proof (Hcl k). apply Z.div_str_pos. lia. }
  assert (HP : forall k, exists ps, (k < length nps)%nat -> exists g, subfile c k = Ok g /\ map (fun r => replay_proc (e_zlib e) r (nk k) g) (zseq (nk k)) = map Ok ps /\ length ps = Z.to_nat (nk k) /\
     forall did x, exists r0, (r0 < Z.to_nat (nk k))%nat /\ content (nth r0 ps []) did x = last_assigned did x (program_order [] (own_part k ops)) /\ forall r, r <> r0 -> content (nth r ps []) did x = None).
  { intros k. destruct (le_lt_dec (length nps) k) as [Hk|Hk]; [exists []; intros; lia|]. destruct (nth_error_lt_some _ nps k Hk) as [np E]. destruct (C5 k np E) as (sk & ok & R1 & R2).
    destruct (HG k np E) as ((G1 & G2 & G3) & G4). pose proof (HM k _ R2) as G5. cbn [set_ranks g_mdsets] in G5.
    destruct (replay_owned_each e (Z.land cfg 15) np f0 (own_part k ops) (nth k doffs 0) np sk ok (nk k) Hc Hp G1 G2 G3 R1 G4 G5) as (ps & P1 & P2 & P3).
    - exists (fun did x => snd (owner did x)). apply Forall_app. split; [|repeat constructor]. rewrite Forall_forall in HO |- *. intros o Ho. unfold own_part in Ho. apply in_flat_map in Ho.
      destruct Ho as (so & S1 & S2). specialize (HO so S1). destruct so; cbn [own] in S2; try (destruct S2 as [<-|[]]; exact Logic.I).
      destruct (Nat.eqb_spec gid k) as [->|N]; [|destruct S2]. destruct S2 as [<-|[]]. intros x Hx. rewrite (HO x Hx). reflexivity.
    - right. split.
      + split; [apply Hnk|]. rewrite Forall_forall in HNP. pose proof (HNP np (nth_error_In _ _ E)). unfold nk. pose proof (Hcl k).
        assert ((nr + 1 - cl k) / 2 < Z.of_nat np + 1); [apply Z.div_lt_upper_bound; lia|lia].
      + apply Forall_app. split; [|repeat constructor]. eapply Forall_impl; [|apply (own_writing _ k ops HF)]. intros []; cbn; auto; intros [].
    - exists ps. intros _. exists (set_ranks (s_g sk) []). split; [exact R2|]. split; [exact P1|]. split; [exact P2|]. intros did x. destruct (P3 did x) as (r0 & Q1 & Q2 & Q3).
      exists r0. split; [exact Q1|]. split; [|exact Q3]. rewrite Q2. apply order_session. }
  (* what a process writes *)
  set (mine := fun r => List.filter (fun i => Z.of_nat i mod nnode nr =? subid r) (seq 0 (cl_nsub c))).
  assert (Hmine : forall r i, In i (mine r) <-> (i < length nps)%nat /\ cl i = subid r).
  { intros r i. unfold mine. rewrite filter_In, in_seq, C4, Z.eqb_eq. unfold cl. intuition lia. }
  destruct (zseq_parts (fun r ws => forall did x o v, (forall k g w, (k < length nps)%nat -> cl k = subid r -> subfile c k = Ok g -> replay_proc (e_zlib e) (subrank r) (subnp r nr) g = Ok w -> content w did x = if (k =? o)%nat then v else None) ->
     content ws did x = if existsb (Nat.eqb o) (mine r) then v else None) (fun r => replay_sub (e_zlib e) r nr c) nr ltac:(lia)) as (parts & Q1 & Q2 & Q3).
  { intros r Hr. unfold replay_sub. fold (mine r).
    destruct (each_all _ _ (fun i => do g <- subfile c i; replay_proc (e_zlib e) (subrank r) (subnp r nr) g) (fun i w => exists g, subfile c i = Ok g /\ replay_proc (e_zlib e) (subrank r) (subnp r nr) g = Ok w) (mine r)) as (ws & W1 & W2).
    - intros i Hi. apply Hmine in Hi. destruct Hi as [Hi1 Hi2]. destruct (HP i) as (ps & HPi). destruct (HPi Hi1) as (g & P1 & P2 & P3 & _). rewrite P1. cbn [bind].
      assert (HN : subnp r nr = nk i) by (unfold subnp, nk; rewrite Hi2; reflexivity). rewrite HN.
      assert (Hin : In (subrank r) (zseq (nk i))).
      { apply zseq_In. unfold subrank, nk. rewrite Hi2. unfold subid. split; [apply Z.div_pos; lia|]. pose proof (Z.div_mod r 2 ltac:(lia)). pose proof (Z.mod_pos_bound r 2 ltac:(lia)).
        assert (r / 2 + 1 <= (nr + 1 - r mod 2) / 2); [apply Z.div_le_lower_bound; lia|lia]. }
      assert (exists w, replay_proc (e_zlib e) (subrank r) (nk i) g = Ok w) as [w Hw].
      { apply (in_map (fun r => replay_proc (e_zlib e) r (nk i) g)) in Hin. rewrite P2 in Hin. apply in_map_iff in Hin. destruct Hin as (w & Hw & _). eauto. }
      exists w. split; [exact Hw|]. exists g. split; [first [exact P1|reflexivity]|first [exact Hw|rewrite <- HN; exact Hw]].
    - rewrite W1. cbn [bind]. eexists. split; [reflexivity|]. intros did x o v HV. apply content_concat_one.
      assert (K : forall i, In i (mine r) -> (i < length nps)%nat /\ cl i = subid r) by (intros; apply Hmine; assumption).
      clear - W2 HV K. revert K. induction W2 as [|i w is ws (g & G1 & G2) _ IH]; intros K; constructor; [|apply IH; intros; apply K; right; assumption].
      destruct (K i (or_introl eq_refl)) as [K1 K2]. exact (HV i g w K1 K2 G1 G2). }
  exists parts. split; [exact Q1|]. intros l HI did x. destruct (owner did x) as [o rko] eqn:EO.
  assert (HOG : Forall (only_group did x o) ops).
  { eapply Forall_impl; [|exact HO]. intros so K. destruct so; cbn [only_group]; auto. intros -> Hx. specialize (K x Hx). congruence. }
  rewrite (order_own _ did x o ops [] HF HOG).
  assert (HW : forall k g w r, (k < length nps)%nat -> cl k = subid r -> 0 <= r < nr -> subfile c k = Ok g -> replay_proc (e_zlib e) (subrank r) (subnp r nr) g = Ok w ->
     exists ps, (forall g', subfile c k = Ok g' -> map (fun r => replay_proc (e_zlib e) r (nk k) g') (zseq (nk k)) = map Ok ps) /\ w = nth (Z.to_nat (subrank r)) ps []).
  { intros k g w r Hk Hck Hr Hg Hw. destruct (HP k) as (ps & HPk). destruct (HPk Hk) as (g' & P1 & P2 & P3 & _). assert (g' = g) by congruence. subst g'. exists ps.
    split; [intros g' Hg'; assert (g' = g) by congruence; subst; exact P2|].
    assert (HN : subnp r nr = nk k) by (unfold subnp, nk; rewrite Hck; reflexivity). rewrite HN in Hw.
    assert (HB : 0 <= subrank r < nk k).
    { unfold subrank, nk. rewrite Hck. unfold subid. split; [apply Z.div_pos; lia|]. pose proof (Z.div_mod r 2 ltac:(lia)). pose proof (Z.mod_pos_bound r 2 ltac:(lia)).
      assert (r / 2 + 1 <= (nr + 1 - r mod 2) / 2); [apply Z.div_le_lower_bound; lia|lia]. }
    assert (HE : nth_error (map (fun r => replay_proc (e_zlib e) r (nk k) g) (zseq (nk k))) (Z.to_nat (subrank r)) = Some (Ok w)).
    { rewrite nth_error_map. unfold zseq. rewrite nth_error_map. rewrite nth_error_nth' with (d := 0%nat) by (rewrite seq_length; lia). rewrite seq_nth by lia. cbn [option_map plus].
      rewrite Z2Nat.id by lia. rewrite Hw. reflexivity. }
    rewrite P2, nth_error_map in HE. destruct (nth_error ps (Z.to_nat (subrank r))) as [w'|] eqn:EW; [|discriminate]. cbn in HE. rewrite (nth_error_nth _ _ [] EW). congruence. }
  assert (HOther : forall k g w r, (k < length nps)%nat -> k <> o -> cl k = subid r -> 0 <= r < nr -> subfile c k = Ok g -> replay_proc (e_zlib e) (subrank r) (subnp r nr) g = Ok w -> content w did x = None).
  { intros k g w r Hk Hko Hck Hr Hg Hw. destruct (HW k g w r Hk Hck Hr Hg Hw) as (ps & P & ->). destruct (HP k) as (ps' & HPk). destruct (HPk Hk) as (g' & P1 & P2 & P3 & P4).
    assert (g' = g) by congruence. subst g'. specialize (P g P1). assert (HPS : map Ok ps = map Ok ps') by congruence.
    assert (ps = ps'). { clear - HPS. revert ps' HPS. induction ps as [|a ps IH]; intros [|b ps'] H; try discriminate; [reflexivity|]. cbn in H. injection H as -> H. f_equal. auto. }
    subst ps'. destruct (P4 did x) as (r0 & R1 & R2 & R3). rewrite (order_other _ did x o k ops [] HF HOG Hko) in R2.
    destruct (Nat.eq_dec (Z.to_nat (subrank r)) r0) as [->|N]; [exact R2|exact (R3 _ N)]. }
  destruct (le_lt_dec (length nps) o) as [Ho|Ho].
  - (* nobody writes the element *)
    rewrite (order_nobody _ did x o ops [] HF Ho).
    assert (HN : forall r, content (nth r parts []) did x = None).
    { intros r. destruct (le_lt_dec (Z.to_nat nr) r) as [Hr|Hr]; [rewrite nth_overflow by lia; reflexivity|]. rewrite (Q3 r Hr did x o None); [destruct (existsb _ _); reflexivity|].
      intros k g w K1 K2 K3 K4. rewrite (HOther k g w (Z.of_nat r)); auto; try lia. destruct (k =? o)%nat; reflexivity. }
    rewrite (interleaving_content parts l 0%nat did x HI); [apply HN|intros; apply HN].
  - destruct (HP o) as (ps & HPo). destruct (HPo Ho) as (g & P1 & P2 & P3 & P4). destruct (P4 did x) as (r0 & R1 & R2 & R3). pose proof (Hcl o) as Hco.
    set (rs := 2 * Z.of_nat r0 + cl o).
    assert (Hrs : 0 <= rs < nr). { unfold rs. assert (Z.of_nat r0 + 1 <= (nr + 1 - cl o) / 2) by (unfold nk in R1; lia). pose proof (Z.mul_div_le (nr + 1 - cl o) 2 ltac:(lia)). lia. }
    assert (Hd : rs / 2 = Z.of_nat r0 /\ rs mod 2 = cl o). { split; [symmetry; apply (Z.div_unique rs 2 _ (cl o)); unfold rs; lia|symmetry; apply (Z.mod_unique rs 2 (Z.of_nat r0)); unfold rs; lia]. }
    assert (HV : forall r, 0 <= r < nr -> content (nth (Z.to_nat r) parts []) did x = if existsb (Nat.eqb o) (mine r) then content (nth (Z.to_nat (subrank r)) ps []) did x else None).
    { intros r Hr. pose proof (Q3 (Z.to_nat r) ltac:(lia)) as K. rewrite Z2Nat.id in K by lia. apply (K did x o); auto.
      intros k g' w K1 K2 K3 K4. destruct (Nat.eqb_spec k o) as [->|N]; [|apply (HOther k g' w r); auto].
      destruct (HW o g' w r K1 K2 Hr K3 K4) as (ps' & P & ->). specialize (P g P1). assert (HPS : map Ok ps' = map Ok ps) by congruence.
      assert (ps' = ps) as ->; [|reflexivity]. clear - HPS. revert ps HPS. induction ps' as [|a ps' IH]; intros [|b ps] H; try discriminate; [reflexivity|]. cbn in H. injection H as -> H. f_equal. auto. }
    assert (HX : forall r, existsb (Nat.eqb o) (mine r) = true <-> cl o = subid r).
    { intros r. rewrite existsb_exists. split.
      - intros (i & I1 & I2). apply Nat.eqb_eq in I2. subst i. apply Hmine in I1. apply I1.
      - intros K. exists o. split; [apply Hmine; auto|apply Nat.eqb_refl]. }
    rewrite (interleaving_content parts l (Z.to_nat rs) did x HI).
    + rewrite (HV rs Hrs). rewrite (proj2 (HX rs)); [|unfold subid; symmetry; apply Hd]. unfold subrank. rewrite (proj1 Hd), Nat2Z.id. exact R2.
    + intros r Hr. destruct (le_lt_dec (Z.to_nat nr) r) as [Hbig|Hsmall]; [rewrite nth_overflow by lia; reflexivity|].
      rewrite <- (Nat2Z.id r), (HV (Z.of_nat r)) by lia. destruct (existsb _ _) eqn:EX; [|reflexivity]. apply HX in EX. apply R3. unfold subrank, subid in *. intros K. apply Hr.
      pose proof (Z.div_mod (Z.of_nat r) 2 ltac:(lia)). pose proof (Z.div_pos (Z.of_nat r) 2 ltac:(lia) ltac:(lia)). unfold rs. lia.
Qed.

(** ** One replaying process: the subfiles in order *)
Lemma replay_order : forall e name cfg nps f0 ops doffs s outs c, e_coll e = true -> plain_cfg (Z.land cfg 15) ->
  Forall (writing_op (length nps)) ops -> length doffs = length nps -> all_or_none (length nps) ops ->
  (forall k np, nth_error nps k = Some np -> group_ok (Z.land cfg 15) np (own_session k np ops doffs) /\
     Forall (stays_in (trace_of true np (own_session k np ops doffs))) (own_session k np ops doffs)) ->
  sub_run e (sub_init name cfg nps f0) ops = SOk (s, outs) -> sub_close doffs s = SOk c ->
  (forall k g, subfile c k = Ok g -> Forall (fun md => Zlen md < 2 ^ 31) (g_mdsets g)) ->
  exists ws, replay_sub (e_zlib e) 0 1 c = Ok ws /\
    forall did x, content ws did x = last_assigned did x (flat_map (fun k => subfile_log k (nth k nps 0%nat) ops doffs) (seq 0 (length nps))).
Proof.
  intros e name cfg nps f0 ops doffs s outs c Hc Hp HF HD HA HG HS HC HM.
  destruct (close_returns e name cfg nps f0 ops doffs Hp HF HD HA (fun k np E => proj1 (HG k np E))) as (s' & outs' & c' & C1 & C2 & _ & C4 & C5).
  assert (s' = s) by congruence. subst s'. assert (c' = c) by congruence. subst c'. clear C1.
  assert (Hall : List.filter (fun i => Z.of_nat i mod nnode 1 =? subid 0) (seq 0 (cl_nsub c)) = seq 0 (length nps)).
  { rewrite C4. generalize (seq 0 (length nps)). induction l as [|i l IH]; [reflexivity|]. cbn [List.filter]. change (nnode 1) with 1. change (subid 0) with 0. rewrite Z.mod_1_r. cbn [Z.eqb]. rewrite <- IH at 2. reflexivity. }
  unfold replay_sub. rewrite Hall. change (subrank 0) with 0. change (subnp 0 1) with 1.
  destruct (each_all _ _ (fun i => do g <- subfile c i; replay_proc (e_zlib e) 0 1 g)
    (fun k w => forall did x, content w did x = last_assigned did x (subfile_log k (nth k nps 0%nat) ops doffs)) (seq 0 (length nps))) as (ws & W1 & W2).
  - intros k Hk. apply in_seq in Hk. destruct (nth_error_lt_some _ nps k ltac:(lia)) as [np E]. destruct (C5 k np E) as (sk & ok & R1 & R2). rewrite R2. cbn [bind].
    destruct (HG k np E) as ((G1 & G2 & G3) & G4). pose proof (HM k _ R2) as G5. cbn [set_ranks g_mdsets] in G5.
    destruct (replay_log_order e _ np f0 _ sk ok Hc Hp G1 G2 G3 R1 G4 G5) as (w & V1 & V2). exists w. split; [exact V1|]. intros did x. rewrite (nth_error_nth nps k 0%nat E). apply V2.
  - rewrite W1. cbn [bind]. eexists. split; [reflexivity|]. intros did x. clear - W2. induction W2 as [|k w l ws H _ IH]; [reflexivity|].
    cbn [concat flat_map]. rewrite content_app, last_assigned_app, IH, H. reflexivity.
Qed.
