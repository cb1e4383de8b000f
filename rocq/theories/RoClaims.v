(** Lemmas behind P_Ro. *)
From Verif Require Import Base BaseProofs Spec MetaModel QueueModel FlushModel IndexModel ReadModel SysModel
  SysSpec AnySpec AnyProofs CrashModel FaultModel RealModel RealSpec RealClaims RoModel RoSpec.
From Coq Require Import ZifyNat ZifyN.

(** What a call tries first. *)
Lemma starts_flush : forall doff g, flush_effects doff g = [] \/ exists x xs, flush_effects doff g = x :: xs /\ through_library x = true.
Proof. intros doff g. unfold flush_effects. destruct (_ =? 0); auto. right. eexists. eexists. split; [reflexivity|]. reflexivity. Qed.
Lemma starts_meta : forall g, meta_effects g = [] \/ exists x xs, meta_effects g = x :: xs /\ through_library x = true.
Proof. intros g. unfold meta_effects. destruct (_ <? _); auto. right. eexists. eexists. split; [reflexivity|]. reflexivity. Qed.
Lemma starts : forall e s o, effects e s o = [] \/ exists x xs, effects e s o = x :: xs /\ through_library x = true.
Proof.
  intros e s o. destruct o; cbn [effects]; auto.
  - right. eexists. eexists. split; [reflexivity|]. reflexivity.
  - destruct (info_at _ _) as [[d|]|]; auto. right. eexists. eexists. split; [reflexivity|]. reflexivity.
  - destruct (any_pending _); auto. apply starts_flush.
  - destruct (e_coll e && any_pending (s_g s)).
    + destruct (starts_flush doff (s_g s)) as [->|(x & xs & -> & T)]; [|right; cbn; eauto]. cbn [app]. destruct (g_metadirty _); auto. apply starts_meta.
    + cbn [app]. destruct (g_metadirty _); auto. apply starts_meta.
  - destruct (starts_flush doff (s_g s)) as [->|(x & xs & -> & T)]; [|right; cbn; eauto]. cbn [app].
    destruct (starts_meta (flush_writes doff (s_g s))) as [->|(x & xs & -> & T)]; [|right; cbn; eauto]. cbn [app]. right. eexists. eexists. split; [reflexivity|]. reflexivity.
Qed.
Lemma attempt_lib : forall e s o dk, attempt through_library 0 dk (effects e s o) = (dk, match effects e s o with [] => None | _ => Some 0%nat end).
Proof. intros e s o dk. destruct (starts e s o) as [->|(x & xs & -> & T)]; cbn [attempt]; auto. rewrite T. reflexivity. Qed.

Lemma ro_step_disk : forall e s dk o s' dk' out, ro_step e (s, dk) o = Ok ((s', dk'), out) -> dk' = dk.
Proof.
  intros e s dk o s' dk' out H. unfold ro_step in H. cbn [fst snd] in H. destruct o as [d|did dims|rk did sels data|doff|doff calls|doff np];
  try (destruct (refused _ _); [injection H as <- <- <-; reflexivity|]; rewrite attempt_lib in H; destruct (effects _ _ _);
       [destruct (step _ _ _) as [[? ?]| |]; cbn [bind fst snd] in H; try discriminate|]; injection H as <- <- <-; reflexivity).
  cbn [ro_close Z.eqb fst] in H. destruct (recover np dk); cbn [bind] in H; try discriminate. injection H as <- <- <-. reflexivity.
Qed.
Lemma ro_disk : forall e ops s dk s' dk' outs, ro_run e (s, dk) ops = Ok ((s', dk'), outs) -> dk' = dk.
Proof.
  intros e. induction ops as [|o ops IH]; intros s dk s' dk' outs H; [injection H as <- <- <-; reflexivity|]. cbn [ro_run] in H.
  destruct (ro_step e (s, dk) o) as [[[s1 dk1] o1]| |] eqn:E; cbn [bind fst snd] in H; try discriminate. apply ro_step_disk in E. subst.
  destruct (ro_run e (s1, dk) ops) as [[[s2 dk2] o2]| |] eqn:R; cbn [bind fst snd] in H; try discriminate. injection H as <- <- <-. eapply IH; eauto.
Qed.
Lemma ro_run_app : forall e xs c ys, ro_run e c (xs ++ ys) =
  (do p <- ro_run e c xs; do q <- ro_run e (fst p) ys; Ok (fst q, snd p ++ snd q)).
Proof.
  intros e. induction xs as [|x xs IH]; intros c ys; cbn [app ro_run bind fst snd].
  - destruct (ro_run e c ys) as [[? ?]| |]; reflexivity.
  - destruct (ro_step e c x) as [[c1 o1]| |]; cbn [bind fst snd]; auto. rewrite IH. destruct (ro_run e c1 xs) as [[c2 o2]| |]; cbn [bind fst snd]; auto.
    destruct (ro_run e c2 ys) as [[? ?]| |]; reflexivity.
Qed.

(** A session leaves nothing behind. *)
Lemma ro_forgets : forall e s dk ops doff np rest r outs, ro_run e (s, dk) (ops ++ OReopen doff np :: rest) = Ok (r, outs) ->
  exists s0 outs1 outs2, recover np dk = Ok s0 /\ outs = outs1 ++ Some [] :: outs2 /\ length outs1 = length ops /\ ro_run e (s0, dk) rest = Ok (r, outs2).
Proof.
  intros e s dk ops doff np rest r outs H. rewrite ro_run_app in H. destruct (ro_run e (s, dk) ops) as [[[s1 dk1] o1]| |] eqn:R; cbn [bind fst snd] in H; try discriminate.
  pose proof (ro_disk _ _ _ _ _ _ _ R). subst dk1. cbn [ro_run] in H. unfold ro_step in H at 1. cbn [fst snd ro_close Z.eqb] in H.
  destruct (recover np dk) as [s0| |]; cbn [bind fst snd] in H; try discriminate. destruct (ro_run e (s0, dk) rest) as [[r2 o2]| |] eqn:R2; cbn [bind fst snd] in H; try discriminate.
  injection H as <- <-. exists s0, o1, o2. split; auto. split; auto. split; auto.
  clear - R. revert s s1 o1 R. induction ops as [|o ops IH]; intros s s1 o1 R; [injection R as <- <-; reflexivity|]. cbn [ro_run] in R.
  destruct (ro_step e (s, dk) o) as [[[s2 dk2] o2]| |] eqn:E; cbn [bind fst snd] in R; try discriminate. apply ro_step_disk in E. subst.
  destruct (ro_run e (s2, dk) ops) as [[[s3 dk3] o3]| |] eqn:R'; cbn [bind fst snd] in R; try discriminate. injection R as <- <- <-. cbn. f_equal. eapply IH.
  pose proof (ro_disk _ _ _ _ _ _ _ R'). subst. eassumption.
Qed.
(** Every write is accepted as in a file opened for writing. *)
Lemma ro_write : forall e s dk rk did sels data, ro_step e (s, dk) (OWrite rk did sels data) =
  (do p <- step_real e s (OWrite rk did sels data); Ok ((fst p, dk), Some (snd p))).
Proof. reflexivity. Qed.

(** Reading. *)
Definition quiet (s : sys) : Prop := g_metadirty (s_g s) = false /\ any_pending (s_g s) = false.
Lemma recover_quiet : forall np dk s, recover np dk = Ok s -> quiet s.
Proof.
  intros np dk s H. unfold recover in H. destruct (open_anchors _ _ _); cbn [bind] in H; try discriminate. destruct (open_mds _ _); cbn [bind] in H; try discriminate. injection H as <-.
  split; auto. unfold any_pending. cbn. apply repeat_none.
Qed.
Lemma quiet_ask : forall e s o, quiet s -> only_asks o -> effects e s o = [] /\ forall s' out, step e s o = Ok (s', out) -> quiet s'.
Proof.
  intros e s o (D & P) A. destruct o; try contradiction; cbn [effects step]; rewrite P, ?andb_false_r, ?D.
  - split; auto. intros s' out H. injection H as <- <-. split; auto.
  - split; auto. intros s' out H. destruct (read_each _ _ _ _); cbn [bind] in H; try discriminate. injection H as <- <-. split; auto.
Qed.
Lemma ro_asks : forall e ops s dk, quiet s -> Forall only_asks ops ->
  ro_run e (s, dk) ops = (do p <- run_real e s ops; Ok ((fst p, dk), map Some (snd p))).
Proof.
  intros e. induction ops as [|o ops IH]; intros s dk Q F; auto. inversion F; subst. cbn [ro_run run_real].
  assert (E : ro_step e (s, dk) o = (do p <- step_real e s o; Ok ((fst p, dk), Some (snd p)))).
  { unfold ro_step. cbn [fst snd]. destruct o; try contradiction; cbn [refused]; rewrite attempt_lib; rewrite (proj1 (quiet_ask _ _ _ Q H1)); reflexivity. }
  rewrite E. unfold step_real. destruct (step _ s o) as [[s1 o1]| |] eqn:St; cbn [bind fst snd]; auto. rewrite IH; auto; [|eapply quiet_ask; eauto].
  destruct (run_real e s1 ops) as [[? ?]| |]; reflexivity.
Qed.
Lemma ro_reads : forall e np dk s ops, recover np dk = Ok s -> Forall only_asks ops ->
  observed (ro_run e (s, dk) ops) = match observed (run_real e s ops) with Ok outs => Ok (map Some outs) | Err => Err | UB => UB end.
Proof. intros e np dk s ops R F. rewrite ro_asks; eauto using recover_quiet. destruct (run_real e s ops) as [[? ?]| |]; reflexivity. Qed.

(** ** After a write *)
(** Queues in a session for reading only: nothing flushed, entries as in [tidy]. *)
Definition waits (s : sys) : Prop := g_metadirty (s_g s) = false /\ Forall (tidy false) (g_ranks (s_g s)).
Lemma recover_waits : forall np dk s, recover np dk = Ok s -> waits s.
Proof.
  intros np dk s H. unfold recover in H. destruct (open_anchors _ _ _); cbn [bind] in H; try discriminate. destruct (open_mds _ _); cbn [bind] in H; try discriminate. injection H as <-.
  split; auto. cbn. apply Forall_forall. intros x I. apply repeat_spec in I. subst. unfold tidy, rank0. cbn. repeat split; auto.
Qed.
Lemma assign_len : forall ws o, length (assign_foff o ws) = length ws.
Proof. induction ws as [|w ws IH]; intros o; cbn; auto. Qed.
Lemma assign_pending : forall l, existsb (fun st => negb (num_pending st =? 0)%nat) (map rank_assign l) = existsb (fun st => negb (num_pending st =? 0)%nat) l.
Proof.
  induction l as [|a l IH]; cbn [map existsb]; auto. rewrite IH. f_equal. f_equal. unfold num_pending, rank_assign, flushed, unflushed. cbn [k_wreqs k_nflushed].
  rewrite app_length, assign_len, <- app_length, firstn_skipn. reflexivity.
Qed.
Lemma flush_tries : forall doff g, Forall (tidy (g_metadirty g)) (g_ranks g) -> any_pending g = true -> flush_effects doff g <> [].
Proof.
  intros doff g T P. unfold flush_effects. destruct (sizes_zero _ _ T) as (_ & Z0). destruct (_ =? 0) eqn:E; [|discriminate].
  apply Z.eqb_eq in E. apply Z0 in E. unfold any_pending in P. congruence.
Qed.
Lemma write_step_waits : forall e s rk did sels data s' out, waits s -> (sels <> [] -> data <> []) -> step_real e s (OWrite rk did sels data) = Ok (s', out) -> waits s'.
Proof.
  intros e s rk did sels data s' out (D & T) W H. unfold step_real in H. cbn [step] in H. destruct (nth_error _ rk) as [st|] eqn:N; try discriminate.
  destruct (ds_write _ _ _ _ _ _ _) as [st'| |] eqn:Wr; cbn [bind] in H; try discriminate. injection H as <- <-. split; auto. cbn [s_g set_ranks g_ranks]. apply Forall_upd_nth; auto.
  eapply ds_write_tidy; [exact W|exact Wr|]. rewrite Forall_forall in T. apply T. eapply nth_error_In; eauto.
Qed.
Lemma write_step_pending : forall e s rk did sels data s' out, waits s -> step_real e s (OWrite rk did sels data) = Ok (s', out) ->
  any_pending (s_g s) = true \/ sels <> [] -> any_pending (s_g s') = true.
Proof.
  intros e s rk did sels data s' out (D & T) H P. unfold step_real in H. cbn [step] in H. destruct (nth_error (g_ranks (s_g s)) rk) as [st|] eqn:N; try discriminate.
  destruct (ds_write _ _ _ _ _ _ _) as [st'| |] eqn:Wr; cbn [bind] in H; try discriminate. injection H as <- <-. unfold any_pending in *. cbn [s_g set_ranks g_ranks] in *.
  destruct sels as [|b sels]; [cbn in Wr; injection Wr as <-; rewrite upd_same by exact N; destruct P; congruence|].
  assert (Pn : (num_pending st' =? 0)%nat = false).
  { apply Nat.eqb_neq. unfold ds_write in Wr. destruct (nth_error (g_infos (s_g s)) (Z.to_nat did)) as [[d|]|]; try discriminate. destruct (finish_meta _ _ _ _) as [[[r tbl] zb]| |]; cbn [bind] in Wr; try discriminate. injection Wr as <-.
    unfold num_pending. cbn [k_wreqs k_nflushed]. rewrite app_length. cbn [length]. rewrite Forall_forall in T. destruct (T st (nth_error_In _ _ N)) as (L & _). lia. }
  clear - N Pn. revert rk N. induction (g_ranks (s_g s)) as [|x l IH]; intros [|rk] N; cbn in *; try discriminate; [rewrite Pn; reflexivity|]. rewrite (IH _ N), orb_true_r. reflexivity.
Qed.
Lemma stopped_flush_waits : forall dk s, waits s -> waits (mksys (stopped_flush dk (s_g s)) (s_idx s)).
Proof. intros dk s (D & T). split; auto. cbn. clear - T. induction T; cbn; constructor; auto using tidy_assign. Qed.

Lemma ro_step_waits : forall e s dk o s' dk' out, waits s -> with_data o -> stays_open o -> ro_step e (s, dk) o = Ok ((s', dk'), out) ->
  waits s' /\ length (g_ranks (s_g s')) = length (g_ranks (s_g s)) /\ (any_pending (s_g s) = true -> any_pending (s_g s') = true).
Proof.
  intros e s dk o s' dk' out W Wd St H. destruct o as [d|did dims|rk did sels data|doff|doff calls|doff np]; try contradiction.
  - unfold ro_step in H. cbn [fst snd refused effects] in H. cbn [attempt through_library] in H. injection H as <- <- <-. auto.
  - unfold ro_step in H. cbn [fst snd] in H. destruct (refused _ _).
    + injection H as <- <- <-. cbn [stopped]. destruct (info_at _ _) as [[d|]|]; auto. 
    + rewrite attempt_lib in H. cbn [effects] in H. destruct (info_at (g_infos (s_g s)) did) as [[d|]|] eqn:I; [|cbn [step] in H; rewrite I in H; discriminate..].
      injection H as <- <- <-. cbn [stopped]. rewrite I. auto.
  - rewrite ro_write in H. destruct (step_real e s _) as [[s1 o1]| |] eqn:E; cbn [bind fst snd] in H; try discriminate. injection H as <- <- <-. split; [eapply write_step_waits; eauto|]. split.
    + unfold step_real in E. apply step_procs in E. exact E.
    + intros P. eapply write_step_pending; eauto.
  - unfold ro_step in H. cbn [fst snd refused] in H. rewrite attempt_lib in H. cbn [effects] in H. destruct (any_pending (s_g s)) eqn:P.
    + pose proof W as (D & T). rewrite <- D in T. destruct (flush_effects doff (s_g s)) eqn:F; [exfalso; eapply flush_tries; eauto|]. injection H as <- <- <-. cbn [stopped]. split; [apply stopped_flush_waits; auto|]. split; [cbn; apply map_length|].
      intros _. unfold any_pending in *. cbn. rewrite assign_pending. exact P.
    + cbn [step bind fst snd] in H. rewrite P in H. injection H as <- <- <-. rewrite <- P. destruct s; cbn; auto.
  - unfold ro_step in H. cbn [fst snd refused] in H. rewrite attempt_lib in H. cbn [effects] in H. pose proof W as (D & T). destruct (e_coll _ && any_pending (s_g s)) eqn:C.
    + apply andb_prop in C as C'. destruct C' as (C1 & P). rewrite <- D in T. pose proof (flush_tries doff (s_g s) T P) as N. destruct (flush_effects doff (s_g s)) eqn:F; [congruence|]. cbn [app] in H. injection H as <- <- <-.
      cbn [with_coll e_coll] in C. cbn [stopped].
      rewrite C, F. cbn [length Nat.ltb Nat.leb]. split; [apply stopped_flush_waits; auto|]. split; [cbn; apply map_length|]. intros _. unfold any_pending in *. cbn. rewrite assign_pending. exact P.
    + rewrite D in H. cbn [app] in H. cbn [step] in H. rewrite C, D in H. destruct (read_each _ _ _ _) as [[x y]| |]; cbn [bind fst snd] in H; try discriminate. injection H as <- <- <-. auto.
Qed.
Lemma ro_run_waits : forall e ops s dk s' dk' outs, waits s -> Forall with_data ops -> Forall stays_open ops -> ro_run e (s, dk) ops = Ok ((s', dk'), outs) ->
  waits s' /\ length (g_ranks (s_g s')) = length (g_ranks (s_g s)) /\ (any_pending (s_g s) = true -> any_pending (s_g s') = true).
Proof.
  intros e. induction ops as [|o ops IH]; intros s dk s' dk' outs W Wd St H; [injection H as <- <- <-; auto|]. inversion Wd; inversion St; subst. cbn [ro_run] in H.
  destruct (ro_step e (s, dk) o) as [[[s1 dk1] o1]| |] eqn:E; cbn [bind fst snd] in H; try discriminate. destruct (ro_run e (s1, dk1) ops) as [[[s2 dk2] o2]| |] eqn:R; cbn [bind fst snd] in H; try discriminate. injection H as <- <- <-.
  destruct (ro_step_waits _ _ _ _ _ _ _ W H2 H6 E) as (W1 & L1 & P1). destruct (IH _ _ _ _ _ W1 H3 H7 R) as (W2 & L2 & P2). split; auto. split; auto. congruence.
Qed.
Lemma ro_blocked : forall e np dk s pre rk did b sels data mid o r outs, recover np dk = Ok s ->
  Forall stays_open pre -> Forall stays_open mid -> Forall with_data pre -> Forall with_data mid -> data <> [] ->
  (match o with OFlush _ => True | ORead _ _ => np = 1%nat | _ => False end) ->
  ro_run e (s, dk) (pre ++ OWrite rk did (b :: sels) data :: mid ++ [o]) = Ok (r, outs) -> last outs (Some []) = None.
Proof.
  intros e np dk s pre rk did b sels data mid o r outs Rc S1 S2 W1 W2 Dn Q H. pose proof (recover_waits _ _ _ Rc) as Wt.
  assert (Np : length (g_ranks (s_g s)) = np). { unfold recover in Rc. destruct (open_anchors _ _ _); cbn [bind] in Rc; try discriminate. destruct (open_mds _ _); cbn [bind] in Rc; try discriminate. injection Rc as <-. cbn. apply repeat_length. }
  rewrite ro_run_app in H. destruct (ro_run e (s, dk) pre) as [[[s1 dk1] o1]| |] eqn:R1; cbn [bind fst snd] in H; try discriminate. destruct (ro_run_waits _ _ _ _ _ _ _ Wt W1 S1 R1) as (Wt1 & L1 & _).
  cbn [ro_run] in H. rewrite ro_write in H. destruct (step_real e s1 _) as [[s2 o2]| |] eqn:E2; cbn [bind fst snd] in H; try discriminate.
  assert (Wt2 : waits s2) by (eapply write_step_waits; eauto). assert (P2 : any_pending (s_g s2) = true) by (refine (write_step_pending _ _ _ _ _ _ _ _ Wt1 E2 _); right; discriminate).
  assert (L2 : length (g_ranks (s_g s2)) = length (g_ranks (s_g s1))) by (unfold step_real in E2; apply step_procs in E2; exact E2).
  rewrite ro_run_app in H. destruct (ro_run e (s2, dk1) mid) as [[[s3 dk3] o3]| |] eqn:R3; cbn [bind fst snd] in H; try discriminate.
  destruct (ro_run_waits _ _ _ _ _ _ _ Wt2 W2 S2 R3) as (Wt3 & L3 & P3). specialize (P3 P2). cbn [ro_run] in H.
  assert (E : exists s4, ro_step e (s3, dk3) o = Ok (s4, None)).
  { destruct Wt3 as (D & T). rewrite <- D in T. destruct o as [| | |doff|doff calls|]; try contradiction; pose proof (flush_tries doff (s_g s3) T P3) as N; unfold ro_step; cbn [fst snd refused]; rewrite attempt_lib; cbn [effects].
    - rewrite P3. destruct (flush_effects doff (s_g s3)); [congruence|]. eexists. reflexivity.
    - assert (K : (length (g_ranks (s_g s3)) =? 1)%nat = true) by (apply Nat.eqb_eq; congruence). rewrite K. cbn [with_coll e_coll]. rewrite P3. cbn [andb]. destruct (flush_effects doff (s_g s3)); [congruence|]. eexists. reflexivity. }
  destruct E as (s4 & E). rewrite E in H. cbn [bind fst snd] in H. injection H as <- <-. rewrite app_comm_cons, app_assoc. apply last_last.
Qed.

(** ** Several processes: reads do not see the writes *)
Definition beside (s t : sys) (dk : disk) : Prop :=
  same_file s t /\ waits s /\ waits t /\ length (g_ranks (s_g s)) <> 1%nat /\ g_file (s_g s) = dk_file dk.
Lemma combine_filter_nil : forall A (l : list A), filter (fun p : op * A => reads (fst p)) (combine [] l) = [].
Proof. reflexivity. Qed.
Lemma other_step : forall e s t dk o s' dk' out, beside s t dk -> with_data o -> stays_open o -> writes o = false -> ro_step e (s, dk) o = Ok ((s', dk'), out) ->
  exists t' out', ro_step e (t, dk) o = Ok ((t', dk), out') /\ dk' = dk /\ beside s' t' dk /\ (reads o = true -> out = out').
Proof.
  intros e s t dk o s' dk' out (Sf & Ws & Wt & N & Fl) Wd St Nw H. pose proof Sf as (S0 & S1 & S2 & S3 & S4 & S5 & S6).
  assert (Ed : dk' = dk) by (eapply ro_step_disk; eauto). subst dk'.
  assert (Nt : length (g_ranks (s_g t)) <> 1%nat) by congruence. apply Nat.eqb_neq in N as N1. apply Nat.eqb_neq in Nt as N2.
  assert (R : exists t' out', ro_step e (t, dk) o = Ok ((t', dk), out') /\ same_file s' t' /\ g_file (s_g s') = dk_file dk /\ (reads o = true -> out = out')).
  { destruct o as [d|did dims|rk did sels data|doff|doff calls|doff np]; try contradiction; try discriminate.
    - unfold ro_step in *. cbn [fst snd refused effects] in *. cbn [attempt through_library] in *. injection H as <- <-. eexists. eexists. split; [reflexivity|]. auto.
    - unfold ro_step in *. cbn [fst snd refused effects] in *. rewrite <- S1, <- S2. destruct (info_at (g_infos (s_g s)) did) as [[d|]|] eqn:I.
      + destruct (negb _).
        * injection H as <- <-. eexists. eexists. split; [reflexivity|]. cbn [stopped]. rewrite <- S2, I. cbn [reads]. split; [unfold same_file; cbn; auto 8|]. auto.
        * cbn [attempt through_library] in *. injection H as <- <-. eexists. eexists. split; [reflexivity|]. cbn [stopped]. rewrite <- S2, I. split; [unfold same_file; cbn; auto 8|]. auto.
      + cbn [attempt step] in H. rewrite I in H. discriminate.
      + cbn [attempt step] in H. rewrite I in H. discriminate.
    - unfold ro_step in *. cbn [fst snd refused] in *. rewrite !attempt_lib in *. cbn [effects] in *.
      assert (Ht : exists t' out', match (dk, match (if any_pending (s_g t) then flush_effects doff (s_g t) else []) with [] => None | _ => Some 0%nat end) with
        | (dk', Some k) => Ok ((stopped (with_coll e (length (g_ranks (s_g t)) =? 1)%nat) t (OFlush doff) k dk', dk'), None)
        | (dk', None) => do p <- step (with_coll e (length (g_ranks (s_g t)) =? 1)%nat) t (OFlush doff); Ok ((fst p, dk'), Some (snd p)) end = Ok ((t', dk), out') /\ same_file t t').
      { destruct (any_pending (s_g t)) eqn:P.
        - destruct Wt as (D & T). rewrite <- D in T. pose proof (flush_tries doff (s_g t) T P) as Ne. destruct (flush_effects doff (s_g t)); [congruence|]. eexists. eexists. split; [reflexivity|]. unfold same_file. cbn. rewrite map_length, <- S3. auto 8.
        - cbn [step]. rewrite P. cbn [bind fst snd]. eexists. eexists. split; [reflexivity|]. unfold same_file. cbn. auto 8. }
      destruct Ht as (t' & out' & Ht & Sft). exists t', out'. split; [exact Ht|].
      assert (Hs : same_file s s').
      { destruct (any_pending (s_g s)) eqn:P.
        - destruct Ws as (D & T). rewrite <- D in T. pose proof (flush_tries doff (s_g s) T P) as Ne. destruct (flush_effects doff (s_g s)); [congruence|]. injection H as <- <-. unfold same_file. cbn. rewrite map_length. auto 8.
        - cbn [step] in H. rewrite P in H. cbn [bind fst snd] in H. injection H as <- <-. unfold same_file. cbn. auto 8. }
      clear - Sft Hs Sf Fl. unfold same_file in *. repeat match goal with H : _ /\ _ |- _ => destruct H end. repeat split; try congruence; try discriminate.
    - unfold ro_step in *. cbn [fst snd refused] in *. rewrite !attempt_lib in *. rewrite N1 in H. rewrite N2. cbn [effects with_coll e_coll andb] in *. destruct Ws as (Ds & _). destruct Wt as (Dt & _). rewrite Ds in H. rewrite Dt. cbn [app step with_coll e_coll andb] in *. rewrite Ds in H. rewrite Dt.
      change (mkenv (e_zlib e) (e_kind e) (e_limit e) (e_sort e) false) with (with_coll e false) in *. rewrite <- S0. rewrite <- (read_each_same _ _ _ _ _ Sf).
      destruct (read_each _ _ _ _) as [[x y]| |]; cbn [bind fst snd] in *; try discriminate. injection H as <- <-. eexists. eexists. split; [reflexivity|]. split; [|auto]. unfold same_file. cbn. auto 8. }
  destruct R as (t' & out' & E & Sf' & Fl' & Q). exists t', out'. split; auto. split; auto. split; auto.
  destruct (ro_step_waits _ _ _ _ _ _ _ Ws Wd St H) as (A1 & A2 & _). destruct (ro_step_waits _ _ _ _ _ _ _ Wt Wd St E) as (B1 & B2 & _). unfold beside. split; auto. split; auto. split; auto. split; auto. congruence.
Qed.
Lemma ro_beside : forall e ops s t dk s' dk' outs, beside s t dk -> Forall with_data ops -> Forall stays_open ops -> ro_run e (s, dk) ops = Ok ((s', dk'), outs) ->
  exists t' outs', ro_run e (t, dk) (filter (fun o => negb (writes o)) ops) = Ok ((t', dk), outs') /\
    read_results ops outs = read_results (filter (fun o => negb (writes o)) ops) outs'.
Proof.
  intros e. induction ops as [|o ops IH]; intros s t dk s' dk' outs Bs Wd St H; [injection H as <- <- <-; exists t, []; auto|]. inversion Wd; inversion St; subst. cbn [ro_run] in H.
  destruct (ro_step e (s, dk) o) as [[[s1 dk1] o1]| |] eqn:E; cbn [bind fst snd] in H; try discriminate. destruct (ro_run e (s1, dk1) ops) as [[[s2 dk2] o2]| |] eqn:R; cbn [bind fst snd] in H; try discriminate. injection H as <- <- <-.
  cbn [filter]. destruct (writes o) eqn:Wo; cbn [negb].
  - assert (Ed : dk1 = dk) by (eapply ro_step_disk; eauto). subst dk1. destruct o; try discriminate.
    assert (B1 : beside s1 t dk).
    { destruct Bs as (Sf & Ws & Wt & N & Fl). destruct (ro_step_waits _ _ _ _ _ _ _ Ws H2 H6 E) as (A1 & A2 & _). rewrite ro_write in E. destruct (step_real e s _) as [[s3 o3]| |] eqn:E'; cbn [bind fst snd] in E; try discriminate. injection E as <- <-.
      assert (Sf' : same_file s s3). { apply (writes_same_file e [OWrite rk did sels data] s s3 [o3]); [repeat constructor|]. cbn [run_real]. rewrite E'. reflexivity. }
      unfold beside. split; [|split; [auto|split; [auto|split; [congruence|]]]]; clear - Sf Sf' Fl; unfold same_file in *; repeat match goal with H : _ /\ _ |- _ => destruct H end; repeat split; congruence. }
    destruct (IH _ _ _ _ _ _ B1 H3 H7 R) as (t' & outs' & Rt & Q). exists t', outs'. split; auto.
  - destruct (other_step _ _ _ _ _ _ _ _ Bs H2 H6 Wo E) as (t1 & out' & Et & -> & B1 & Q). destruct (IH _ _ _ _ _ _ B1 H3 H7 R) as (t' & outs' & Rt & Qr). exists t', (out' :: outs'). cbn [ro_run]. rewrite Et. cbn [bind fst snd]. rewrite Rt. cbn [bind fst snd]. split; auto.
    unfold read_results in *. cbn [combine filter fst]. destruct (reads o); cbn [map snd]; [rewrite Q by reflexivity; f_equal|]; exact Qr.
Qed.
Lemma ro_unseen : forall e np dk s ops r outs, recover np dk = Ok s -> np <> 1%nat -> Forall with_data ops -> Forall stays_open ops ->
  ro_run e (s, dk) ops = Ok (r, outs) ->
  exists r' outs', ro_run e (s, dk) (filter (fun o => negb (writes o)) ops) = Ok (r', outs') /\
    read_results ops outs = read_results (filter (fun o => negb (writes o)) ops) outs'.
Proof.
  intros e np dk s ops [s' dk'] outs Rc N Wd St H. pose proof (recover_waits _ _ _ Rc) as W.
  assert (Np : length (g_ranks (s_g s)) = np /\ g_file (s_g s) = dk_file dk). { unfold recover in Rc. destruct (open_anchors _ _ _); cbn [bind] in Rc; try discriminate. destruct (open_mds _ _); cbn [bind] in Rc; try discriminate. injection Rc as <-. cbn. split; auto. apply repeat_length. }
  assert (Bs : beside s s dk). { unfold beside, same_file. repeat split; auto; try apply W; try congruence; destruct Np; congruence. }
  destruct (ro_beside _ _ _ _ _ _ _ _ Bs Wd St H) as (t' & outs' & R & Q). eauto.
Qed.

(** H5F_ACC_RDONLY | H5F_ACC_SWMR_READ is not H5F_ACC_RDONLY. *)
Lemma swmr_close : forall e flag s dk doff, flag <> 0 -> ro_close e flag s dk doff = (dk, Some 0%nat).
Proof.
  intros e flag s dk doff N. unfold ro_close. apply Z.eqb_neq in N. rewrite N, attempt_lib. destruct (effects e s (OReopen doff 0)) eqn:E; auto. exfalso.
  cbn [effects] in E. apply app_eq_nil in E. destruct E as (_ & E). apply app_eq_nil in E. destruct E as (_ & E). discriminate.
Qed.
