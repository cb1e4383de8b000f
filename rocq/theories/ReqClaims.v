(** Statements about requests of asynchronous operations in the form used by P_Request. *)
From Verif Require Import Base BaseProofs ReqModel ReqSpec ReqProofs.
From Coq Require Import ZifyNat Permutation.

Lemma waits : forall n w conn ps, runs w conn ps ->
  exists l, wait_times n w (request_of conn ps) = Ok l /\ (length l <= n)%nat /\
    (forall t s, nth_error l t = Some s ->
       fair_report (map (fun p => status_at t (snd p)) ps) s /\
       (s = InProgress -> (S t < n -> S t < length l)%nat) /\
       (s <> InProgress -> S t = length l)).
Proof.
  intros n w conn ps (Hc & Hn & Hr). rewrite Forall_forall in Hr.
  destruct (wait_times_ok n w conn 0 ps) as (l & E & L & P); auto.
  - apply Forall_forall. intros p Hp. apply Hr. exact Hp.
  - apply Forall_forall. intros p Hp _. destruct (Hr p Hp) as [E _]. rewrite E.
    unfold answers_of. rewrite Nat.sub_0_r. reflexivity.
  - exists l. split; [exact E|]. split; [exact L|exact P].
Qed.

(** Waiting long enough for parts that all succeed reports success at last. *)
Lemma waits_succeed : forall n w conn ps, runs w conn ps -> (0 < n)%nat ->
  Forall (fun p => o_final (snd p) = Succeed /\ (o_delay (snd p) < n)%nat) ps ->
  exists l, wait_times n w (request_of conn ps) = Ok (l ++ [Succeed]) /\ Forall (fun s => s = InProgress) l.
Proof.
  intros n w conn ps R Hn HS. destruct (waits n w conn ps R) as (l & E & L & P). rewrite Forall_forall in HS.
  assert (A : forall t s, nth_error l t = Some s -> s = InProgress \/ s = Succeed).
  { intros t s H. destruct (P t s H) as [(_ & _ & F) _].
    destruct s; auto; (specialize (F ltac:(discriminate)); apply in_map_iff in F;
      destruct F as (p & F & Hp); unfold status_at in F; rewrite (proj1 (HS p Hp)) in F;
      destruct (_ <? _)%nat in F; discriminate). }
  destruct l as [|s0 l0] eqn:El.
  { exfalso. destruct n as [|n]; [lia|]. cbn [wait_times] in E.
    destruct (req_wait _ _) as [[[w2 s2] [r2|]]| |] in E; cbn [bind] in E; try discriminate.
    destruct (wait_times n w2 r2); discriminate. }
  rewrite <- El in *. assert (Hne : l <> []) by (subst l; discriminate). clear El.
  destruct (exists_last Hne) as (l' & s & ->). exists l'.
  assert (Hs : nth_error (l' ++ [s]) (length l') = Some s).
  { rewrite nth_error_app2, Nat.sub_diag by lia. reflexivity. }
  assert (Hl : length (l' ++ [s]) = S (length l')) by (rewrite app_length; cbn; lia).
  rewrite Hl in *.
  assert (s = Succeed).
  { destruct (A _ _ Hs) as [->|]; [|assumption]. exfalso.
    destruct (P _ _ Hs) as [(_ & F & _) [Q _]].
    assert (length l' = n - 1)%nat.
    { destruct (Nat.lt_ge_cases (S (length l')) n) as [G|G]; [|lia]. specialize (Q eq_refl G). lia. }
    assert (In InProgress (map (fun p => status_at (length l') (snd p)) ps)).
    { destruct (P _ _ Hs) as [(_ & _ & O) _]. apply O. discriminate. }
    apply in_map_iff in H0. destruct H0 as (p & G & Hp). destruct (HS p Hp) as [G1 G2].
    unfold status_at in G. rewrite G1 in G. destruct (Nat.ltb_spec (length l') (o_delay (snd p))); [lia|discriminate]. }
  subst s. split; [exact E|]. apply Forall_forall. intros s Hin. apply In_nth_error in Hin. destruct Hin as [t Ht].
  assert (Hlt : (t < length l')%nat) by (apply nth_error_Some; congruence).
  assert (Ht' : nth_error (l' ++ [Succeed]) t = Some s) by (rewrite nth_error_app1; auto).
  destruct (P _ _ Ht') as (_ & _ & Q). destruct s; auto; specialize (Q ltac:(discriminate)); lia.
Qed.

(** The requests the connector makes can not be waited on. *)
Lemma unusable : forall w u n, ~ In (-1) (u_conns w) ->
  wait_times (S n) w (simple_request u) = Err /\ wait_times (S n) w (create_request u) = Err.
Proof.
  intros w u n H.
  assert (E : existsb (Z.eqb (-1)) (u_conns w) = false).
  { destruct (existsb _ _) eqn:E; [|reflexivity]. apply existsb_exists in E. destruct E as (x & Hx & Ex).
    apply Z.eqb_eq in Ex. subst. contradiction. }
  split; unfold wait_times, req_wait, simple_request, create_request, new_request, append;
    cbn [r_conn r_parts app wait_parts p_stat p_req rstat_eqb];
    unfold under_wait at 1; rewrite E; reflexivity.
Qed.

(** The request of a dataset creation, if it knew its connector: the underlying request is waited
    on again after it has been released. *)
Lemma create_twice : forall w conn u s, In conn (u_conns w) -> u_reqs w u = Some [s] -> s <> InProgress ->
  req_wait w (mkrequest conn (r_parts (create_request u))) = UB.
Proof.
  intros w conn u s Hc Hu Hs.
  assert (E : existsb (Z.eqb conn) (u_conns w) = true).
  { apply existsb_exists. exists conn. split; [exact Hc|apply Z.eqb_refl]. }
  unfold req_wait, create_request, new_request, append.
  cbn [r_conn r_parts app wait_parts p_stat p_req rstat_eqb].
  unfold under_wait at 1. rewrite E, Hu. cbn [bind].
  destruct (rstat_eqb s InProgress) eqn:Es; [apply rstat_eqb_eq in Es; congruence|].
  unfold under_wait at 1. cbn [u_conns u_reqs]. rewrite E, Z.eqb_refl. reflexivity.
Qed.

(** A failed part ends the wait although another part is still running. *)
Lemma early_end : exists w conn ps l, runs w conn ps /\ wait_times 5 w (request_of conn ps) = Ok l /\
  exists t p, S t = length l /\ In p ps /\ status_at t (snd p) = InProgress /\ (length l < 5)%nat.
Proof.
  set (ps := [(10, mkoutcome 0 Failed); (11, mkoutcome 3 Succeed)]).
  exists (mkunder [7] (fun u => if u =? 10 then Some [Failed] else if u =? 11
            then Some [InProgress; InProgress; InProgress; Succeed] else None)), 7, ps, [Failed].
  split; [|split; [reflexivity|]].
  - unfold runs. cbn. split; [auto|]. split.
    + repeat (apply NoDup_cons || apply NoDup_nil); cbn; intuition discriminate.
    + repeat (apply Forall_cons || apply Forall_nil); cbn; split; try reflexivity; discriminate.
  - exists 0%nat, (11, mkoutcome 3 Succeed). cbn. repeat split; auto.
Qed.

Lemma cancel_last : exists answers, In CantCancel answers /\ req_cancel answers InProgress = Canceled.
Proof. exists [CantCancel; Canceled]. split; [cbn; auto|reflexivity]. Qed.

(** ** Notification *)

Lemma notified_once : forall ends sched, ends <> [] ->
  exists n, nrun (notify0 ends) sched = Ok n /\ (length (n_calls n) <= 1)%nat /\
    (Forall (fun t => t = TDone) (n_threads n) -> length (n_calls n) = 1%nat) /\
    (length (n_calls n) = 1%nat -> Forall (fun t => t = TDone) (n_threads n)).
Proof.
  intros ends sched H. destruct (nrun_inv sched _ (notify0_inv ends H)) as (n & E & (C & F & G) & L).
  exists n. split; [exact E|]. destruct (n_freed n).
  - destruct (F eq_refl) as [R K]. rewrite K. split; [lia|]. split; [auto|]. intros _.
    apply Forall_forall. intros t Ht. destruct t; auto; exfalso;
      (apply In_nth_error in Ht; destruct Ht as [i Hi];
       assert (0 < running (n_threads n)) by (eapply running_pos; [exact Hi|reflexivity]); lia).
  - destruct (G eq_refl) as [R K]. rewrite K. cbn. split; [lia|]. split; [|discriminate].
    intros A. apply running_none in A. lia.
Qed.

Lemma Forall2_map_nth : forall (ends : list rstat) order, Forall (fun i => (i < length ends)%nat) order ->
  Forall2 (fun i s => nth_error (map TTest ends) i = Some (TTest s)) order (map (fun i => nth i ends Failed) order).
Proof.
  intros ends order H. induction H as [|i l Hi _ IH]; constructor; [|exact IH].
  apply map_nth_error. apply nth_error_nth'. exact Hi.
Qed.

Lemma notified_serial : forall ends order, ends <> [] -> Permutation order (seq 0 (length ends)) ->
  exists n s, nrun (notify0 ends) (flat_map (fun i => [i; i; i]) order) = Ok n /\
    n_calls n = [s] /\ fair_report ends s.
Proof.
  intros ends order H P.
  assert (Hb : Forall (fun i => (i < length ends)%nat) order).
  { apply Forall_forall. intros i Hi. eapply Permutation_in in Hi; [|exact P]. apply in_seq in Hi. lia. }
  destruct (serial_run order (notify0 ends) (map (fun i => nth i ends Failed) order)) as (n & E & C).
  - eapply Permutation_NoDup; [apply Permutation_sym; exact P|apply seq_NoDup].
  - apply Forall2_map_nth. exact Hb.
  - reflexivity.
  - cbn [notify0 n_cnt]. unfold Zlen. apply Permutation_length in P. rewrite seq_length in P. congruence.
  - intros ->. apply Permutation_nil in P. destruct ends; [congruence|discriminate].
  - reflexivity.
  - eexists. eexists. split; [exact E|]. split; [exact C|].
    cbn [notify0 n_stat]. pose proof (fold_fair (map (fun i => nth i ends Failed) order) [] Succeed fair_nil) as F.
    cbn [app] in F. revert F. generalize (fold_left merge_stat (map (fun i => nth i ends Failed) order) Succeed).
    intros s (F1 & F2 & F3).
    assert (PE : Permutation (map (fun i => nth i ends Failed) order) ends).
    { eapply perm_trans; [apply Permutation_map; exact P|]. clear.
      replace (map (fun i => nth i ends Failed) (seq 0 (length ends))) with ends; [apply Permutation_refl|].
      symmetry. apply nth_ext with (d := Failed) (d' := Failed).
      - rewrite map_length, seq_length. reflexivity.
      - intros k Hk. rewrite map_length, seq_length in Hk.
        rewrite nth_indep with (d' := nth O ends Failed) by (rewrite map_length, seq_length; exact Hk).
        change (nth 0 ends Failed) with ((fun i => nth i ends Failed) O). rewrite map_nth, seq_nth by exact Hk.
        reflexivity. }
    repeat split.
    + intros G. eapply Permutation_in; [exact PE|]. apply F1. exact G.
    + intros G. apply F1. eapply Permutation_in; [apply Permutation_sym; exact PE|exact G].
    + intros G. rewrite Forall_forall. intros x Hx. apply F2 in G. rewrite Forall_forall in G. apply G.
      eapply Permutation_in; [apply Permutation_sym; exact PE|exact Hx].
    + intros G. apply F2. rewrite Forall_forall in *. intros x Hx. apply G.
      eapply Permutation_in; [exact PE|exact Hx].
    + intros G. eapply Permutation_in; [exact PE|]. apply F3. exact G.
Qed.

(** Two callbacks at once: the failure of one part is overwritten by the success of the other. *)
Lemma notified_race : exists ends sched n, In Failed ends /\
  nrun (notify0 ends) sched = Ok n /\ n_calls n = [Succeed].
Proof.
  exists [Succeed; Failed], [0; 1; 0; 1; 0]%nat. eexists. split; [cbn; auto|]. split; reflexivity.
Qed.

(** ** Examples *)

Definition ex_parts : list (Z * outcome) := [(10, mkoutcome 2 Succeed); (11, mkoutcome 0 Succeed)].
Definition ex_under : under :=
  mkunder [7] (fun u => if u =? 10 then Some [InProgress; InProgress; Succeed] else if u =? 11
                        then Some [Succeed] else None).

Lemma ex_runs : runs ex_under 7 ex_parts.
Proof.
  unfold runs, ex_under, ex_parts. cbn. split; [auto|]. split.
  - repeat (apply NoDup_cons || apply NoDup_nil); cbn; intuition discriminate.
  - repeat (apply Forall_cons || apply Forall_nil); cbn; split; try reflexivity; discriminate.
Qed.

Lemma ex_waits : wait_times 9 ex_under (request_of 7 ex_parts) = Ok [InProgress; InProgress; Succeed].
Proof. reflexivity. Qed.
