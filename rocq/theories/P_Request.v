(** Properties of the status of asynchronous operations.

    [wait_times n w r] waits up to [n] times for the request [r] until it is over and lists the
    statuses reported; [w] is the underlying connector, which [runs] the parts of the operation
    (ReqSpec).  [nrun (notify0 ends) sched] lets the parts of an operation end with the statuses
    [ends], their completion callbacks interleaved as [sched] says; [n_calls] are the calls of the
    user's callback. *)
From Verif Require Import Base ReqModel ReqSpec ReqClaims.
From Coq Require Import Permutation.

(** ** C47 The status reported for an asynchronous operation is that of all its parts

    Proved for a request that knows its connector and whose parts are distinct: every wait
    reports failure when a part has failed, success when all have succeeded, and otherwise the
    state of a part; waiting goes on until the status is final, and never touches a part that the
    underlying connector has released. *)
Theorem C47_wait_partial : forall n w conn ps, runs w conn ps ->
  exists l, wait_times n w (request_of conn ps) = Ok l /\ (length l <= n)%nat /\
    (forall t s, nth_error l t = Some s ->
       fair_report (map (fun p => status_at t (snd p)) ps) s /\
       (s = InProgress -> (S t < n -> S t < length l)%nat) /\
       (s <> InProgress -> S t = length l)).
Proof. exact waits. Qed.
Print Assumptions C47_wait_partial.

Theorem C47_wait_succeeds_partial : forall n w conn ps, runs w conn ps -> (0 < n)%nat ->
  Forall (fun p => o_final (snd p) = Succeed /\ (o_delay (snd p) < n)%nat) ps ->
  exists l, wait_times n w (request_of conn ps) = Ok (l ++ [Succeed]) /\ Forall (fun s => s = InProgress) l.
Proof. exact waits_succeed. Qed.
Print Assumptions C47_wait_succeeds_partial.
Example C47_wait_applies : runs ex_under 7 ex_parts /\
  wait_times 9 ex_under (request_of 7 ex_parts) = Ok [InProgress; InProgress; Succeed].
Proof. exact (conj ex_runs ex_waits). Qed.

(** The requests the connector makes do not know their connector: every wait is an error. *)
Theorem C47_unusable_refuted : forall w u n, ~ In (-1) (u_conns w) ->
  wait_times (S n) w (simple_request u) = Err /\ wait_times (S n) w (create_request u) = Err.
Proof. exact unusable. Qed.
Print Assumptions C47_unusable_refuted.
Example C47_unusable_applies : ~ In (-1) (u_conns ex_under).
Proof. cbn. intuition discriminate. Qed.

(** The parts of a dataset creation are not distinct: a request that knew its connector would use
    an underlying request after its release. *)
Theorem C47_create_refuted : forall w conn u s,
  In conn (u_conns w) -> u_reqs w u = Some [s] -> s <> InProgress ->
  req_wait w (mkrequest conn (r_parts (create_request u))) = UB.
Proof. exact create_twice. Qed.
Print Assumptions C47_create_refuted.
Example C47_create_applies : In 7 (u_conns ex_under) /\ u_reqs ex_under 11 = Some [Succeed].
Proof. cbn. auto. Qed.

(** The wait is over, and the request gone, while a part is still running. *)
Theorem C47_early_end_refuted : exists w conn ps l,
  runs w conn ps /\ wait_times 5 w (request_of conn ps) = Ok l /\
  exists t p, S t = length l /\ In p ps /\ status_at t (snd p) = InProgress /\ (length l < 5)%nat.
Proof. exact early_end. Qed.
Print Assumptions C47_early_end_refuted.

(** Cancelling reports the answer of the last part only. *)
Theorem C47_cancel_refuted : exists answers,
  In CantCancel answers /\ req_cancel answers InProgress = Canceled.
Proof. exact cancel_last. Qed.
Print Assumptions C47_cancel_refuted.

(** Whatever the interleaving of the completion callbacks of the parts, the user's callback is
    called once, after the last of them, and the shared context is not used after its release. *)
Theorem C47_notified_once : forall ends sched, ends <> [] ->
  exists n, nrun (notify0 ends) sched = Ok n /\ (length (n_calls n) <= 1)%nat /\
    (Forall (fun t => t = TDone) (n_threads n) -> length (n_calls n) = 1%nat) /\
    (length (n_calls n) = 1%nat -> Forall (fun t => t = TDone) (n_threads n)).
Proof. exact notified_once. Qed.
Print Assumptions C47_notified_once.

(** It gets a fair report when the callbacks of the parts run one at a time, in any order. *)
Theorem C47_notified_status_partial : forall ends order,
  ends <> [] -> Permutation order (seq 0 (length ends)) ->
  exists n s, nrun (notify0 ends) (flat_map (fun i => [i; i; i]) order) = Ok n /\
    n_calls n = [s] /\ fair_report ends s.
Proof. exact notified_serial. Qed.
Print Assumptions C47_notified_status_partial.
Example C47_notified_applies : [Succeed; Failed; Canceled] <> [] /\
  Permutation [1; 0; 2]%nat (seq 0 (length [Succeed; Failed; Canceled])).
Proof. split; [discriminate|apply perm_swap]. Qed.

(** When they overlap, the user can be told of success although a part failed. *)
Theorem C47_notified_race_refuted : exists ends sched n, In Failed ends /\
  nrun (notify0 ends) sched = Ok n /\ n_calls n = [Succeed].
Proof. exact notified_race. Qed.
Print Assumptions C47_notified_race_refuted.
