(** C44: when all processes of a file make the same sequence of collective API calls, each with its
    own selections and data, no process waits forever. *)
From Verif Require Import Base CollModel CollSpec CollProofs CollClaims CollSubClaims.
From Coq Require Import Lia.

(** Without subfiling: if in addition the processes agree, for every collective read, on whether
    the selection is empty and on whether it selects anything written before, then every execution
    ends with all calls returned. *)
Theorem C44_agreeing_partial : forall cf progs, r_sub cf = false -> same_outcomes progs ->
  always_ends one (world cf one progs) /\
  forall ps, reaches one (world cf one progs) ps -> ~ hangs one ps.
Proof. exact agree_ends. Qed.
Print Assumptions C44_agreeing_partial.

(** Programs that do not read need to agree on the calls only. *)
Theorem C44_writers_partial : forall cf progs, r_sub cf = false -> Forall (Forall no_read) progs -> same_calls progs ->
  always_ends one (world cf one progs) /\
  forall ps, reaches one (world cf one progs) ps -> ~ hangs one ps.
Proof. exact writers_end. Qed.
Print Assumptions C44_writers_partial.

(** With pass-through it does not matter what the reads find. *)
Theorem C44_pass_through_partial : forall cf progs, r_sub cf = false -> r_pass cf = true -> same_emptiness progs ->
  always_ends one (world cf one progs) /\
  forall ps, reaches one (world cf one progs) ps -> ~ hangs one ps.
Proof. exact pass_ends. Qed.
Print Assumptions C44_pass_through_partial.

(** A process whose read selects nothing leaves the others waiting. *)
Theorem C44_empty_selection_refuted : forall cf progs i j n f n' f', r_coll cf = true \/ r_pass cf = false ->
  (i < length progs)%nat -> (j < length progs)%nat ->
  reads_then_flushes (nth i progs []) n f -> reads_then_flushes (nth j progs []) n' f' ->
  n = 0 -> n' <> 0 -> hangs one (world cf one progs).
Proof. exact empty_hangs. Qed.
Print Assumptions C44_empty_selection_refuted.

(** So does one that reads only what was never written, when another reads something written. *)
Theorem C44_nothing_found_refuted : forall cf progs i j n f n' f', r_coll cf = false -> r_pass cf = false ->
  (i < length progs)%nat -> (j < length progs)%nat ->
  reads_then_flushes (nth i progs []) n f -> reads_then_flushes (nth j progs []) n' f' ->
  n <> 0 -> n' <> 0 -> f <> f' -> hangs one (world cf one progs).
Proof. exact found_hangs. Qed.
Print Assumptions C44_nothing_found_refuted.

(** The same for buffered reads carried out by a flush, also when a process has none. *)
Theorem C44_buffered_refuted : forall cf progs found i j, r_pass cf = false ->
  (forall x, (x < length progs)%nat -> buffers_then_flushes (nth x progs []) (found x)) ->
  (i < length progs)%nat -> (j < length progs)%nat -> found i = true -> found j = false ->
  exists ps, reaches one (world cf one progs) ps /\ hangs one ps.
Proof. exact waiting_hangs. Qed.
Print Assumptions C44_buffered_refuted.

(** With subfiling, processes that only write and flush before closing the file get past the close
    exactly when every group has written something or none has. *)
Theorem C44_subfiling_partial : forall cf grp progs, r_sub cf = true ->
  Forall writer progs -> Forall (Forall sensible) progs -> same_calls progs ->
  (always_ends grp (world cf grp progs) <->
   (forall i, (i < length progs)%nat ->
      exists j, (j < length progs)%nat /\ grp j = grp i /\ wrote (nth j progs [])) \/
   (forall i, (i < length progs)%nat -> ~ wrote (nth i progs []))).
Proof. exact subfiling_ends_iff. Qed.
Print Assumptions C44_subfiling_partial.

(** Three processes write different amounts, flush, read what was written, and close. *)
Definition demo : list (list call) :=
  [[CWrite 2 16 60; CFlush; CRead 1 true; CClose false];
   [CFlush; CWrite 1 8 44; CWrite 0 0 0; CRead 3 true; CClose false];
   [CReadLater 0 true; CFlush; CRead 2 true; CClose false]].
Example demo_agrees : same_outcomes demo /\
  always_ends one (world (mkrconf false false true) one demo).
Proof.
  assert (H : same_outcomes demo).
  { intros p q Hp Hq. cbn in Hp, Hq.
    destruct Hp as [<-|[<-|[<-|[]]]], Hq as [<-|[<-|[<-|[]]]]; reflexivity. }
  split; [exact H|]. now apply agree_ends.
Qed.
(** A file that was reopened: the first process reads a part that was never written, the second one a
    part that was. *)
Example read_hangs :
  hangs one (world (mkrconf false false false) one
    [[CWrite 1 8 44; CRead 1 false; CFlush; CClose false]; [CRead 1 true; CFlush; CClose false]]).
Proof.
  apply (found_hangs (mkrconf false false false) _ 0%nat 1%nat 1 false 1 true); cbn; try reflexivity; try lia; try discriminate.
  - exists [CWrite 1 8 44], [CClose false]. split; [reflexivity|]. repeat constructor.
  - exists [], [CClose false]. split; [reflexivity|]. constructor.
Qed.
Example subfile_hangs :
  ~ always_ends (fun i => i) (world (mkrconf true false false) (fun i => i)
      [[CWrite 1 8 44; CFlush; CClose false]; [CWrite 0 0 0; CFlush; CClose false]]).
Proof.
  intros H. apply subfiling_ends_iff in H; [|reflexivity| | |].
  - destruct H as [H|H].
    + destruct (H 1%nat) as (j & Hj & E & (n & b & m & Hi & Hn)); [cbn; lia|]. subst j. cbn in Hi.
      destruct Hi as [Hi|[Hi|[Hi|[]]]]; congruence.
    + apply (H 0%nat); [cbn; lia|]. exists 1, 8, 44. split; [now left|lia].
  - apply Forall_cons; [|apply Forall_cons; [|apply Forall_nil]].
    + exists [CWrite 1 8 44; CFlush]. split; [reflexivity|]. repeat constructor.
    + exists [CWrite 0 0 0; CFlush]. split; [reflexivity|]. repeat constructor.
  - repeat (apply Forall_cons || apply Forall_nil); cbn; auto; lia.
  - intros p q Hp Hq. cbn in Hp, Hq. destruct Hp as [<-|[<-|[]]], Hq as [<-|[<-|[]]]; reflexivity.
Qed.
