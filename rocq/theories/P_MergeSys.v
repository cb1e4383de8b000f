(** C22 in whole histories.

    [mrun] drives a file with metadata merging on through a history of calls, [run] one without (any
    other settings); [outs] are the results of all reads.  [tame]: TameSpec.v; for settings 0 it asks for
    nothing but a legal history of reasonable sizes.  [once_each]: MergeSysSpec.v. *)
From Verif Require Import Base Spec MetaModel QueueModel FlushModel IndexModel ReadModel SysModel
  SysSpec History Examples TameSpec MergeModel MergeSysModel MergeSysSpec MergeSysClaims.

(** ** C22 Metadata merging never changes results

    Proved for histories of any number of processes with creations, resizings, writes, flushes, reads and
    reopenings in which no process writes the same dataset twice without a flush, a read or a reopening in
    between, and for merging with plain coordinates. *)
Theorem C22_histories_partial : forall e e' cfg cfg' np f0 f0' ops,
  merging cfg -> tame e 0 np ops -> tame e' cfg' np ops -> once_each [] ops ->
  exists s s' outs, mrun e (minit cfg np f0) ops = Ok (s, outs) /\ run e' (init cfg' np f0') ops = Ok (s', outs).
Proof. exact merging_same. Qed.
Print Assumptions C22_histories_partial.
Example C22_histories_applies : merging 9 /\ tame e_dflt 0 2 h_mrg /\ tame e_dflt cfg_dflt 2 h_mrg /\ once_each [] h_mrg /\ length h_mrg = 14%nat.
Proof. exact mrg_ex. Qed.

(** One dataset written twice: the results differ. *)
Theorem C22_histories_refuted : merging 9 /\ tame e_dflt 0 1 h_mtwice /\ tame e_dflt 8 1 h_mtwice /\
  exists s s' outs outs', mrun e_dflt (minit 9 1 f_zero) h_mtwice = Ok (s, outs) /\
    run e_dflt (init 8 1 f_zero) h_mtwice = Ok (s', outs') /\ outs <> outs'.
Proof. exact twice_history. Qed.
Print Assumptions C22_histories_refuted.
