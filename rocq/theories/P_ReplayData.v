(** Properties of the data part of the h5lreplay utility (C59).

    [replay_proc z r nr g] (ReplayDataModel.v) is the sequence of H5Dwrites that process [r] of [nr] issues
    on the new file for the log file [g].  The processes run independently: what is stored is some
    [interleaving] of their sequences, and [content] is the value of an element after it (ReplayDataSpec.v). *)
From Verif Require Import Base Spec MetaModel QueueModel FlushModel IndexModel ReadModel SysModel
  SysSpec History SysCheck Examples DefSpec DumpSpec ReplayDataModel ReplayDataSpec ReplayDataClaims.

(** ** C59 Replaying a log file gives a file with the same contents *)
(** Every legal history that ends by closing the file, in every index and buffer setting, in which each
    element is written by one process only, no dataset was shrunk below what was written and the data of
    a write is smaller than 2 GiB: replaying by one process, or by at most as many processes as wrote
    the file, gives every element the value last written to it, however the processes are scheduled;
    elements never written are never stored.  Selections stored as coordinates and not shared, or a
    history that avoids the defects of encoding and sharing ([array_history], DefSpec.v).
    Missing: elements written by several processes (refuted below), filters, merging, subfiles. *)
Theorem C59_replay_owned_partial : forall e cfg np f0 ops0 doff np' s outs nr, let ops := ops0 ++ [OReopen doff np'] in
  e_coll e = true -> plain_cfg cfg ->
  legal_history true np ops -> sized_history true np ops ->
  ((has cfg CFG_SEL_ENCODE = false /\ has cfg CFG_METADATA_SHARE = false) \/ array_history np ops) ->
  run e (init cfg np f0) ops = Ok (s, outs) ->
  Forall (stays_in (trace_of true np ops)) ops -> Forall (fun md => Zlen md < 2 ^ 31) (g_mdsets (s_g s)) ->
  owned ops -> (nr = 1 \/ 0 < nr <= Z.of_nat np /\ Forall (same_np np) ops) ->
  exists parts, map (fun r => replay_proc (e_zlib e) r nr (s_g s)) (zseq nr) = map Ok parts /\
    forall l, interleaving parts l -> forall did x, content l did x = last_assigned did x (program_order [] ops).
Proof. exact replay_owned. Qed.
Print Assumptions C59_replay_owned_partial.
(** Default settings, two processes, shared two-block selections, overwriting, an extended dataset,
    closed twice, replayed by two processes. *)
Example C59_owned_applies : legal_history true 2 h_own /\ sized_history true 2 h_own /\ array_history 2 h_own /\ plain_cfg cfg_dflt /\ owned h_own /\ Forall (same_np 2) h_own /\
  Forall (stays_in (trace_of true 2 h_own)) h_own /\
  exists s outs, run e_dflt (init cfg_dflt 2 f_zero) h_own = Ok (s, outs) /\ Forall (fun md => Zlen md < 2 ^ 31) (g_mdsets (s_g s)) /\
    exists a b, map (fun r => replay_proc (e_zlib e_dflt) r 2 (s_g s)) (zseq 2) = [Ok a; Ok b] /\ (length a, length b) = (5, 4)%nat.
Proof. exact own_ex. Qed.

(** Files written by one process, replayed by one process: the contents are the same. *)
Theorem C59_replay_one_process_partial : forall e cfg f0 ops0 doff s outs, let ops := ops0 ++ [OReopen doff 1] in
  e_coll e = true -> plain_cfg cfg ->
  legal_history true 1 ops -> sized_history true 1 ops -> Forall one_process ops ->
  ((has cfg CFG_SEL_ENCODE = false /\ has cfg CFG_METADATA_SHARE = false) \/ array_history 1 ops) ->
  run e (init cfg 1 f0) ops = Ok (s, outs) ->
  Forall (stays_in (trace_of true 1 ops)) ops -> Forall (fun md => Zlen md < 2 ^ 31) (g_mdsets (s_g s)) ->
  exists ws, replay_proc (e_zlib e) 0 1 (s_g s) = Ok ws /\
    forall did x, content ws did x = last_assigned did x (program_order [] ops).
Proof. exact replay_one_process. Qed.
Print Assumptions C59_replay_one_process_partial.
Example C59_one_applies : legal_history true 1 h_solo /\ sized_history true 1 h_solo /\ array_history 1 h_solo /\ plain_cfg cfg_dflt /\ Forall one_process h_solo /\
  Forall (stays_in (trace_of true 1 h_solo)) h_solo /\
  exists s outs, run e_dflt (init cfg_dflt 1 f_zero) h_solo = Ok (s, outs) /\ Forall (fun md => Zlen md < 2 ^ 31) (g_mdsets (s_g s)) /\
    last_assigned 0 [1;1] (program_order [] h_solo) = Some [106; 107].
Proof. exact one_ex. Qed.

(** Elements written by several processes, one replaying process: the last write in the order of the
    log, that is by metadata dataset, then by process, then by program order. *)
Theorem C59_replay_log_order_partial : forall e cfg np f0 ops s outs, e_coll e = true -> plain_cfg cfg ->
  legal_history true np ops -> sized_history true np ops ->
  ((has cfg CFG_SEL_ENCODE = false /\ has cfg CFG_METADATA_SHARE = false) \/ array_history np ops) ->
  run e (init cfg np f0) ops = Ok (s, outs) ->
  Forall (stays_in (trace_of true np ops)) ops -> Forall (fun md => Zlen md < 2 ^ 31) (g_mdsets (s_g s)) ->
  exists ws, replay_proc (e_zlib e) 0 1 (s_g s) = Ok ws /\
    forall did x, content ws did x = last_assigned did x
      (flat_map (log_assigns (t_sets (trace_of true np ops))) (concat (concat (ls_md (log_of np ops))))).
Proof. exact replay_log_order. Qed.
Print Assumptions C59_replay_log_order_partial.

(** That order is not the order of the writes: process 1 writes and flushes, process 0 overwrites the
    element.  A read of the log file gives the new value, the replayed file has the old one. *)
Theorem C59_replay_order_refuted : exists cfg np ops s outs ws did x, plain_cfg cfg /\ legal_history true np ops /\ sized_history true np ops /\ array_history np ops /\
  Forall (stays_in (trace_of true np ops)) ops /\ Forall (same_np np) ops /\
  run e_dflt (init cfg np f_zero) ops = Ok (s, outs) /\ replay_proc (e_zlib e_dflt) 0 1 (s_g s) = Ok ws /\
  content ws did x = Some [10] /\ last_assigned did x (program_order [] ops) = Some [20] /\
  exists s' outs', run e_dflt (init cfg np f_zero) (ops ++ [ORead 300 [mkrcall did [mkblock x [1;1]] 0 junk]]) = Ok (s', outs' ++ [[[20]]]).
Proof. exact order_wrong. Qed.
Print Assumptions C59_replay_order_refuted.

(** With two replaying processes the result depends on which of them is faster. *)
Theorem C59_replay_race_refuted : exists cfg np ops s outs parts l1 l2 did x, plain_cfg cfg /\ legal_history true np ops /\ sized_history true np ops /\ array_history np ops /\
  Forall (stays_in (trace_of true np ops)) ops /\ Forall (same_np np) ops /\
  run e_dflt (init cfg np f_zero) ops = Ok (s, outs) /\ map (fun r => replay_proc (e_zlib e_dflt) r 2 (s_g s)) (zseq 2) = map Ok parts /\
  interleaving parts l1 /\ interleaving parts l2 /\ content l1 did x <> content l2 did x.
Proof. exact race_wrong. Qed.
Print Assumptions C59_replay_race_refuted.

(** A dataset that was shrunk below what had been written: the replay fails. *)
Theorem C59_replay_shrunk_refuted : exists cfg ops s outs, plain_cfg cfg /\ legal_history true 1 ops /\ sized_history true 1 ops /\ array_history 1 ops /\ Forall one_process ops /\
  run e_dflt (init cfg 1 f_zero) ops = Ok (s, outs) /\ replay_proc (e_zlib e_dflt) 0 1 (s_g s) = Err.
Proof. exact shrunk_fails. Qed.
Print Assumptions C59_replay_shrunk_refuted.

(** Default settings, a two-block write with a block as wide as the dataset: elements are lost. *)
Theorem C59_replay_wide_refuted : exists cfg ops s outs ws did x, plain_cfg cfg /\ legal_history true 1 ops /\ sized_history true 1 ops /\ Forall one_process ops /\
  Forall (stays_in (trace_of true 1 ops)) ops /\ run e_dflt (init cfg 1 f_zero) ops = Ok (s, outs) /\ replay_proc (e_zlib e_dflt) 0 1 (s_g s) = Ok ws /\
  content ws did x = None /\ last_assigned did x (program_order [] ops) = Some [10].
Proof. exact wide_lost. Qed.
Print Assumptions C59_replay_wide_refuted.
