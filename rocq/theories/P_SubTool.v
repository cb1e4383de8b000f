(** Properties of closing a file with subfiles, and of the utilities on it (C88).

    [sub_run] (SubModel.v) is a session of all groups; [sub_close doffs s] (SubToolModel.v) is H5Fclose by all processes,
    [doffs] the placement of each group's log dataset.  [own_session k np ops doffs] (SubToolSpec.v): what group [k] would have
    done with a file of its own.  [dump_sub], [replay_sub]: h5ldump and h5lreplay on the closed file. *)
From Coq Require Import String.
From Verif Require Import Base Spec MetaModel QueueModel FlushModel IndexModel ReadModel SysModel SysSpec History SysCheck Examples DefSpec DumpModel DumpSpec
  ReplayDataModel ReplayDataSpec SubModel SubSpec SubClaims SubToolModel SubToolSpec SubToolClaims SubToolEx.
Open Scope list_scope. Open Scope Z_scope.

(** ** C88 Closing a file with subfiles, and the utilities on it *)
(** If every group has written something, or none has, H5Fclose returns, and each subfile is the file the group would have left
    had it used a file of its own ([set_ranks _ []]: no process has it open).  For every file name, also with a directory.
    Missing: sessions with reads, filters, merging; histories that meet the defects of encoding and sharing. *)
Theorem C88_close_partial : forall e name cfg nps f0 ops doffs, plain_cfg (Z.land cfg 15) ->
  Forall (writing_op (length nps)) ops -> length doffs = length nps -> all_or_none (length nps) ops ->
  (forall k np, nth_error nps k = Some np -> group_ok (Z.land cfg 15) np (own_session k np ops doffs)) ->
  exists s outs c, sub_run e (sub_init name cfg nps f0) ops = SOk (s, outs) /\ sub_close doffs s = SOk c /\ cl_name c = name /\ cl_nsub c = length nps /\
    forall k np, nth_error nps k = Some np -> exists sk ok,
      run e (init (Z.land cfg 15) np f0) (own_session k np ops doffs) = Ok (sk, ok) /\ subfile c k = Ok (set_ranks (s_g sk) []).
Proof. exact close_returns. Qed.
Print Assumptions C88_close_partial.

(** If some group has written and another has not, H5Fclose never returns: always, not only in an example. *)
Theorem C88_close_uneven_refuted : forall e name cfg nps f0 ops doffs a b, plain_cfg (Z.land cfg 15) ->
  Forall (writing_op (length nps)) ops -> length doffs = length nps ->
  (forall k np, nth_error nps k = Some np -> group_ok (Z.land cfg 15) np (own_session k np ops doffs)) ->
  (a < length nps)%nat -> (b < length nps)%nat -> wrote a ops -> ~ wrote b ops ->
  exists s outs, sub_run e (sub_init name cfg nps f0) ops = SOk (s, outs) /\ sub_close doffs s = SHang.
Proof. exact close_uneven. Qed.
Print Assumptions C88_close_uneven_refuted.
(** One group of one process that writes six bytes, one group of two processes that does not write. *)
Example C88_uneven_applies : plain_cfg (Z.land cfg_sub 15) /\ Forall (writing_op 2) h_half /\
  (forall k np, nth_error [1; 2]%nat k = Some np -> group_ok (Z.land cfg_sub 15) np (own_session k np h_half [100; 200])) /\
  wrote 0 h_half /\ ~ wrote 1 h_half.
Proof. exact half_meets. Qed.

(** h5ldump lists, subfile by subfile, every write of the group, with its place, selection and data. *)
Theorem C88_dump_partial : forall e name cfg nps f0 ops doffs wd, e_coll e = true -> plain_cfg (Z.land cfg 15) ->
  Forall (writing_op (length nps)) ops -> length doffs = length nps -> all_or_none (length nps) ops ->
  (forall k np, nth_error nps k = Some np -> group_ok (Z.land cfg 15) np (own_session k np ops doffs)) ->
  exists s outs c ds, sub_run e (sub_init name cfg nps f0) ops = SOk (s, outs) /\ sub_close doffs s = SOk c /\ dump_sub (e_zlib e) wd c = Ok ds /\ length ds = length nps /\
    forall k np d, nth_error nps k = Some np -> nth_error ds k = Some d ->
      map (map (map listed)) d = map (map (map (show wd (t_sets (trace_of true np (own_session k np ops doffs)))))) (ls_md (log_of np (own_session k np ops doffs))).
Proof. exact dump_close. Qed.
Print Assumptions C88_dump_partial.

(** Every element written by one process of one group only, no dataset shrunk below what was written, a write smaller than
    2 GiB: replaying by one process, or by at most twice as many processes as the smallest group has, gives every element the
    value last written to it, however the processes are scheduled. *)
Theorem C88_replay_partial : forall e name cfg nps f0 ops doffs s outs c nr, e_coll e = true -> plain_cfg (Z.land cfg 15) ->
  Forall (writing_op (length nps)) ops -> length doffs = length nps -> all_or_none (length nps) ops ->
  (forall k np, nth_error nps k = Some np -> group_ok (Z.land cfg 15) np (own_session k np ops doffs) /\
     Forall (stays_in (trace_of true np (own_session k np ops doffs))) (own_session k np ops doffs)) ->
  sub_run e (sub_init name cfg nps f0) ops = SOk (s, outs) -> sub_close doffs s = SOk c ->
  (forall k g, subfile c k = Ok g -> Forall (fun md => Zlen md < 2 ^ 31) (g_mdsets g)) ->
  owned_sub ops -> 0 < nr -> Forall (fun np => nr <= 2 * Z.of_nat np) nps ->
  exists parts, map (fun r => replay_sub (e_zlib e) r nr c) (zseq nr) = map Ok parts /\
    forall l, interleaving parts l -> forall did x, content l did x = last_assigned did x (program_order [] (everyone ops)).
Proof. exact replay_close. Qed.
Print Assumptions C88_replay_partial.
(** Default settings, three groups of two, one and two processes, shared two-block selections, overwriting, an extended
    dataset, a flush between; a file name with a directory; replayed by two processes. *)
Example C88_applies : plain_cfg (Z.land cfg_sub 15) /\ Forall (writing_op (length np_tool)) h_tool /\ length do_tool = length np_tool /\ all_or_none (length np_tool) h_tool /\
  (forall k np, nth_error np_tool k = Some np -> group_ok (Z.land cfg_sub 15) np (own_session k np h_tool do_tool) /\
     Forall (stays_in (trace_of true np (own_session k np h_tool do_tool))) (own_session k np h_tool do_tool)) /\
  owned_sub h_tool /\ Forall (fun np => 2 <= 2 * Z.of_nat np) np_tool /\
  exists s outs c a b, sub_run e_dflt (sub_init "dir/out.h5" cfg_sub np_tool f_zero) h_tool = SOk (s, outs) /\ sub_close do_tool s = SOk c /\
    (forall k g, subfile c k = Ok g -> Forall (fun md => Zlen md < 2 ^ 31) (g_mdsets g)) /\
    map (fun r => replay_sub (e_zlib e_dflt) r 2 c) (zseq 2) = [Ok a; Ok b] /\ (length a, length b) = (6, 2)%nat.
Proof. exact tool_meets. Qed.

(** Elements written by several groups, one replaying process: the last write in the order of the subfiles, within a subfile in
    the order of its log. *)
Theorem C88_replay_subfile_order_partial : forall e name cfg nps f0 ops doffs s outs c, e_coll e = true -> plain_cfg (Z.land cfg 15) ->
  Forall (writing_op (length nps)) ops -> length doffs = length nps -> all_or_none (length nps) ops ->
  (forall k np, nth_error nps k = Some np -> group_ok (Z.land cfg 15) np (own_session k np ops doffs) /\
     Forall (stays_in (trace_of true np (own_session k np ops doffs))) (own_session k np ops doffs)) ->
  sub_run e (sub_init name cfg nps f0) ops = SOk (s, outs) -> sub_close doffs s = SOk c ->
  (forall k g, subfile c k = Ok g -> Forall (fun md => Zlen md < 2 ^ 31) (g_mdsets g)) ->
  exists ws, replay_sub (e_zlib e) 0 1 c = Ok ws /\
    forall did x, content ws did x = last_assigned did x (flat_map (fun k => subfile_log k (nth k nps 0%nat) ops doffs) (seq 0 (length nps))).
Proof. exact replay_order. Qed.
Print Assumptions C88_replay_subfile_order_partial.

(** An element written by two groups: one replaying process goes through the subfiles in order, so the value of the group with
    the higher number wins, although the other wrote later and a flush lay between. *)
Theorem C88_replay_order_refuted : exists name cfg nps ops doffs s outs c ws did x, plain_cfg (Z.land cfg 15) /\ Forall (writing_op (length nps)) ops /\ length doffs = length nps /\ all_or_none (length nps) ops /\
  (forall k np, nth_error nps k = Some np -> group_ok (Z.land cfg 15) np (own_session k np ops doffs) /\
     Forall (stays_in (trace_of true np (own_session k np ops doffs))) (own_session k np ops doffs)) /\
  sub_run e_dflt (sub_init name cfg nps f_zero) ops = SOk (s, outs) /\ sub_close doffs s = SOk c /\ replay_sub (e_zlib e_dflt) 0 1 c = Ok ws /\
  content ws did x = Some [7;8] /\ last_assigned did x (program_order [] (everyone ops)) = Some [9;10].
Proof. exact twice_wrong. Qed.
Print Assumptions C88_replay_order_refuted.
