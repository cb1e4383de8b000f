(** C87 The utilities on files from which datasets were deleted.

    [cs]: a program that deletes datasets ([DDelete], DelModel.v); [kept cs] (DelSpec.v): the same program without the
    deletions; afterwards the file is closed.  [dump_file] (DumpModel.v): the listing of h5ldump; [replay_proc z 0 1]
    (ReplayDataModel.v): the H5Dwrites of h5lreplay run by one process.  The programs and settings are those of C56 and C59. *)
From Verif Require Import Base Spec MetaModel QueueModel FlushModel IndexModel ReadModel SysModel
  SysSpec History SysCheck Examples DefSpec DumpModel DumpSpec ReplayDataModel ReplayDataSpec ReplayDataClaims DelModel DelSpec DelToolClaims.

(** A deleted dataset that had been written makes h5ldump fail on the whole file; without the deletion it lists the file. *)
Theorem C87_dump_refuted : forall e cfg np f0 cs doff np' s outs rk did sels data, let ops := kept cs ++ [OReopen doff np'] in
  e_coll e = true -> plain_cfg cfg -> legal_history true np ops -> sized_history true np ops ->
  ((has cfg CFG_SEL_ENCODE = false /\ has cfg CFG_METADATA_SHARE = false) \/ array_history np ops) ->
  run e (init cfg np f0) ops = Ok (s, outs) ->
  uses_live 0 [] cs -> (has cfg CFG_METADATA_SHARE = false \/ not_reopened false cs) ->
  In (DOp (OWrite rk did sels data)) cs -> data <> [] -> In (DDelete did) cs ->
  (exists d, dump_file (e_zlib e) true (s_g s) = Ok d) /\
  exists s' outs', drun e (dinit cfg np f0) (cs ++ [DOp (OReopen doff np')]) = Ok (s', outs') /\
    forall d, dump_file (e_zlib e) true (s_g (d_sys s')) <> Ok d.
Proof. exact dump_deleted. Qed.
Print Assumptions C87_dump_refuted.

(** ... and h5lreplay. *)
Theorem C87_replay_refuted : forall e cfg np f0 cs doff np' s outs rk did sels data, let ops := kept cs ++ [OReopen doff np'] in
  e_coll e = true -> plain_cfg cfg -> legal_history true np ops -> sized_history true np ops ->
  ((has cfg CFG_SEL_ENCODE = false /\ has cfg CFG_METADATA_SHARE = false) \/ array_history np ops) ->
  run e (init cfg np f0) ops = Ok (s, outs) ->
  Forall (stays_in (trace_of true np ops)) ops -> Forall (fun md => Zlen md < 2 ^ 31) (g_mdsets (s_g s)) ->
  uses_live 0 [] cs -> (has cfg CFG_METADATA_SHARE = false \/ not_reopened false cs) ->
  In (DOp (OWrite rk did sels data)) cs -> data <> [] -> In (DDelete did) cs ->
  (exists ws, replay_proc (e_zlib e) 0 1 (s_g s) = Ok ws) /\
  exists s' outs', drun e (dinit cfg np f0) (cs ++ [DOp (OReopen doff np')]) = Ok (s', outs') /\
    forall ws, replay_proc (e_zlib e) 0 1 (s_g (d_sys s')) <> Ok ws.
Proof. exact replay_deleted. Qed.
Print Assumptions C87_replay_refuted.
(** The default settings, two processes, shared selections of several blocks, closed twice. *)
Example C87_refuted_applies : let ops := kept del_own ++ [OReopen 9000 2] in
  e_coll e_dflt = true /\ plain_cfg cfg_dflt /\ legal_history true 2 ops /\ sized_history true 2 ops /\ array_history 2 ops /\
  (exists s outs, run e_dflt (init cfg_dflt 2 f_zero) ops = Ok (s, outs) /\ Forall (fun md => Zlen md < 2 ^ 31) (g_mdsets (s_g s))) /\
  Forall (stays_in (trace_of true 2 ops)) ops /\ uses_live 0 [] del_own /\ not_reopened false del_own /\
  In (DOp (OWrite 1 0 [B [2;2] [2;3]] (by_ 50 12))) del_own /\ In (DDelete 0) del_own.
Proof. exact del_own_ok. Qed.

(** With -H (no data) the listing may come out, without the coordinates of what was written to the deleted dataset. *)
Theorem C87_headers_refuted : uses_live 0 [] del_one /\
  exists s s' outs outs' d d', run e_dflt (init 0 1 f_zero) (kept del_one ++ [OReopen 100 1]) = Ok (s, outs) /\
    drun e_dflt (dinit 0 1 f_zero) (del_one ++ [DOp (OReopen 100 1)]) = Ok (s', outs') /\
    dump_file (e_zlib e_dflt) false (s_g s) = Ok d /\ dump_file (e_zlib e_dflt) false (s_g (d_sys s')) = Ok d' /\
    shapes d = [(0, [([1;0], [1;2])]); (1, [([0;0], [1;2])])] /\ shapes d' = [(0, [([], [])]); (1, [([0;0], [1;2])])].
Proof. exact del_one_listed. Qed.
Print Assumptions C87_headers_refuted.

(** Deleted datasets that were never written change neither the listing, with or without data, nor the replay. *)
Theorem C87_unwritten_partial : forall e cfg np f0 cs doff np' s outs, let ops := kept cs ++ [OReopen doff np'] in
  e_coll e = true -> plain_cfg cfg -> legal_history true np ops -> sized_history true np ops ->
  ((has cfg CFG_SEL_ENCODE = false /\ has cfg CFG_METADATA_SHARE = false) \/ array_history np ops) ->
  run e (init cfg np f0) ops = Ok (s, outs) ->
  uses_live 0 [] cs -> (has cfg CFG_METADATA_SHARE = false \/ not_reopened false cs) ->
  (forall rk did sels data, In (DOp (OWrite rk did sels data)) cs -> ~ In (DDelete did) cs) ->
  exists s' outs', drun e (dinit cfg np f0) (cs ++ [DOp (OReopen doff np')]) = Ok (s', outs') /\
    (forall withdata, dump_file (e_zlib e) withdata (s_g (d_sys s')) = dump_file (e_zlib e) withdata (s_g s)) /\
    (Forall (fun md => Zlen md < 2 ^ 31) (g_mdsets (s_g s)) ->
     replay_proc (e_zlib e) 0 1 (s_g (d_sys s')) = replay_proc (e_zlib e) 0 1 (s_g s)).
Proof. exact tools_unwritten. Qed.
Print Assumptions C87_unwritten_partial.
Example C87_unwritten_applies : let ops := kept del_new ++ [OReopen 9000 2] in
  legal_history true 2 ops /\ sized_history true 2 ops /\ array_history 2 ops /\
  (exists s outs, run e_dflt (init cfg_dflt 2 f_zero) ops = Ok (s, outs)) /\
  uses_live 0 [] del_new /\ not_reopened false del_new /\
  (forall rk did sels data, In (DOp (OWrite rk did sels data)) del_new -> ~ In (DDelete did) del_new).
Proof. exact del_new_ok. Qed.
