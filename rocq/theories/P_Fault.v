(** Calls that fail (C70-C72): the underlying library reports an error, the program goes on.

    [frun e x fs] makes the calls [fs], one after the other, and lists what they returned; [None] is an
    error.  [Call bad o] is the call [o] during which the changes [bad] to the underlying file fail,
    [fine o] the same without failures; [LostData] and [LostMeta] are H5Fflush and H5Fclose (followed by
    H5Fopen) in which the underlying library does not say where the new dataset is (FaultModel.v,
    FaultSpec.v).  [run] is SysModel.v, in which nothing fails. *)
From Verif Require Import Base Spec MetaModel QueueModel FlushModel IndexModel ReadModel SysModel
  SysSpec History SysCheck Examples AnySpec TameSpec CrashModel CrashSpec CrashClaims2 FaultModel FaultSpec FaultClaims FaultClaims3 FaultLost FaultExamples.

(** ** C70 A call that fails can be repeated *)
(** Creating log datasets, metadata datasets and datasets and writing data may fail at any time, in any
    calls but H5Fclose and H5Dset_extent.  The calls that did not fail return what they return when
    those that did are not made (a read that failed may count as a flush).  Whether the calls that are
    made again succeed is another question: see below.  Missing: parts of the metadata that are not
    written, H5Fclose. *)
Theorem C70_failed_calls_partial : forall e cfg np f0 fs x os, e_coll e = true ->
  Forall (fun f => exists bad o, f = Call bad o /\ forall y, bad y = true -> early y) fs ->
  Forall2 (fun f out => is_close f = true \/ is_extent f = true -> out <> None) fs os ->
  frun e (fstart cfg np f0) fs = Ok (x, os) ->
  exists ops outs s, repaired fs os ops outs /\ run e (init cfg np f0) ops = Ok (s, outs).
Proof. exact failed_calls. Qed.
Print Assumptions C70_failed_calls_partial.
Example C70_applies : v_seen v_calls = Ok v_outs /\ Forall (fun f => exists bad o, f = Call bad o /\ forall y, bad y = true -> early y) v_calls /\
  Forall2 (fun f out => is_close f = true \/ is_extent f = true -> out <> None) v_calls v_outs.
Proof. exact v_calls_ex. Qed.
(** False in general: once H5Fflush failed after the log dataset was created, every later H5Fflush,
    every later read and H5Fclose fail, whatever is done in between. *)
Theorem C70_repeated_flush_refuted : forall e cfg np f0 fs os bad doff rest os1 f o x,
  e_coll e = true -> length os = length fs -> length os1 = length rest ->
  frun e (fstart cfg np f0) (fs ++ Call bad (OFlush doff) :: rest ++ [f]) = Ok (x, os ++ None :: os1 ++ [o]) ->
  (forall n, bad (XLog n) = false) -> Forall2 (fun g out => is_close g = true -> out <> None) fs os ->
  Forall (fun g => is_close g = false) rest -> uses_file f -> o = None.
Proof. exact jam_forever. Qed.
Print Assumptions C70_repeated_flush_refuted.
Example C70_stuck : v_seen (map fine (c_one ++ [c_write]) ++ Call on_data (OFlush 200) :: [fine v_write; fine (OFlush 200); fine (ORead 200 c_rd)] ++ [fine (OReopen 500 1)]) =
  Ok ([Some []; Some []; Some []] ++ None :: [Some []; None; None] ++ [None]) /\ (forall n, on_data (XLog n) = false).
Proof. exact v_stuck_ex. Qed.
(** False: once a read failed because it could not write the metadata, no read of that file returns
    anything, also after it is closed and opened. *)
Theorem C70_repeated_read_refuted : forall e cfg np f0 ops s outs doff calls rest os f x bufs,
  run e (init cfg np f0) ops = Ok (s, outs) ->
  Forall2 (fun f o => is_close f = true -> o <> None) rest os -> reads f ->
  frun e (fstart cfg np f0) (map fine ops ++ Call puts_meta (ORead doff calls) :: rest ++ [f]) <> Ok (x, map Some outs ++ None :: os ++ [Some bufs]).
Proof. exact no_more_reads. Qed.
Print Assumptions C70_repeated_read_refuted.
Example C70_no_reads : let h := map fine (c_one ++ [c_write]) ++ Call puts_meta (ORead 200 c_rd) :: [fine v_write; fine (OFlush 300); fine (OReopen 500 1)] in
  v_seen h = Ok ([Some []; Some []; Some []] ++ None :: [Some []; Some []; Some []]) /\ v_seen (h ++ [fine (ORead 600 c_rd)]) = Err /\ reads (fine (ORead 600 c_rd)) /\
  observed (run e_dflt (init cfg_dflt 1 f_zero) (c_one ++ [c_write; ORead 200 c_rd])) = Ok [[]; []; []; [[3; 3; 4; 4; 9; 9]]].
Proof. exact v_meta_ex. Qed.
(** False: H5Fclose after H5Fclose failed returns success, without trying again whatever failed: the
    file holds what it held when it was closed before. *)
Theorem C70_repeated_close_refuted : forall e cfg np f0 pre doff np1 post bad doff3 np3 bad' doff4 np2 doff2 calls x os,
  tame e cfg np (pre ++ OReopen doff np1 :: post ++ [OReopen doff3 np3]) ->
  tame e cfg np (pre ++ [OReopen doff np2; ORead doff2 calls]) ->
  Forall (fun o => creates o = false /\ closes o = false) post ->
  frun e (fstart cfg np f0) (map fine (pre ++ OReopen doff np1 :: post) ++ [Call bad (OReopen doff3 np3)]) = Ok (x, map Some os ++ [None]) ->
  exists x' bufs, frun e x [Call bad' (OReopen doff4 np2); fine (ORead doff2 calls)] = Ok (x', [Some []; Some bufs]) /\
    last_read (run e (init cfg np f0) (pre ++ [OReopen doff np2; ORead doff2 calls])) = Ok bufs.
Proof. exact second_close. Qed.
Print Assumptions C70_repeated_close_refuted.
Example C70_close_applies :
  tame e_dflt cfg_dflt 1 ([OCreate dA] ++ OReopen 100 1 :: [c_write] ++ [OReopen 200 1]) /\ tame e_dflt cfg_dflt 1 ([OCreate dA] ++ [OReopen 100 1; ORead 600 c_rd]) /\
  Forall (fun o => creates o = false /\ closes o = false) [c_write] /\
  v_seen (map fine ([OCreate dA] ++ OReopen 100 1 :: [c_write]) ++ [Call on_att (OReopen 200 1); fine (OReopen 300 1); fine (ORead 600 c_rd)]) =
  Ok ([Some []; Some []; Some []] ++ [None; Some []; Some [[9; 9; 9; 9; 9; 9]]]).
Proof. exact v_close_ex. Qed.

(** ** C71 Success means that the data are stored *)
(** When the underlying library does not say where the new dataset is, H5Fflush and H5Fclose return
    success, after every sequence of calls (the next two theorems say what was stored). *)
Theorem C71_reports_success_refuted : forall e cfg np f0 ops s outs f, run e (init cfg np f0) ops = Ok (s, outs) ->
  f = LostData \/ (exists doff np2, f = LostMeta doff np2) ->
  exists x, frun e (fstart cfg np f0) (map fine ops ++ [f]) = Ok (x, map Some outs ++ [Some []]).
Proof. exact lost_success. Qed.
Print Assumptions C71_reports_success_refuted.
(** False: H5Fflush returned success, and whatever was written before it could have been anything else
    (of the same length) without the program ever noticing, in whatever it does later. *)
Theorem C71_flush_refuted : forall e cfg np f0 fs ws ws' rest os os1 os2 x, Forall2 other_data ws ws' ->
  frun e (fstart cfg np f0) (fs ++ map fine ws ++ LostData :: rest) = Ok (x, os ++ os1 ++ Some [] :: os2) -> length os = length fs -> length os1 = length ws ->
  exists x', frun e (fstart cfg np f0) (fs ++ map fine ws' ++ LostData :: rest) = Ok (x', os ++ os1 ++ Some [] :: os2).
Proof. exact lost_data. Qed.
Print Assumptions C71_flush_refuted.
Example C71_flush : Forall2 other_data [c_write] [OWrite 0 0 [B [0;0] [1;2]] [5;6;7;8]] /\
  forall w, In w [c_write; OWrite 0 0 [B [0;0] [1;2]] [5;6;7;8]] ->
  v_seen (map fine c_one ++ map fine [w] ++ LostData :: [fine (ORead 500 c_rd); fine (OReopen 500 1); fine (ORead 600 c_rd)]) =
  Ok ([Some []; Some []] ++ [Some []] ++ Some [] :: [Some [[0; 0; 0; 0; 9; 9]]; Some []; Some [[0; 0; 0; 0; 9; 9]]]).
Proof. exact v_lost_data_ex. Qed.
(** False: H5Fclose returned success, and no read of that file returns anything. *)
Theorem C71_close_refuted : forall e cfg np f0 ops rk did sels data s outs doff np2 rest os f x bufs,
  run e (init cfg np f0) (ops ++ [OWrite rk did sels data]) = Ok (s, outs) -> sels <> [] ->
  Forall2 (fun f o => is_close f = true -> o <> None) rest os -> reads f ->
  frun e (fstart cfg np f0) (map fine (ops ++ [OWrite rk did sels data]) ++ LostMeta doff np2 :: rest ++ [f]) <> Ok (x, map Some outs ++ Some [] :: os ++ [Some bufs]).
Proof. exact no_reads_after_close. Qed.
Print Assumptions C71_close_refuted.
Example C71_close : let h := map fine (c_one ++ [c_write]) ++ LostMeta 200 1 :: [fine v_write; fine (OReopen 500 1)] in
  v_seen h = Ok ([Some []; Some []; Some []] ++ Some [] :: [Some []; Some []]) /\ v_seen (h ++ [fine (ORead 600 c_rd)]) = Err.
Proof. exact v_lost_meta_ex. Qed.

(** ** C72 A failing H5Dcreate or H5Dset_extent leaves no trace *)
(** (True of H5Dcreate when the underlying dataset cannot be created: C70_failed_calls_partial.)
    False: when one of its attributes cannot be written, the file can never be opened again. *)
Theorem C72_create_refuted : forall e cfg np f0 ops s outs bad d rest os f x out,
  run e (init cfg np f0) ops = Ok (s, outs) ->
  (forall k d, bad (XAnchor k d) = false) -> is_close f = true ->
  frun e (fstart cfg np f0) (map fine ops ++ Call bad (OCreate d) :: rest ++ [f]) <> Ok (x, map Some outs ++ None :: os ++ [Some out]).
Proof. exact no_more_opens. Qed.
Print Assumptions C72_create_refuted.
Example C72_create : let h := map fine c_one ++ Call on_mdims (OCreate dA) :: [fine c_write; fine (ORead 200 c_rd)] in
  v_seen h = Ok ([Some []; Some []] ++ None :: [Some []; Some [[3; 3; 4; 4; 9; 9]]]) /\ v_seen (h ++ [fine (OReopen 500 1)]) = Err /\ forall k d, on_mdims (XAnchor k d) = false.
Proof. exact v_create_ex. Qed.
(** False: when the attribute cannot be written, H5Dset_extent fails, H5Dget_space reports the new sizes
    until the file is closed, and the old ones afterwards. *)
Theorem C72_extent_refuted : forall e cfg np f0 ops s outs bad did dims d x,
  run e (init cfg np f0) ops = Ok (s, outs) ->
  info_at (g_infos (s_g s)) did = Some (Some d) -> length (di_mdims d) = length (di_dims d) -> length dims = length (di_dims d) -> snd (set_dims (di_dims d) (di_mdims d) dims) = true ->
  frun e (fstart cfg np f0) (map fine ops ++ [Call bad (OSetExtent did dims)]) = Ok (x, map Some outs ++ [None]) ->
  reported x did = Some dims /\
  forall doff np2, exists x', fstep e x (fine (OReopen doff np2)) = Ok (x', Some []) /\ reported x' did = Some (di_dims d).
Proof. exact extent_trace. Qed.
Print Assumptions C72_extent_refuted.
Example C72_extent : let h := map fine [OCreate dR; OWrite 0 0 [B [0;0] [1;2]] [3;4]] ++ [Call on_dims (OSetExtent 0 [9;4])] in
  v_seen h = Ok (map Some [[]; []] ++ [None]) /\ snd (set_dims (di_dims dR) (di_mdims dR) [9;4]) = true /\
  (do p <- run e_dflt (init cfg_dflt 1 f_zero) [OCreate dR; OWrite 0 0 [B [0;0] [1;2]] [3;4]]; Ok (match info_at (g_infos (s_g (fst p))) 0 with Some (Some d) => (di_dims d, di_mdims d) | _ => ([], []) end)) = Ok ([3;4], [UNLIMITED;4]) /\
  (do p <- frun e_dflt (fstart cfg_dflt 1 f_zero) h; Ok (reported (fst p) 0)) = Ok (Some [9;4]) /\
  (do p <- frun e_dflt (fstart cfg_dflt 1 f_zero) (h ++ [fine (OReopen 300 1)]); Ok (reported (fst p) 0)) = Ok (Some [3;4]).
Proof. exact v_extent_ex. Qed.
