(** Crashes (C34, C61-C64): the processes stop before the file is closed, some of the changes they made
    are on the disk, and the file is opened again.

    [crun] is SysModel.v's [run] together with the disk; [issued e s ops] lists the changes made to the
    disk by the calls [ops]; [recover np dk] opens the disk with [np] processes; [read_after_crash]
    opens it and reads (CrashModel.v, CrashSpec.v).  [tame] histories are described in TameSpec.v. *)
From Verif Require Import Base Spec MetaModel QueueModel FlushModel IndexModel ReadModel SysModel
  SysSpec History SysCheck Examples DefSpec AnySpec TameSpec CrashModel CrashSpec CrashProofs CrashClaims CrashClaims2.

(** ** C34 Close and reopen *)
(** Opening what H5Fclose leaves on the disk gives the state from which SysModel.v continues after
    [OReopen], for every sequence of calls; the connector keeps nothing in memory only. *)
Theorem C34_disk_reopens : forall e cfg np f0 ops doff np' s outs,
  run e (init cfg np f0) (ops ++ [OReopen doff np']) = Ok (s, outs) ->
  exists dk, apply_all (disk0 cfg f0) (issued e (init cfg np f0) (ops ++ [OReopen doff np'])) = Ok dk /\ recover np' dk = Ok s.
Proof. exact disk_reopens. Qed.
Print Assumptions C34_disk_reopens.
(** Without crashes the disk never makes a call fail. *)
Theorem C34_disk_transparent : forall e cfg np f0 ops,
  observed (crun e (init cfg np f0, disk0 cfg f0) ops) = observed (run e (init cfg np f0) ops).
Proof. exact disk_transparent. Qed.
Print Assumptions C34_disk_transparent.

(** ** C61 A crash keeps what was in the file when it was last closed *)
(** Whichever changes made since then are on the disk, in whatever order.  [post] is what was done since
    the last close. *)
Theorem C61_crash_keeps_closed_partial : forall e cfg np f0 pre doff np1 post np2 doff2 calls s1 dk outs1 xs dk',
  tame e cfg np (pre ++ OReopen doff np1 :: post) -> tame e cfg np (pre ++ [OReopen doff np2; ORead doff2 calls]) ->
  Forall (fun o => creates o = false) post ->
  crun e (init cfg np f0, disk0 cfg f0) (pre ++ [OReopen doff np1]) = Ok ((s1, dk), outs1) ->
  incl xs (issued e s1 post) -> Forall (fun x => writes_att x = false) xs -> apply_all dk xs = Ok dk' ->
  exists bufs, read_after_crash e np2 dk' doff2 calls = Ok bufs /\
    let t := trace_of true np pre in Forall2 (correct_read (mktr (t_sets t) (publish t) [])) calls bufs.
Proof. exact crash_correct. Qed.
Print Assumptions C61_crash_keeps_closed_partial.
(** Changes reach the disk in order: a crash after any number [k] of them. [kept ... k = S j]: call number
    [j] is the last close that was complete. *)
Theorem C61_crash_point_partial : forall e cfg np f0 ops k j doff np1 np2 doff2 calls dk,
  tame e cfg np ops -> kept e (init cfg np f0) ops k = S j -> nth_error ops j = Some (OReopen doff np1) ->
  Forall (fun o => creates o = false) (skipn (S j) ops) ->
  tame e cfg np (firstn j ops ++ [OReopen doff np2; ORead doff2 calls]) ->
  apply_all (disk0 cfg f0) (firstn k (issued e (init cfg np f0) ops)) = Ok dk ->
  exists bufs, read_after_crash e np2 dk doff2 calls = Ok bufs /\
    last_read (run e (init cfg np f0) (firstn j ops ++ [OReopen doff np2; ORead doff2 calls])) = Ok bufs /\
    let t := trace_of true np (firstn j ops) in Forall2 (correct_read (mktr (t_sets t) (publish t) [])) calls bufs.
Proof. exact crash_point. Qed.
Print Assumptions C61_crash_point_partial.
(** Full statement: also when datasets were created since.  False: if a dataset created since the last
    close is on the disk, the file cannot be opened, by any number of processes, after any history. *)
Theorem C61_created_refuted : forall e cfg np f0 pre doff np1 post np2 s1 dk outs1 xs dk' k d s',
  crun e (init cfg np f0, disk0 cfg f0) (pre ++ [OReopen doff np1]) = Ok ((s1, dk), outs1) ->
  incl xs (issued e s1 post) -> Forall (fun x => writes_att x = false) xs -> apply_all dk xs = Ok dk' -> In (XAnchor k d) xs ->
  recover np2 dk' <> Ok s'.
Proof. exact created_lost. Qed.
Print Assumptions C61_created_refuted.
Example C61_created_applies : legal_history true 1 (c_one ++ [c_write; OReopen 200 1; OCreate dR]) /\
  (do dk <- after_crash e_dflt cfg_dflt 1 f_zero (c_one ++ [c_write; OReopen 200 1]) [OCreate dR] (fun xs => xs); recover 1 dk) = UB /\
  (do dk <- after_crash e_dflt cfg_dflt 1 f_zero (c_one ++ [c_write; OReopen 200 1]) [OCreate dR] (firstn 1); recover 1 dk) = Err.
Proof. exact created_unopenable. Qed.
(** ... nor can a new file that was never closed. *)
Theorem C61_new_file_refuted : forall e cfg np f0 ops np2 xs dk k d s',
  incl xs (issued e (init cfg np f0) ops) -> Forall (fun x => writes_att x = false) xs ->
  apply_all (disk0 cfg f0) xs = Ok dk -> In (XAnchor k d) xs -> recover np2 dk <> Ok s'.
Proof. exact created_first. Qed.
Print Assumptions C61_new_file_refuted.
Example C61_applies :
  tame e_dflt cfg_dflt 2 (h_pre ++ OReopen 1000 2 :: c_post) /\ tame e_dflt cfg_dflt 2 (h_pre ++ [OReopen 1000 3; ORead 9000 c_read]) /\
  tame e_dflt cfg_dflt 2 ((h_pre ++ OReopen 1000 2 :: c_post) ++ [OReopen 8000 1]) /\
  tame e_dflt cfg_dflt 2 ((h_pre ++ OReopen 1000 2 :: c_post) ++ [OReopen 8000 3; ORead 9000 c_read]) /\
  Forall (fun o => creates o = false /\ closes o = false) c_post /\
  (forall x, incl (c_some x) x) /\ (forall x, incl (c_sizes x) x) /\
  (do dk <- after_crash e_dflt cfg_dflt 2 f_zero (h_pre ++ [OReopen 1000 2]) c_post c_some; read_after_crash e_dflt 3 dk 9000 c_read) =
  last_read (run e_dflt (init cfg_dflt 2 f_zero) (h_pre ++ [OReopen 1000 3; ORead 9000 c_read])) /\
  last_read (run e_dflt (init cfg_dflt 2 f_zero) (h_pre ++ [OReopen 1000 3; ORead 9000 c_read])) <>
  last_read (run e_dflt (init cfg_dflt 2 f_zero) ((h_pre ++ OReopen 1000 2 :: c_post) ++ [OReopen 8000 3; ORead 9000 c_read])).
Proof. exact crash_ex. Qed.
Example C61_changes : match crun e_dflt (init cfg_dflt 2 f_zero, disk0 cfg_dflt f_zero) (h_pre ++ [OReopen 1000 2]) with
  | Ok (s, dk, _) => length (issued e_dflt s c_post) = 10%nat /\ length (c_some (issued e_dflt s c_post)) = 8%nat /\ length (c_sizes (issued e_dflt s c_post)) = 5%nat /\
      Forall (fun x => writes_att x = false) (issued e_dflt s c_post) /\ Forall (fun x => keeps_objects x = true) (c_sizes (issued e_dflt s c_post)) /\
      In (XLog (g_nldset (s_g s))) (issued e_dflt s c_post)
  | _ => False end.
Proof. exact crash_effects_ex. Qed.
Example C61_points : let ops := (h_pre ++ OReopen 1000 2 :: c_post) ++ [OReopen 8000 1] in
  tame e_dflt cfg_dflt 2 ops /\ kept e_dflt (init cfg_dflt 2 f_zero) ops 36 = 18%nat /\ kept e_dflt (init cfg_dflt 2 f_zero) ops 35 = 11%nat /\ kept e_dflt (init cfg_dflt 2 f_zero) ops 5 = 0%nat /\
  length (issued e_dflt (init cfg_dflt 2 f_zero) ops) = 36%nat /\ nth_error ops 10 = Some (OReopen 1000 2) /\ Forall (fun o => creates o = false) (skipn 11 ops).
Proof. exact crash_point_ex. Qed.

(** ** C62 What H5Fflush has written survives a crash *)
(** False. *)
Theorem C62_flush_lost_refuted : legal_history true 1 (c_one ++ [c_write; OFlush 200; ORead 300 c_rd]) /\
  last_read (run e_dflt (init cfg_dflt 1 f_zero) (c_one ++ [c_write; OFlush 200; ORead 300 c_rd])) = Ok [[3;3;4;4;9;9]] /\
  (do dk <- after_crash e_dflt cfg_dflt 1 f_zero c_one [c_write; OFlush 200] (fun xs => xs); read_after_crash e_dflt 1 dk 300 c_rd) = Ok [[9;9;9;9;9;9]].
Proof. exact flush_lost. Qed.
Print Assumptions C62_flush_lost_refuted.
(** It is never otherwise: however often [post] flushes, and although all its changes are on the disk, the
    file is read as it was when it was last closed. *)
Theorem C62_flush_adds_nothing_refuted : forall e cfg np f0 pre doff np1 post np2 doff2 calls,
  tame e cfg np (pre ++ OReopen doff np1 :: post) -> tame e cfg np (pre ++ [OReopen doff np2; ORead doff2 calls]) ->
  Forall (fun o => creates o = false /\ closes o = false) post ->
  exists s dk outs bufs, crun e (init cfg np f0, disk0 cfg f0) (pre ++ OReopen doff np1 :: post) = Ok ((s, dk), outs) /\
    read_after_crash e np2 dk doff2 calls = Ok bufs /\
    last_read (run e (init cfg np f0) (pre ++ [OReopen doff np2; ORead doff2 calls])) = Ok bufs.
Proof. exact flush_adds_nothing. Qed.
Print Assumptions C62_flush_adds_nothing_refuted.

(** ** C63 Closing is all or nothing *)
(** A crash inside H5Fclose, after [k] of its changes, when changes reach the disk in order: the file is
    read as it was when it was closed before, or, if all are there, as it is now. *)
Theorem C63_close_atomic_partial : forall e cfg np f0 pre doff np1 mid doff3 np3 np2 doff2 calls s2 dk2 outs2 k dk',
  tame e cfg np (pre ++ OReopen doff np1 :: mid ++ [OReopen doff3 np3]) ->
  tame e cfg np (pre ++ [OReopen doff np2; ORead doff2 calls]) ->
  tame e cfg np ((pre ++ OReopen doff np1 :: mid) ++ [OReopen doff3 np2; ORead doff2 calls]) ->
  Forall (fun o => creates o = false /\ closes o = false) mid ->
  crun e (init cfg np f0, disk0 cfg f0) (pre ++ OReopen doff np1 :: mid) = Ok ((s2, dk2), outs2) ->
  apply_all dk2 (firstn k (effects e s2 (OReopen doff3 np3))) = Ok dk' ->
  exists bufs, read_after_crash e np2 dk' doff2 calls = Ok bufs /\
    last_read (run e (init cfg np f0)
      (if (k <? length (effects e s2 (OReopen doff3 np3)))%nat
       then pre ++ [OReopen doff np2; ORead doff2 calls]
       else (pre ++ OReopen doff np1 :: mid) ++ [OReopen doff3 np2; ORead doff2 calls])) = Ok bufs.
Proof. exact close_atomic. Qed.
Print Assumptions C63_close_atomic_partial.
(** (The hypotheses are met by [h_pre], [c_post]: C61_applies.)
    Full statement: in whatever order the changes reach the disk; nothing in the connector orders them.
    False: the attribute alone. *)
Theorem C63_reordered_refuted : legal_history true 1 (c_one ++ [c_write; OReopen 200 1]) /\
  (do dk <- after_crash e_dflt cfg_dflt 1 f_zero c_one [c_write; OReopen 200 1] (filter writes_att); recover 1 dk) = Err.
Proof. exact close_reordered. Qed.
Print Assumptions C63_reordered_refuted.

(** ** C64 A file left by a crash can be written again *)
(** If no object created since the last close is on the disk, the program continues as SysModel.v says. *)
Theorem C64_usable_partial : forall e cfg np f0 pre doff np1 post np2 s1 dk outs1 xs dk',
  tame e cfg np (pre ++ OReopen doff np1 :: post) -> Forall (fun o => creates o = false) post ->
  crun e (init cfg np f0, disk0 cfg f0) (pre ++ [OReopen doff np1]) = Ok ((s1, dk), outs1) ->
  incl xs (issued e s1 post) -> Forall (fun x => keeps_objects x = true) xs -> apply_all dk xs = Ok dk' ->
  exists s, recover np2 dk' = Ok s /\ forall ops, observed (crun e (s, dk') ops) = observed (run e s ops).
Proof. exact crash_usable. Qed.
Print Assumptions C64_usable_partial.
(** If nothing at all is: as if the calls since the last close had not been made, after every history. *)
Theorem C64_nothing_issued_partial : forall e cfg np f0 pre doff np1 np2 s1 dk outs1 s2 outs2,
  crun e (init cfg np f0, disk0 cfg f0) (pre ++ [OReopen doff np1]) = Ok ((s1, dk), outs1) ->
  run e (init cfg np f0) (pre ++ [OReopen doff np2]) = Ok (s2, outs2) ->
  recover np2 dk = Ok s2 /\ forall ops, observed (crun e (s2, dk) ops) = observed (run e s2 ops).
Proof. exact nothing_issued. Qed.
Print Assumptions C64_nothing_issued_partial.
(** Otherwise it is false: after any history, if the log dataset made by the first flush since the last
    close is on the disk, a program that writes anything cannot close the file. *)
Theorem C64_no_more_data_refuted : forall e cfg np f0 pre doff np1 post np2 s1 dk outs1 xs dk' s' ops doff3 np3 r,
  crun e (init cfg np f0, disk0 cfg f0) (pre ++ [OReopen doff np1]) = Ok ((s1, dk), outs1) ->
  incl xs (issued e s1 post) -> Forall (fun x => writes_att x = false) xs -> apply_all dk xs = Ok dk' -> In (XLog (g_nldset (s_g s1))) xs ->
  recover np2 dk' = Ok s' -> Forall with_data ops ->
  crun e (s', dk') (ops ++ [OReopen doff3 np3]) = Ok r -> existsb puts ops = false.
Proof. exact no_more_data. Qed.
Print Assumptions C64_no_more_data_refuted.
Example C64_applies : legal_history true 1 (c_one ++ [c_write; OFlush 200]) /\
  exists n, (do dk <- after_crash e_dflt cfg_dflt 1 f_zero c_one [c_write; OFlush 200] (fun xs => xs); do s <- recover 1 dk; Ok (g_nldset (s_g s))) = Ok n /\
  observed (do dk <- after_crash e_dflt cfg_dflt 1 f_zero c_one [c_write; OFlush 200] (fun xs => xs); do s <- recover 1 dk; crun e_dflt (s, dk) [OReopen 400 1]) = Ok [[]] /\
  observed (do dk <- after_crash e_dflt cfg_dflt 1 f_zero c_one [c_write; OFlush 200] (fun xs => xs); do s <- recover 1 dk; crun e_dflt (s, dk) [c_write; OReopen 400 1]) = Err.
Proof. exact no_more_data_ex. Qed.
