(** C76 A file opened for reading only stays as it is, can be read, and refuses to be written.

    [recover np dk]: the file on disk [dk] as opened by [np] processes.  [ro_run e (s, dk) ops] (RoModel.v): the
    calls [ops] on it when it was opened with H5F_ACC_RDONLY, what remains in memory and on the disk and the result of
    each call, [None] for an error; [OReopen] closes the file and opens it again, for reading only. *)
From Verif Require Import Base Spec MetaModel QueueModel FlushModel IndexModel ReadModel SysModel
  SysSpec History SysCheck Examples AnySpec CrashModel FaultModel RealModel RealSpec RoModel RoSpec RoClaims RoClaims2.

(** The file is not changed, whatever is called. *)
Theorem C76_unchanged : forall e ops s dk s' dk' outs, ro_run e (s, dk) ops = Ok ((s', dk'), outs) -> dk' = dk.
Proof. exact ro_disk. Qed.
Print Assumptions C76_unchanged.

(** Reads return what they return in a file opened for reading and writing. *)
Theorem C76_reads : forall e np dk s ops, recover np dk = Ok s -> Forall only_asks ops ->
  observed (ro_run e (s, dk) ops) = match observed (run_real e s ops) with Ok outs => Ok (map Some outs) | Err => Err | UB => UB end.
Proof. exact ro_reads. Qed.
Print Assumptions C76_reads.
Example C76_file : exists s outs, crun e_dflt (init cfg_dflt 2 f_zero, disk0 cfg_dflt f_zero) (h_pre ++ [OReopen 5000 2]) = Ok ((s, dk_pre), outs).
Proof. exact ro_made. Qed.
Example C76_opened : forall np, (np = 1 \/ np = 2)%nat -> recover np dk_pre = Ok (opened np).
Proof. exact ro_opened. Qed.
Example C76_reads_applies : Forall only_asks [r_ro 6000; OFlush 7000; r_ro 8000] /\
  observed (ro_run e_dflt (opened 2, dk_pre) [r_ro 6000; OFlush 7000; r_ro 8000]) = Ok [Some [[100;101;102;103]]; Some []; Some [[100;101;102;103]]].
Proof. exact ro_reads_ex. Qed.

(** H5Dwrite is not refused: it returns what it returns in a file opened for writing. *)
Theorem C76_write_refuted : forall e s dk rk did sels data, ro_step e (s, dk) (OWrite rk did sels data) =
  (do p <- step_real e s (OWrite rk did sels data); Ok ((fst p, dk), Some (snd p))).
Proof. exact ro_write. Qed.
Print Assumptions C76_write_refuted.
(** H5Fclose then returns success, and what follows is the same as if nothing had been done. *)
Theorem C76_close_refuted : forall e s dk ops doff np rest r outs, ro_run e (s, dk) (ops ++ OReopen doff np :: rest) = Ok (r, outs) ->
  exists s0 outs1 outs2, recover np dk = Ok s0 /\ outs = outs1 ++ Some [] :: outs2 /\ length outs1 = length ops /\ ro_run e (s0, dk) rest = Ok (r, outs2).
Proof. exact ro_forgets. Qed.
Print Assumptions C76_close_refuted.
(** Until then every flush fails, and with one process every read. *)
Theorem C76_reads_after_write_refuted : forall e np dk s pre rk did b sels data mid o r outs, recover np dk = Ok s ->
  Forall stays_open pre -> Forall stays_open mid -> Forall with_data pre -> Forall with_data mid -> data <> [] ->
  (match o with OFlush _ => True | ORead _ _ => np = 1%nat | _ => False end) ->
  ro_run e (s, dk) (pre ++ OWrite rk did (b :: sels) data :: mid ++ [o]) = Ok (r, outs) -> last outs (Some []) = None.
Proof. exact ro_blocked. Qed.
Print Assumptions C76_reads_after_write_refuted.
(** With several processes the reads of the session are those of a session without its writes. *)
Theorem C76_writes_unseen : forall e np dk s ops r outs, recover np dk = Ok s -> np <> 1%nat -> Forall with_data ops -> Forall stays_open ops ->
  ro_run e (s, dk) ops = Ok (r, outs) ->
  exists r' outs', ro_run e (s, dk) (filter (fun o => negb (writes o)) ops) = Ok (r', outs') /\
    read_results ops outs = read_results (filter (fun o => negb (writes o)) ops) outs'.
Proof. exact ro_unseen. Qed.
Print Assumptions C76_writes_unseen.
Example C76_session : let ops := [w_ro; OFlush 6000; OCreate dA; OSetExtent 1 [11;4]; r_ro 7000] in
  Forall stays_open ops /\ Forall with_data ops /\
  observed (ro_run e_dflt (opened 2, dk_pre) (ops ++ [OReopen 8000 1; r_ro 9000])) =
    Ok [Some []; None; None; None; Some [[100;101;102;103]]; Some []; Some [[100;101;102;103]]] /\
  observed (ro_run e_dflt (opened 1, dk_pre) (ops ++ [OReopen 8000 2; r_ro 9000])) =
    Ok [Some []; None; None; None; None; Some []; Some [[100;101;102;103]]].
Proof. exact ro_session_ex. Qed.

(** Opened with H5F_ACC_RDONLY | H5F_ACC_SWMR_READ (or any other flag that is not 0) and not writable, the
    file cannot be closed without an error, even when nothing was written. *)
Theorem C76_swmr_close_refuted : forall e flag s dk doff, flag <> 0 -> ro_close e flag s dk doff = (dk, Some 0%nat).
Proof. exact swmr_close. Qed.
Print Assumptions C76_swmr_close_refuted.
