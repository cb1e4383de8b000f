(** Programs of several processes (C01, C60).

    [synchronised] (SyncSpec.v): between two writes of the same element by different processes there is a
    flush, a collective read or a reopening.  [tame] (TameSpec.v): the legal histories for which the
    connector is right in its usual settings. *)
From Verif Require Import Base Spec MetaModel QueueModel FlushModel IndexModel ReadModel SysModel
  SysSpec History SysCheck Examples TameSpec ReplayDataSpec SyncSpec SyncClaims.

(** ** C01 A read returns the value last written *)
(** Any number of processes, changing when the file is reopened: every collective read of a synchronised
    program returns, for each element, the value last written to it by whichever process before the
    read.  Missing: histories that are not tame. *)
Theorem C01_synchronised_partial : forall e cfg np f0 ops, tame e cfg np ops -> synchronised ops ->
  exists s outs, run e (init cfg np f0) ops = Ok (s, outs) /\ length outs = length ops /\
    forall i doff calls, nth_error ops i = Some (ORead doff calls) ->
      exists bufs, nth_error outs i = Some bufs /\
        Forall2 (fun c buf => exists d,
          nth_error (t_sets (trace_of true np (firstn i ops))) (Z.to_nat (rc_did c)) = Some d /\
          length (elems (di_esize d) buf) = length (sel_coords (rc_sels c)) /\
          forall k x, nth_error (sel_coords (rc_sels c)) k = Some x ->
            nth_error (elems (di_esize d) buf) k
              = Some (expected (program_order [] (firstn i ops)) d c k x)) calls bufs.
Proof. exact sync_reads. Qed.
Print Assumptions C01_synchronised_partial.
(** Three processes that overwrite elements of each other, two after reopening. *)
Example C01_synchronised_applies : tame e_dflt cfg_dflt 3 (h_par ++ [ORead 9000 rd_par]) /\ synchronised (h_par ++ [ORead 9000 rd_par]) /\ ~ owned (h_par ++ [ORead 9000 rd_par]).
Proof. exact sync_ex. Qed.

(** ** C60 It does not matter which process issues a write *)
(** Two synchronised programs that make the same changes in the same order, by any processes, of any
    number, with flushes, reads and reopenings anywhere, in any of the usual settings: a final
    read returns the same.  In particular a parallel program reads what a program of one process with
    the same writes reads.  Missing: histories that are not tame. *)
Theorem C60_who_writes_partial : forall e cfg np e' cfg' np' f0 f0' ops ops' doff doff' calls,
  tame e cfg np (ops ++ [ORead doff calls]) -> tame e' cfg' np' (ops' ++ [ORead doff' calls]) ->
  synchronised ops -> synchronised ops' ->
  map by_whom (filter makes_change ops) = map by_whom (filter makes_change ops') ->
  exists s s' outs outs' bufs,
    run e (init cfg np f0) (ops ++ [ORead doff calls]) = Ok (s, outs ++ [bufs]) /\
    run e' (init cfg' np' f0') (ops' ++ [ORead doff' calls]) = Ok (s', outs' ++ [bufs]).
Proof. exact sync_between. Qed.
Print Assumptions C60_who_writes_partial.
(** Three processes in the default settings and one process with a small metadata buffer. *)
Example C60_applies : tame e_dflt cfg_dflt 3 (h_par ++ [ORead 9000 rd_par]) /\ tame e_small 4 1 (h_ser ++ [ORead 100 rd_par]) /\
  synchronised h_par /\ synchronised h_ser /\ map by_whom (filter makes_change h_par) = map by_whom (filter makes_change h_ser).
Proof. exact serial_ex. Qed.
(** The synchronisation is needed: an overwrite by a process with a lower number is lost without a flush in
    between. *)
Theorem C60_unsynchronised_refuted : let rd := ORead 300 [mkrcall 0 [B [0;0] [1;2]] 0 junk] in
  tame e_dflt cfg_dflt 2 (w_race [] ++ [rd]) /\ last_assigned 0 [0;0] (program_order [] (w_race [])) = Some [20] /\
  (exists s outs, run e_dflt (init cfg_dflt 2 f_zero) (w_race [] ++ [rd]) = Ok (s, outs ++ [[[10; 11]]])) /\
  (exists s outs, run e_dflt (init cfg_dflt 2 f_zero) (w_race [OFlush 100] ++ [rd]) = Ok (s, outs ++ [[[20; 21]]])).
Proof. exact race_read. Qed.
Print Assumptions C60_unsynchronised_refuted.
