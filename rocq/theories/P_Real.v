(** C75 A blocking read flushes and sees every write made before it.

    [run_real] (RealModel.v): the calls of a program, where a blocking read flushes pending writes exactly
    when one process has opened the file, as in the code.  [settled np false ops] (RealSpec.v): every read of
    [ops] is made by the only process, or after every write before it was followed by H5Fflush or H5Fclose. *)
From Verif Require Import Base Spec MetaModel QueueModel FlushModel IndexModel ReadModel SysModel
  SysSpec History SysCheck Examples DefSpec AnySpec TameSpec RealModel RealSpec RealClaims RealClaims2.

(** One process: every read flushes first. *)
Theorem C75_one_process_partial : forall e cfg f0 ops, tame (with_coll e true) cfg 1 ops -> Forall one_process ops ->
  exists s outs, run_real e (init cfg 1 f0) ops = Ok (s, outs) /\ length outs = length ops /\
    forall i doff calls, nth_error ops i = Some (ORead doff calls) ->
      exists bufs, nth_error outs i = Some bufs /\
        Forall2 (fun c buf => exists d,
          nth_error (t_sets (trace_of true 1 (firstn i ops))) (Z.to_nat (rc_did c)) = Some d /\
          length (elems (di_esize d) buf) = length (sel_coords (rc_sels c)) /\
          forall k x, nth_error (sel_coords (rc_sels c)) k = Some x ->
            nth_error (elems (di_esize d) buf) k
              = Some (expected (program_order [] (firstn i ops)) d c k x)) calls bufs.
Proof. exact real_one. Qed.
Print Assumptions C75_one_process_partial.

(** Any number of processes that flush between their writes and their reads. *)
Theorem C75_settled_partial : forall e cfg np f0 ops, tame (with_coll e true) cfg np ops -> settled np false ops = true ->
  exists s outs, run_real e (init cfg np f0) ops = Ok (s, outs) /\ length outs = length ops /\
    forall i doff calls, nth_error ops i = Some (ORead doff calls) ->
      exists bufs, nth_error outs i = Some bufs /\
        let t := trace_of true np (firstn i ops) in
        Forall2 (correct_read (mktr (t_sets t) (t_pub t ++ concat (t_pend t)) [])) calls bufs.
Proof. exact real_reads. Qed.
Print Assumptions C75_settled_partial.
Example C75_tame_applies : tame (with_coll e_ind true) cfg_dflt 2 h_settled /\ settled 2 false h_settled = true /\
  tame (with_coll e_ind true) cfg_dflt 1 h_one /\ Forall one_process h_one.
Proof. exact real_tame_ex. Qed.

(** On such histories the theorems about [run] with reads that flush (e_coll = true) are theorems about
    the program: the two runs are equal, legal or not. *)
Theorem C75_same_as_flushing : forall e cfg np f0 ops, Forall with_data ops -> settled np false ops = true ->
  run_real e (init cfg np f0) ops = run (with_coll e true) (init cfg np f0) ops.
Proof. exact real_settled. Qed.
Print Assumptions C75_same_as_flushing.
Theorem C75_same_as_flushing_alone : forall e cfg f0 ops, Forall with_data ops -> Forall one_process ops ->
  run_real e (init cfg 1 f0) ops = run (with_coll e true) (init cfg 1 f0) ops.
Proof. exact real_alone. Qed.
Print Assumptions C75_same_as_flushing_alone.
Example C75_applies : Forall with_data h_settled /\ settled 2 false h_settled = true /\ settled 2 false h_full = false /\
  exists s outs, run_real e_ind (init cfg_dflt 2 f_zero) h_settled = Ok (s, outs) /\ nth 11 outs [] <> nth 16 outs [].
Proof. exact real_settled_ex. Qed.
(** C34 for the program: what a read gives is what it gives after closing and reopening. *)
Theorem C34_reopen_settled : forall e cfg np np' f0 ops doff doff2 calls, Forall with_data ops -> settled np false (ops ++ [ORead doff calls]) = true ->
  last_read (run_real e (init cfg np f0) (ops ++ [OReopen doff np'; ORead doff2 calls])) =
  last_read (run_real e (init cfg np f0) (ops ++ [ORead doff calls])).
Proof. exact real_reopen. Qed.
Print Assumptions C34_reopen_settled.

(** Several processes: no read flushes.  Whatever is written after a read (or after opening), the next read
    gives what it would give without those writes. *)
Theorem C75_read_flushes_refuted : forall e cfg np f0 pre ws doff calls s outs, at_rest pre -> Forall is_write ws -> opened_by np pre <> 1%nat ->
  run_real e (init cfg np f0) (pre ++ ws ++ [ORead doff calls]) = Ok (s, outs) ->
  exists s', run_real e (init cfg np f0) (pre ++ [ORead doff calls]) = Ok (s', firstn (length pre) outs ++ [last outs []]).
Proof. exact read_unseen. Qed.
Print Assumptions C75_read_flushes_refuted.
Example C75_unseen : let w := OWrite 1 0 [B [0;0] [1;2]] [5;6;7;8] in let rd := ORead 2000 [mkrcall 0 [B [0;0] [1;2]] 0 junk] in
  at_rest w_unseen /\ opened_by 2 w_unseen <> 1%nat /\
  (exists s outs, run_real e_ind (init cfg_dflt 2 f_zero) (w_unseen ++ [w] ++ [rd]) = Ok (s, outs) /\ last outs [] = [[1;2;3;4]]) /\
  (exists s outs, run_real e_ind (init cfg_dflt 2 f_zero) (w_unseen ++ [w] ++ [OFlush 1500; rd]) = Ok (s, outs) /\ last outs [] = [[5;6;7;8]]) /\
  (exists s outs, run_real e_ind (init cfg_dflt 1 f_zero) (w_unseen ++ [OWrite 0 0 [B [0;0] [1;2]] [5;6;7;8]] ++ [rd]) = Ok (s, outs) /\ last outs [] = [[5;6;7;8]]).
Proof. exact real_unseen_ex. Qed.

(** Several processes, a flushed write, then writes, then a read: the data of those writes is gone for good.
    Whatever the program does afterwards (flushing, reading, closing, reopening), everything is the same as if
    they had carried other data. *)
Theorem C75_read_loses_writes_refuted : forall e cfg np f0 pre rk did b sels data d ws ws' doff calls rest, Forall with_data pre -> data <> [] ->
  opened_by np pre <> 1%nat -> Forall2 same_write ws ws' ->
  run_real e (init cfg np f0) (pre ++ OWrite rk did (b :: sels) data :: OFlush d :: ws ++ ORead doff calls :: rest) =
  run_real e (init cfg np f0) (pre ++ OWrite rk did (b :: sels) data :: OFlush d :: ws' ++ ORead doff calls :: rest).
Proof. exact read_destroys. Qed.
Print Assumptions C75_read_loses_writes_refuted.
Example C75_lost : let pre := [OCreate dA; OWrite 0 0 [B [0;0] [1;2]] [1;2;3;4]; OFlush 100] in
  let rd d := ORead d [mkrcall 0 [B [0;0] [1;2]] 0 junk] in let w v := OWrite 1 0 [B [0;0] [1;2]] v in
  legal_history false 2 (pre ++ [w [5;6;7;8]; rd 1000; OFlush 2000; OReopen 3000 1; rd 4000]) /\
  (exists s outs, run_real e_ind (init cfg_dflt 2 f_zero) (pre ++ [w [5;6;7;8]; rd 1000; OFlush 2000; OReopen 3000 1; rd 4000]) = Ok (s, outs) /\
     last outs [] <> [[5;6;7;8]] /\
     exists s', run_real e_ind (init cfg_dflt 2 f_zero) (pre ++ [w [9;9;9;9]; rd 1000; OFlush 2000; OReopen 3000 1; rd 4000]) = Ok (s', outs)).
Proof. exact real_lost_ex. Qed.
