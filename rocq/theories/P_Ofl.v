(** C85 Flushing a dataset (H5Dflush) or any object (H5Oflush) writes what was written to it.

    [frun] (OflModel.v): the calls of a program and flushes of objects ([FObj]); [without cs] (OflSpec.v): the other
    calls; [spread cs l]: the results [l] of the other calls, and nothing for each flush of an object. *)
From Verif Require Import Base Spec MetaModel QueueModel FlushModel IndexModel ReadModel SysModel
  SysSpec History SysCheck Examples DefSpec AnySpec TameSpec RealModel RealSpec RealClaims RealClaims2 OflModel OflSpec OflProofs.

(** One process: a read after a flush gives what was written before it. *)
Theorem C85_one_process_partial : forall e cfg f0 cs, tame (with_coll e true) cfg 1 (without cs) -> Forall one_process (without cs) ->
  exists s outs, frun e (init cfg 1 f0) cs = Ok (s, outs) /\ length outs = length cs /\
    forall i doff calls, nth_error cs i = Some (FOp (ORead doff calls)) ->
      exists bufs, nth_error outs i = Some bufs /\
        Forall2 (fun c buf => exists d,
          nth_error (t_sets (trace_of true 1 (without (firstn i cs)))) (Z.to_nat (rc_did c)) = Some d /\
          length (elems (di_esize d) buf) = length (sel_coords (rc_sels c)) /\
          forall k x, nth_error (sel_coords (rc_sels c)) k = Some x ->
            nth_error (elems (di_esize d) buf) k
              = Some (expected (program_order [] (without (firstn i cs))) d c k x)) calls bufs.
Proof. exact one_flushes. Qed.
Print Assumptions C85_one_process_partial.
Example C85_one_process_applies : tame (with_coll e_ind true) cfg_dflt 1 (without ofl_one) /\ Forall one_process (without ofl_one) /\
  exists s outs, frun e_ind (init cfg_dflt 1 f_zero) ofl_one = Ok (s, outs) /\ last outs [] = [[5;6;7;8]].
Proof. exact ofl_one_ok. Qed.

(** The file, the pending writes and every later result are those of the program that never flushes an object:
    nothing that is pending is written, whatever the number of processes. *)
Theorem C85_writes_refuted : forall e s cs s' outs, frun e s cs = Ok (s', outs) ->
  exists l, run_real e s (without cs) = Ok (s', l) /\ outs = spread cs l.
Proof. exact nothing_written. Qed.
Print Assumptions C85_writes_refuted.

(** Several processes: whatever is written and flushed object by object after a read (or after opening), the next
    read gives what it would give without those writes. *)
Theorem C85_seen_refuted : forall e cfg np f0 pre ws doff calls s outs, at_rest pre -> Forall write_or_flush ws -> opened_by np pre <> 1%nat ->
  frun e (init cfg np f0) (map FOp pre ++ ws ++ [FOp (ORead doff calls)]) = Ok (s, outs) ->
  exists s', frun e (init cfg np f0) (map FOp (pre ++ [ORead doff calls])) = Ok (s', firstn (length pre) outs ++ [last outs []]).
Proof. exact unseen. Qed.
Print Assumptions C85_seen_refuted.
(** Two processes: written, flushed, read: the old value; with H5Fflush instead of H5Dflush: the new one. *)
Example C85_seen_applies : at_rest w_unseen /\ opened_by 2 w_unseen <> 1%nat /\
  (exists s outs, frun e_ind (init cfg_dflt 2 f_zero) (map FOp w_unseen ++ [FOp ofl_w; FObj] ++ [FOp ofl_rd]) = Ok (s, outs) /\ last outs [] = [[1;2;3;4]]) /\
  (exists s outs, run_real e_ind (init cfg_dflt 2 f_zero) (map (file_flush 1500) (map FOp w_unseen ++ [FOp ofl_w; FObj] ++ [FOp ofl_rd])) = Ok (s, outs) /\ last outs [] = [[5;6;7;8]]).
Proof. exact ofl_ex. Qed.
