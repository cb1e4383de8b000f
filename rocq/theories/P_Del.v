(** C86 Deleting a dataset leaves the data of the others alone.

    [drun] (DelModel.v): the calls of a program and deletions of datasets ([DDelete]); [kept cs] (DelSpec.v): the program
    without the deletions; [answers cs l]: the results [l] of the other calls, and nothing for each deletion;
    [uses_live]: a deleted dataset is not used any more. *)
From Verif Require Import Base Spec MetaModel QueueModel FlushModel IndexModel ReadModel SysModel
  SysSpec History SysCheck Examples DefSpec TameSpec SyncSpec SyncClaims DelModel DelSpec DelClaims DelProofs.

(** Entries not shared (without H5VL_LOG_METADATA_SHARE): every other call does what it does in the program that deletes nothing. *)
Theorem C86_others_partial : forall e cfg np f0 cs s outs, has cfg CFG_METADATA_SHARE = false -> uses_live 0 [] cs ->
  run e (init cfg np f0) (kept cs) = Ok (s, outs) ->
  exists s', drun e (dinit cfg np f0) cs = Ok (s', answers cs outs).
Proof. exact others_kept. Qed.
Print Assumptions C86_others_partial.

(** ... and every read of the datasets that remain, and of those created later, gives the last values written. *)
Theorem C86_values_partial : forall e cfg np f0 cs, has cfg CFG_METADATA_SHARE = false -> uses_live 0 [] cs ->
  tame e cfg np (kept cs) -> synchronised (kept cs) ->
  exists s outs, drun e (dinit cfg np f0) cs = Ok (s, outs) /\ length outs = length cs /\
    forall i doff calls, nth_error cs i = Some (DOp (ORead doff calls)) ->
      exists bufs, nth_error outs i = Some bufs /\
        Forall2 (fun c buf => exists d,
          nth_error (t_sets (trace_of true np (kept (firstn i cs)))) (Z.to_nat (rc_did c)) = Some d /\
          length (elems (di_esize d) buf) = length (sel_coords (rc_sels c)) /\
          forall k x, nth_error (sel_coords (rc_sels c)) k = Some x ->
            nth_error (elems (di_esize d) buf) k
              = Some (expected (program_order [] (kept (firstn i cs))) d c k x)) calls bufs.
Proof. exact deleted_values. Qed.
Print Assumptions C86_values_partial.
Example C86_values_applies : has 2 CFG_METADATA_SHARE = false /\ uses_live 0 [] del_prog /\ tame e_dflt 2 3 (kept del_prog) /\ synchronised (kept del_prog) /\
  exists s outs, drun e_dflt (dinit 2 3 f_zero) del_prog = Ok (s, outs) /\ last outs [] = [[40;41;42;43]; [90;91;92;93;9;9]].
Proof. exact del_prog_ok. Qed.

(** Any settings: until the file is closed and opened again. *)
Theorem C86_until_closed_partial : forall e cfg np f0 cs s outs, not_reopened false cs -> uses_live 0 [] cs ->
  run e (init cfg np f0) (kept cs) = Ok (s, outs) ->
  exists s', drun e (dinit cfg np f0) cs = Ok (s', answers cs outs) /\ d_sys s' = s.
Proof. exact until_closed. Qed.
Print Assumptions C86_until_closed_partial.
Example C86_until_closed_applies : not_reopened false del_open /\ uses_live 0 [] del_open /\
  exists s outs, run e_dflt (init cfg_dflt 3 f_zero) (kept del_open) = Ok (s, outs) /\ last outs [] = [[60;61;62;63]; [90;91;92;93;9;9]].
Proof. exact del_open_ok. Qed.

(** The default settings: datasets 0 and 1 have the same elements written, 0 is deleted, the file is opened again.  Reading
    dataset 1 has undefined behaviour with either index; with the array index so has reading dataset 2.  Without the
    deletion the read returns what was written. *)
Theorem C86_shared_refuted :
  tame e_dflt cfg_dflt 1 (kept (del_shared 1)) /\ Forall one_process (kept (del_shared 1)) /\ uses_live 0 [] (del_shared 1) /\ uses_live 0 [] (del_shared 2) /\
  (exists s outs, run e_dflt (init cfg_dflt 1 f_zero) (kept (del_shared 1)) = Ok (s, outs) /\ last outs [] = [[5;6;7;8]]) /\
  drun e_dflt (dinit cfg_dflt 1 f_zero) (del_shared 1) = UB /\ drun e_arr (dinit cfg_dflt 1 f_zero) (del_shared 1) = UB /\
  drun e_arr (dinit cfg_dflt 1 f_zero) (del_shared 2) = UB.
Proof. exact del_shared_bad. Qed.
Print Assumptions C86_shared_refuted.
