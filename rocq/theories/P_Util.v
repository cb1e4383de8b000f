(** Properties of the main programs of the utilities (C89).

    [replay_main w inp out d] (UtilModel.v): the files and the exit status after `h5lreplay -i inp -o out`; [dump_main]: exit
    status and listing of h5ldump. *)
From Coq Require Import String.
From Verif Require Import Base UtilModel UtilSpec UtilClaims.
Open Scope list_scope. Open Scope Z_scope.

(** ** C89 A utility that reports an error has changed no file *)
(** If h5lreplay returns 0, the input was a log file, all of it was copied to the output file, and no other file is changed. *)
Theorem C89_status_partial : forall w inp out d d', replay_main w inp out d = (d', 0) -> replayed_to w d d' inp out.
Proof. exact replay_status. Qed.
Print Assumptions C89_status_partial.

(** And it does return 0 for every log file that can be copied to a path that can be created. *)
Theorem C89_success_partial : forall w inp out d c, inp <> out -> d inp = Some (mkuf hdf5sig (Some (true, c))) -> w_can w out = true -> snd (w_copy w c) = true ->
  exists d', replay_main w inp out d = (d', 0) /\ replayed_to w d d' inp out.
Proof. exact replay_does. Qed.
Print Assumptions C89_success_partial.

(** With an input that is missing, not HDF5 or not a log file, h5lreplay reports the error and replaces the output file, whatever
    it contained, by an empty one; also when a file that is not HDF5 is given both as input and as output. *)
Theorem C89_output_refuted : forall w inp out d, no_log d inp -> w_can w out = true -> (inp = out -> forall f, d inp = Some f -> uf_h5 f = None) ->
  exists d', replay_main w inp out d = (d', -1) /\ d' out = Some new_file.
Proof. exact replay_destroys. Qed.
Print Assumptions C89_output_refuted.
Example C89_applies : (exists d', replay_main w_ex "log.h5" "old.h5" d_ex = (d', 0) /\ d' "old.h5"%string = Some (mkuf hdf5sig (Some (false, [5; 1])))) /\
  no_log d_ex "plain.h5" /\ no_log d_ex "notes.txt" /\ no_log d_ex "missing" /\ w_can w_ex "old.h5" = true /\ d_ex "old.h5"%string <> Some new_file.
Proof. exact util_ex. Qed.

(** If h5ldump, run by one process and without -k, returns 0, the file was a log file and all of it was listed. *)
Theorem C89_dump_status_partial : forall dump inp d l, dump_main 1 false dump inp d = (0, l) -> exists c, log_file d inp c /\ dump c = (l, true).
Proof. exact dump_status. Qed.
Print Assumptions C89_dump_status_partial.
