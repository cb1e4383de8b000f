(** C81 A call that fails returns an error and the program goes on (EscModel.v, EscSpec.v). *)
From Verif Require Import Base RefModel RefSpec EscModel EscSpec EscClaims.

(** In every state a program gets to, a call returns success exactly when nothing in it fails, and
    ends the program exactly when the failure is one of [fatal]. *)
Theorem C81_exactly_these_partial : forall ge1133 log os f op, state_of log os f -> next_call f op ->
  exists g a, estep ge1133 f op = Ok (g, a) /\ (a = Terminated <-> fatal ge1133 f op) /\
              (a = Returned true <-> ~ fails f op).
Proof. exact fails_exact. Qed.
Print Assumptions C81_exactly_these_partial.

(** Whatever fails, no program is ended that closes the identifiers of the file after those of its
    objects and runs with HDF5 before 1.13.3, or whose reads and writes of datasets all succeed. *)
Theorem C81_program_goes_on_partial : forall ge1133 log os, Zlen (rops os) < 2 ^ 31 - 1 ->
  opens_succeed log (rops os) -> file_id_open (fobj_new log) (rops os) ->
  (ge1133 = false \/ Forall (fun op => match op with EData els => ~ In false els | _ => True end) os) ->
  (forall pre o post f, rops os = pre ++ o :: post -> rrun (fobj_new log) pre = Ok f -> file_last f o) ->
  exists f answers, erun ge1133 (fobj_new log) os = Ok (f, answers) /\ ~ In Terminated answers.
Proof. exact survives. Qed.
Print Assumptions C81_program_goes_on_partial.
Example C81_program_goes_on_example : Zlen (rops ex_prog) < 2 ^ 31 - 1 /\ opens_succeed true (rops ex_prog) /\
  file_id_open (fobj_new true) (rops ex_prog) /\
  (forall pre o post f, rops ex_prog = pre ++ o :: post -> rrun (fobj_new true) pre = Ok f -> file_last f o).
Proof. exact ex_prog_hyps. Qed.
Example C81_program_goes_on_answers : erun false (fobj_new true) ex_prog =
  Ok (failed_close (mkfobj 1 true [(0%nat, KFile)] [(0, 0)%nat] 2 0),
      map Returned [true; false; false; false; false; true; false; false]).
Proof. exact ex_prog_run. Qed.

(** With HDF5 1.13.3 or later every H5Dread and H5Dwrite that fails ends the program. *)
Theorem C81_data_refuted : forall f els, In false els -> estep true f (EData els) = Ok (f, Terminated).
Proof. exact data_dead. Qed.
Print Assumptions C81_data_refuted.

(** When the last identifier of a file is one of an object, and closing the file fails, closing the
    object ends the program, for every history. *)
Theorem C81_object_last_refuted : forall ge1133 os f h, state_of true os f -> last_is_object f h ->
  exists g, estep ge1133 f (ECall (RClose h true) true) = Ok (g, Terminated).
Proof. exact object_last_dead. Qed.
Print Assumptions C81_object_last_refuted.
Example C81_object_last_example : exists f, state_of true [ROpen 0 KDset true; RClose 0 true] f /\ last_is_object f 1.
Proof. exact ex_last. Qed.

(** After an H5Fclose that failed the program goes on, but it can never open the file again: in every
    program, whatever it does before and after, including another H5Fclose. *)
Theorem C81_open_again_refuted : forall fs os p os', fs p <> None ->
  let s := xrun fs (otable0, []) os in
  ot_search fs (fst s) p = None ->
  let id := ot_next (fst s) in
  (exists t, ot_openf fs (fst s) p = Ok (id, t)) /\
  ot_openf fs (fst (xrun fs s (XOpen p :: XClose id true :: os'))) p = Err.
Proof. exact never_again. Qed.
Print Assumptions C81_open_again_refuted.
Example C81_open_again_example :
  let fs := fun p => if p =? 9 then None else Some (1, p mod 5) in
  ot_search fs (fst (xrun fs (otable0, []) [XOpen 1; XOpen 2; XClose 0 false])) 1 = None /\ fs 1 <> None /\
  (exists r, ot_openf fs (fst (xrun fs (otable0, []) [XOpen 1; XOpen 2; XClose 0 false])) 6 = Ok r) /\
  ot_openf fs (fst (xrun fs (otable0, []) [XOpen 1; XOpen 2; XClose 0 true; XClose 1 false; XClose 0 false])) 6 = Err /\
  (exists r, ot_openf fs (fst (xrun fs (otable0, []) [XOpen 1; XOpen 2; XClose 0 true; XClose 1 false])) 2 = Ok r).
Proof. exact ex_again. Qed.
