(** What is expected of calls that fail. *)
From Verif Require Import Base RefModel RefSpec EscModel.

(** The calls of [RefModel] in a program. *)
Fixpoint rops (os : list eop) : list rop :=
  match os with
  | [] => []
  | ECall o _ :: rest => o :: rops rest
  | _ :: rest => rops rest
  end.

(** The same program when nothing that closes the file fails. *)
Definition close_ok (op : eop) : eop := match op with ECall o _ => ECall o false | _ => op end.

(** [h] is the last identifier the program holds of the file or of anything in it, and it is not one
    of the file itself. *)
Definition last_is_object (f : fobj) (h : nat) : Prop :=
  exists o k, fo_ids f = [(h, o)] /\ In (o, k) (fo_objs f) /\ k <> KFile.

(** [h] is the last identifier, and it is one of the file. *)
Definition last_is_file (f : fobj) (h : nat) : Prop :=
  exists o, fo_ids f = [(h, o)] /\ In (o, KFile) (fo_objs f).

(** The failures that may end the program: of a dataset in H5Dread or H5Dwrite with HDF5 1.13.3 or
    later, and of closing a log based file when an object of it is closed last. *)
Definition fatal (ge1133 : bool) (f : fobj) (op : eop) : Prop :=
  match op with
  | EData els => ge1133 = true /\ In false els
  | ECall (RClose h okk) cf => cf = true /\ okk = true /\ fo_log f = true /\ last_is_object f h
  | _ => False
  end.

(** The program closes the identifiers of the file last: no object is closed when its identifier is
    the only one left. *)
Definition file_last (f : fobj) (o : rop) : Prop :=
  match o with RClose h _ => ~ last_is_object f h | _ => True end.

(** Something goes wrong in a call. *)
Definition fails (f : fobj) (op : eop) : Prop :=
  match op with
  | EData els => In false els
  | EOther okk => okk = false
  | ECall o cf =>
      (forall ob, ~ In (id_of o, ob) (fo_ids f)) \/          (* the identifier is not open *)
      match o with
      | ROpen _ _ okk => okk = false
      | RClose h okk =>
          (* the object is closed, and the underlying library fails to *)
          (okk = false /\ exists ob k, In (h, ob) (fo_ids f) /\ In (ob, k) (fo_objs f) /\ k <> KFile /\
                            forall x, In (x, ob) (fo_ids f) -> x = h) \/
          (* the file is closed, and that fails *)
          (cf = true /\ fo_log f = true /\ exists ob, fo_ids f = [(h, ob)])
      | _ => False
      end
  end.

(** The states a program gets to; the conditions are those of C30. *)
Definition state_of (log : bool) (os : list rop) (f : fobj) : Prop :=
  Zlen os < 2 ^ 31 - 2 /\ opens_succeed log os /\ file_id_open (fobj_new log) os /\
  rrun (fobj_new log) os = Ok f.

(** The conditions of C30 for one more call. *)
Definition next_call (f : fobj) (op : eop) : Prop :=
  match op with
  | ECall (RGetFile _) _ => exists x o, In (x, o) (fo_ids f) /\ In (o, KFile) (fo_objs f)
  | ECall (ROpen _ KDset false) _ => fo_log f = true
  | _ => True
  end.
