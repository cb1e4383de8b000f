(** What is expected of the life time of files. *)
From Verif Require Import Base RefModel.

(** The program holds no identifier of the file or of any object in it. *)
Definition all_closed (f : fobj) : Prop := fo_ids f = [].

(** How often the underlying file must have been closed by now. *)
Definition expected_closes (f : fobj) : nat := match fo_ids f with [] => 1 | _ => 0 end.

(** Whenever H5Iget_file_id is called, some identifier of the file itself is open. *)
Definition file_id_open (f0 : fobj) (os : list rop) : Prop :=
  forall pre h post f, os = pre ++ RGetFile h :: post -> rrun f0 pre = Ok f ->
    exists x o, In (x, o) (fo_ids f) /\ In (o, KFile) (fo_objs f).

(** The file is log based, or no H5Dopen fails. *)
Definition opens_succeed (log : bool) (os : list rop) : Prop :=
  log = true \/ Forall (fun o => match o with ROpen _ KDset false => False | _ => True end) os.

(** * Open files *)

(** Two paths name the same file. *)
Definition same_file (fs : fsview) (p : Z) (who : option (Z * Z)) : Prop :=
  fs p <> None /\ fs p = who.

(** The open files, by identity on disk. *)
Definition is_open (fs : fsview) (t : otable) (p : Z) : Prop :=
  exists id who, In (id, who) (ot_open t) /\ same_file fs p who.

(** All files that can be reached are on one file system. *)
Definition one_device (fs : fsview) : Prop :=
  forall p q d1 i1 d2 i2, fs p = Some (d1, i1) -> fs q = Some (d2, i2) -> d1 = d2.
