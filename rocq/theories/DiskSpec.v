(** What is expected of H5Fcreate, H5Fdelete and H5Fis_accessible: a file is one thing, however many
    files on the disk it is made of. *)
From Coq Require Import Ascii String.
From Verif Require Import Base SubModel DiskModel.
Open Scope list_scope. Open Scope nat_scope.

(** The files of the user, with the number of subfiles of each. *)
Definition files := string -> option nat.
Definition set_file (F : files) (name : string) (v : option nat) : files :=
  fun p => if String.eqb name p then v else F p.

(** The calls: exclusive creation needs a new name, creation replaces the file, deletion removes it. *)
Definition want (F : files) (c : dcall) : files * bool :=
  match c with
  | DCreate excl name n =>
      match F name with
      | Some _ => if excl then (F, false) else (set_file F name (Some n), true)
      | None => (set_file F name (Some n), true)
      end
  | DDelete name => match F name with Some _ => (set_file F name None, true) | None => (F, false) end
  | DAccessible name => (F, match F name with Some _ => true | None => false end)
  end.
Fixpoint wants (F : files) (cs : list dcall) : files * list bool :=
  match cs with
  | [] => (F, [])
  | c :: rest => let p := want F c in let q := wants (fst p) rest in (fst q, snd p :: snd q)
  end.

(** The paths that a file of the user is made of, and the disk that holds the files and nothing else. *)
Definition parts (name : string) (n : nat) : list string := name :: map (create_path name) (seq 0 n).
Definition holds (d : disk) (F : files) : Prop :=
  forall p, In p d <-> exists name n, F name = Some n /\ In p (parts name n).

(** Calls without subfiles. *)
Definition no_subfiles (c : dcall) : Prop := match c with DCreate _ _ n => n = 0 | _ => True end.
Definition whole (F : files) : Prop := forall name n, F name = Some n -> n = 0.
