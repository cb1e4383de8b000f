(** Vocabulary for statements about crashes. *)
From Verif Require Import Base Spec MetaModel SysModel CrashModel.

(** The changes made to the disk by a sequence of calls, in order, until one of them fails. *)
Fixpoint issued (e : env) (s : sys) (ops : list op) : list effect :=
  match ops with
  | [] => []
  | o :: rest => effects e s o ++ match step e s o with Ok (s', _) => issued e s' rest | _ => [] end
  end.

(** The attribute that says what the file contains; written by H5Fclose. *)
Definition writes_att (x : effect) : bool := match x with XAtt _ => true | _ => false end.
(** Creation of a dataset. *)
Definition creates (o : op) : bool := match o with OCreate _ => true | _ => false end.
Definition closes (o : op) : bool := match o with OReopen _ _ => true | _ => false end.
(** A write that selects something. *)
Definition puts (o : op) : bool := match o with OWrite _ _ (_ :: _) _ => true | _ => false end.
(** The change neither creates an object of the underlying file nor says what the file contains. *)
Definition keeps_objects (x : effect) : bool := match x with XDims _ _ | XData _ _ => true | _ => false end.

(** The file left on the disk is opened by [np] processes and read. *)
Definition read_after_crash (e : env) (np : nat) (dk : disk) (doff : Z) (calls : list rcall) : res (list (list Z)) :=
  do s <- recover np dk; do p <- step e s (ORead doff calls); Ok (snd p).

(** Of a sequence of calls whose first [k] changes are on the disk: the number of calls up to the last
    H5Fclose that is complete (0: none is). *)
Fixpoint kept (e : env) (s : sys) (ops : list op) (k : nat) : nat :=
  match ops with
  | [] => 0
  | o :: rest =>
      let n := length (effects e s o) in
      if (n <=? k)%nat then
        match step e s o with
        | Ok (s', _) =>
            match kept e s' rest (k - n) with
            | O => if closes o then 1 else 0
            | S j => S (S j)
            end
        | _ => 0
        end
      else 0
  end%nat.

(** A crash: after [pre], of the changes made by [post] those chosen by [survive] are on the disk. *)
Definition after_crash (e : env) (cfg : Z) (np : nat) (f0 : bytemap) (pre post : list op) (survive : list effect -> list effect) : res disk :=
  do c <- crun e (init cfg np f0, disk0 cfg f0) pre;
  apply_all (snd (fst c)) (survive (issued e (fst (fst c)) post)).
