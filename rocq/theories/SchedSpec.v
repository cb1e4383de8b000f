(** Bytes arriving at a file, one after the other. *)
From Verif Require Import Base.
From Coq Require Import Permutation.

Definition arrive (f : bytemap) (l : list (Z * Z)) : bytemap :=
  fold_left (fun f w => fun x => if x =? fst w then snd w else f x) l f.

(** [l] is a possible order of arrival of what the processes write. *)
Definition arrival (procs : list (list (Z * Z))) (l : list (Z * Z)) : Prop := Permutation l (concat procs).
