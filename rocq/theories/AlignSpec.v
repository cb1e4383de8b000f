(** Vocabulary for the stripe-aligned write path. *)
From Verif Require Import Base AlignModel.

(** Writes (position, bytes) at increasing positions, none touching another. *)
Fixpoint one_after_other (ws : list (Z * list Z)) : Prop :=
  match ws with
  | [] => True
  | w :: rest => Forall (fun w' => fst w + Zlen (snd w) <= fst w') rest /\ one_after_other rest
  end.

(** The file after these writes. *)
Definition after_writes (f : bytemap) (ws : list (Z * list Z)) : bytemap :=
  fold_left (fun f w => put f (fst w) (snd w)) ws f.
