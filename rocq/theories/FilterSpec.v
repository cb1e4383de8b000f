(** Compressors, independently of the pipeline. *)
From Verif Require Import Base.

(** [dec] undoes [comp]. *)
Definition lossless (comp : list Z -> list Z) (dec : list Z -> option (list Z)) : Prop :=
  forall x, dec (comp x) = Some x.

(** Every zlib stream of the default level starts with the bytes 0x78 0x9c (RFC 1950). *)
Definition zlib_header (x : list Z) : Prop := exists rest, x = 120 :: 156 :: rest.

(** Undoing [n] compressions. *)
Fixpoint decode_times (dec : list Z -> option (list Z)) (n : nat) (x : list Z) : option (list Z) :=
  match n with
  | O => Some x
  | S m => match dec x with Some y => decode_times dec m y | None => None end
  end.
