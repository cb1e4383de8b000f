(** Vocabulary for pass-through reads. *)
From Verif Require Import Base Spec MetaModel IndexModel ReadModel PendSpec PassModel.

(** The log datasets of a file one after the other in the file, none empty. *)
Fixpoint laid_out (lds : list ldset) : Prop :=
  match lds with
  | [] => True
  | d :: rest => 0 < snd d /\ Forall (fun d' => fst d + snd d <= fst d') rest /\ laid_out rest
  end.

(** The logged block a piece belongs to lies in one log dataset. *)
Definition stored_in (lds : list ldset) (s : sret) : Prop :=
  exists d, In d lds /\ fst d <= block_from s /\ block_to s <= fst d + snd d.

(** The piece lies inside the buffer it is read to. *)
Definition fits_buffer (s : sret) : Prop :=
  Forall2 (fun n p => 0 <= fst p /\ 0 < snd p /\ fst p + snd p <= n)
          (sr_msize s) (combine (sr_mstart s) (sr_count s)).

(** At most the first and the last dimension of the piece are larger than one: pieces of one and
    two dimensions always are. *)
Definition thin (counts : list Z) : Prop :=
  Forall (fun c => c = 1) (tl (removelast counts)).

(** Bytes of a box of [counts] elements at [starts] in an array of [sizes] elements whose first
    byte is [base]: byte k of the element at row-major position p is base + p * esize + k. *)
Definition box_bytes (base esize : Z) (starts sizes counts : list Z) : list Z :=
  flat_map (fun c => map (fun k => base + esize * sel_encode (dsteps_of sizes) c + k) (zseq esize))
           (coords_of starts counts).
