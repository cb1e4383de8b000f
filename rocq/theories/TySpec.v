(** Values of datatypes, and what is expected of types with parts of variable length. *)
From Verif Require Import Base Spec MetaModel QueueModel FlushModel IndexModel ReadModel SysModel SysSpec TyModel.

(** A value as the program understands it. *)
Inductive val := VBytes (b : list Z) | VSeq (l : list val) | VPair (a b : val).

(** A number in 8 bytes, least significant first. *)
Definition word (b : list Z) : Z := fold_right (fun x a => x + 256 * a) 0 (firstn 8 b).

(** The value of an element [b] of type [t], in a program with heap [h]. *)
Fixpoint value (t : ty) (h : heap) (b : list Z) : val :=
  match t with
  | TFix n => VBytes (firstn n b)
  | TVstr => VBytes (h (word b))
  | TVlen t => VSeq (map (fun i => value t h (skipn (i * tsize t) (h (word (skipn 8 b)))))
                         (seq 0 (Z.to_nat (word b))))
  | TArr n t => VSeq (map (fun i => value t h (skipn (i * tsize t) b)) (seq 0 n))
  | TPair a c => VPair (value a h b) (value c h (skipn (tsize a) b))
  end.

(** A type without parts of variable length. *)
Fixpoint fixed (t : ty) : Prop :=
  match t with
  | TFix _ => True
  | TVstr => False
  | TVlen _ => False
  | TArr _ t => fixed t
  | TPair a b => fixed a /\ fixed b
  end.

(** HDF5 has no types of size 0. *)
Fixpoint proper (t : ty) : Prop :=
  match t with
  | TFix n => (0 < n)%nat
  | TVstr => True
  | TVlen t => proper t
  | TArr n t => (0 < n)%nat /\ proper t
  | TPair a b => proper a /\ proper b
  end.

(** The connector accepts the type in H5Dcreate. *)
Definition accepts (t : ty) : Prop := forall e s dims mdims fill,
  tstep e s (TCreate t dims mdims fill) = step e s (OCreate (mkdinfo (Z.of_nat (tsize t)) dims mdims [] fill)).
(** It refuses it. *)
Definition refuses (t : ty) : Prop := forall e s dims mdims fill, tstep e s (TCreate t dims mdims fill) = Err.

(** The calls without types and heaps. *)
Definition bytes_of (c : tcall) : op :=
  match c with
  | TCreate t dims mdims fill => OCreate (mkdinfo (Z.of_nat (tsize t)) dims mdims [] fill)
  | TWrite rk did sels buf _ => OWrite rk did sels buf
  | TOp o => o
  end.
Definition fixed_types (cs : list tcall) : Prop :=
  Forall (fun c => match c with TCreate t _ _ _ => fixed t | _ => True end) cs.
