(** Specification of a dataset store, written without reference to the connector.

    A dataset is a finite array; what a user observes of a file is, for every dataset, the
    value last written at each coordinate.  Nothing in this file mentions logs, metadata,
    flushing or MPI. *)
From Verif Require Import Base.

(** A rectangular region: a start and a count per dimension. *)
Record block := mkblock { b_start : list Z; b_count : list Z }.

(** Coordinates of a region in row-major (C) order, last dimension fastest. *)
Fixpoint coords_of (s n : list Z) : list (list Z) :=
  match s, n with
  | s0 :: s', n0 :: n' =>
      flat_map (fun i => map (cons (s0 + i)) (coords_of s' n')) (zseq n0)
  | _, _ => [[]]
  end.
Definition coords (b : block) : list (list Z) := coords_of (b_start b) (b_count b).

(** A selection is a list of regions; its elements are enumerated region by region. *)
Definition sel_coords (sel : list block) : list (list Z) := flat_map coords sel.

(** Membership of a coordinate in a region. *)
Fixpoint inside (s n c : list Z) : Prop :=
  match s, n, c with
  | s0 :: s', n0 :: n', c0 :: c' => s0 <= c0 < s0 + n0 /\ inside s' n' c'
  | [], [], [] => True
  | _, _, _ => False
  end.
Definition in_block (b : block) (c : list Z) : Prop := inside (b_start b) (b_count b) c.

(** An element value is a string of bytes.  The content of a file: for each dataset id and
    coordinate, the value if one has been written. *)
Notation value := (list Z) (only parsing).
Definition store := Z -> list Z -> option value.
Definition empty_store : store := fun _ _ => None.

Definition coord_eqb (a b : list Z) : bool :=
  if list_eq_dec Z.eq_dec a b then true else false.

Definition set_elem (st : store) (did : Z) (c : list Z) (v : value) : store :=
  fun d c' => if (d =? did) && coord_eqb c c' then Some v else st d c'.

(** Writing [vals] to the elements of a selection, in order; a later assignment to the same
    element wins. *)
Definition write_elems (st : store) (did : Z) (cvs : list (list Z * value)) : store :=
  fold_left (fun s cv => set_elem s did (fst cv) (snd cv)) cvs st.
Definition spec_write (st : store) (did : Z) (sel : list block) (vals : list value) : store :=
  write_elems st did (combine (sel_coords sel) vals).

(** Reading a selection: the stored value, or the default given for that position. *)
Definition spec_read (st : store) (did : Z) (sel : list block) (dflt : list value) : list value :=
  map (fun cd => match st did (fst cd) with Some v => v | None => snd cd end)
      (combine (sel_coords sel) dflt).

(** Cut a byte string in elements of [n] bytes. *)
Fixpoint chunk (fuel : nat) (n : nat) (l : list Z) : list value :=
  match fuel with
  | O => []
  | S f => match l with [] => [] | _ => firstn n l :: chunk f n (skipn n l) end
  end.
Definition elems (esize : Z) (l : list Z) : list value :=
  chunk (length l) (Z.to_nat esize) l.

Definition disjoint_blocks (a b : block) : Prop :=
  forall c, in_block a c -> in_block b c -> False.
