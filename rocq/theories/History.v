(** What a history means to a user, element by element.  This file uses only the list of API
    calls ([SysModel.op]) and the vocabulary of [Spec]; nothing of the connector. *)
From Verif Require Import Base Spec MetaModel SysModel.

(** "Element [c] of dataset [did] is given value [v]." *)
Definition assignment := (Z * list Z * value)%type.

(** The value given last to an element by a sequence of assignments. *)
Fixpoint last_assigned (did : Z) (c : list Z) (l : list assignment) : option value :=
  match l with
  | [] => None
  | (did', c', v) :: rest =>
      match last_assigned did c rest with
      | Some w => Some w
      | None => if (did' =? did) && coord_eqb c' c then Some v else None
      end
  end.

(** The assignments of one write call, for elements of [esize] bytes: the blocks in order, the
    elements of each block in row-major order, paired with the consecutive elements of the
    buffer. *)
Definition assigns_of (esize did : Z) (sels : list block) (data : list Z) : list assignment :=
  map (fun cv => (did, fst cv, snd cv)) (combine (sel_coords sels) (elems esize data)).

(** Datasets existing, assignments published so far (in order), and assignments issued by each
    process and not published. *)
Record trace := mktr { t_sets : list dinfo; t_pub : list assignment; t_pend : list (list assignment) }.

Definition esize_at (sets : list dinfo) (did : Z) : Z :=
  match nth_error sets (Z.to_nat did) with Some d => di_esize d | None => 0 end.

(** A collective flush publishes the assignments of process 0, then those of process 1, ...,
    each in program order. *)
Definition publish (t : trace) : list assignment := t_pub t ++ concat (t_pend t).

(** [coll]: reads are preceded by a flush. *)
Definition tstep (coll : bool) (t : trace) (o : op) : trace :=
  match o with
  | OCreate d => mktr (t_sets t ++ [d]) (t_pub t) (t_pend t)
  | OSetExtent did dims =>
      mktr (match nth_error (t_sets t) (Z.to_nat did) with
            | Some d => upd_nth (Z.to_nat did)
                          (mkdinfo (di_esize d) dims (di_mdims d) (di_dsteps d) (di_fill d)) (t_sets t)
            | None => t_sets t
            end) (t_pub t) (t_pend t)
  | OWrite rk did sels data =>
      mktr (t_sets t) (t_pub t)
           (upd_nth rk (nth rk (t_pend t) [] ++ assigns_of (esize_at (t_sets t) did) did sels data)
                    (t_pend t))
  | OFlush _ => mktr (t_sets t) (publish t) (map (fun _ => []) (t_pend t))
  | ORead _ _ => if coll then mktr (t_sets t) (publish t) (map (fun _ => []) (t_pend t)) else t
  | OReopen _ np => mktr (t_sets t) (publish t) (repeat [] np)
  end.
Definition trace_of (coll : bool) (np : nat) (ops : list op) : trace :=
  fold_left (tstep coll) ops (mktr [] [] (repeat [] np)).

(** Element [k] of the buffer returned by a read [c] of a dataset described by [d], when it is
    the element at coordinate [x] and [pub] has been published: the last value given to it;
    otherwise the fill value; otherwise what the buffer contained. *)
Definition expected (pub : list assignment) (d : dinfo) (c : rcall) (k : nat) (x : list Z) : value :=
  match last_assigned (rc_did c) x pub with
  | Some v => v
  | None =>
      match di_fill d with
      | Some f => f
      | None => get (rc_mem c) (rc_buf c + di_esize d * Z.of_nat k) (Z.to_nat (di_esize d))
      end
  end.

(** [buf] is a correct result of read [c]: it has one element per selected coordinate, each the
    expected one. *)
Definition correct_read (t : trace) (c : rcall) (buf : list Z) : Prop :=
  exists d, nth_error (t_sets t) (Z.to_nat (rc_did c)) = Some d /\
    length (elems (di_esize d) buf) = length (sel_coords (rc_sels c)) /\
    Zlen buf = di_esize d * Zlen (sel_coords (rc_sels c)) /\
    forall k x, nth_error (sel_coords (rc_sels c)) k = Some x ->
      nth_error (elems (di_esize d) buf) k = Some (expected (t_pub t) d c k x).

(** The assignments of the writes of a history in program order, whoever issues them. *)
Fixpoint program_order (sets : list dinfo) (ops : list op) : list assignment :=
  match ops with
  | [] => []
  | OWrite _ did sels data :: rest =>
      assigns_of (esize_at sets did) did sels data ++ program_order sets rest
  | OCreate d :: rest => program_order (sets ++ [d]) rest
  | _ :: rest => program_order sets rest
  end.

(** ** Legal histories

    What the HDF5 API asks of a program: datasets exist, selections lie inside the current
    extent, buffers have the size of the selection, and the underlying file places each new log
    dataset behind the previous ones ([hi] is the end of the last one). *)
Fixpoint fits_in (dims s n : list Z) : Prop :=
  match dims, s, n with
  | d :: dims', s0 :: s', n0 :: n' => 0 <= s0 /\ 0 < n0 /\ s0 + n0 <= d /\ fits_in dims' s' n'
  | [], [], [] => True
  | _, _, _ => False
  end.
Definition block_in (d : dinfo) (b : block) : Prop := fits_in (di_dims d) (b_start b) (b_count b).

Definition extent_ok (d : dinfo) (dims : list Z) : Prop :=
  Forall2 (fun n m => 0 <= n /\ (m = UNLIMITED \/ n <= m)) dims (di_mdims d).

Definition dataset_of (t : trace) (did : Z) (d : dinfo) : Prop :=
  0 <= did /\ nth_error (t_sets t) (Z.to_nat did) = Some d.

Definition pending_bytes (t : trace) : Z := Zsum (map (fun a => Zlen (snd a)) (concat (t_pend t))).
Definition placed_after (t : trace) (hi doff : Z) : Prop :=
  hi <= doff /\ doff + pending_bytes t < 2 ^ 63.

Definition legal_op (t : trace) (hi : Z) (o : op) : Prop :=
  match o with
  | OCreate d => 0 < di_esize d /\ extent_ok d (di_dims d) /\
      match di_fill d with Some f => Zlen f = di_esize d | None => True end
  | OSetExtent did dims => exists d, dataset_of t did d /\ extent_ok d dims
  | OWrite rk did sels data =>
      (rk < length (t_pend t))%nat /\
      exists d, dataset_of t did d /\ Forall (block_in d) sels /\
        Zlen data = di_esize d * Zlen (sel_coords sels)
  | OFlush doff => placed_after t hi doff
  | ORead doff calls => placed_after t hi doff /\ calls <> [] /\
      Forall (fun c => rc_sels c <> [] /\ exists d, dataset_of t (rc_did c) d /\ Forall (block_in d) (rc_sels c)) calls
  | OReopen doff np => (0 < np)%nat /\ Z.of_nat np < 2 ^ 31 /\ placed_after t hi doff
  end.

Definition log_end (t : trace) (hi : Z) (o : op) : Z :=
  match o with
  | OFlush doff | ORead doff _ | OReopen doff _ =>
      if pending_bytes t =? 0 then hi else doff + pending_bytes t
  | _ => hi
  end.

Fixpoint legal_run (coll : bool) (t : trace) (hi : Z) (ops : list op) : Prop :=
  match ops with
  | [] => True
  | o :: rest => legal_op t hi o /\ legal_run coll (tstep coll t o) (log_end t hi o) rest
  end.
Definition legal_history (coll : bool) (np : nat) (ops : list op) : Prop :=
  (0 < np)%nat /\ Z.of_nat np < 2 ^ 31 /\ Z.of_nat (length ops) < 2 ^ 30 /\
  legal_run coll (mktr [] [] (repeat [] np)) 0 ops.

(** "Some write of the history selects element [x] of dataset [did]." *)
Definition selected_by (did : Z) (x : list Z) (o : op) : Prop :=
  match o with
  | OWrite _ did' sels _ => did' = did /\ In x (sel_coords sels)
  | _ => False
  end.
Definition ever_written (did : Z) (x : list Z) (ops : list op) : Prop := Exists (selected_by did x) ops.

(** Histories of one process. *)
Definition one_process (o : op) : Prop :=
  match o with OWrite rk _ _ _ => rk = 0%nat | OReopen _ np => np = 1%nat | _ => True end.

(** Simple histories: datasets of fixed shape whose sizes fit an int, one block per call. *)
Definition simple_op (o : op) : Prop :=
  match o with
  | OCreate d => (0 < length (di_dims d) <= 32)%nat /\ hd 0 (di_mdims d) <> UNLIMITED /\
      Forall (fun x => x < 2 ^ 31 /\ x * di_esize d < 2 ^ 31) (di_dims d)
  | OSetExtent _ _ => False
  | OWrite _ _ sels _ => length sels = 1%nat
  | ORead _ calls => Forall (fun c => length (rc_sels c) = 1%nat) calls
  | OFlush _ | OReopen _ _ => True
  end.

(** Sized histories: at every moment the extents and rows of all datasets fit a C int, no write has
    more than four million blocks, and the blocks of one read do not overlap. *)
Definition sized_set (d : dinfo) : Prop :=
  (length (di_dims d) <= 32)%nat /\ di_esize d < 2 ^ 31 /\
  Forall (fun x => x < 2 ^ 31 /\ x * di_esize d < 2 ^ 31) (di_dims d).
Definition sized_op (o : op) : Prop :=
  match o with
  | OWrite _ _ sels _ => Zlen sels <= 4000000
  | ORead _ calls => Forall (fun c => ForallOrdPairs disjoint_blocks (rc_sels c)) calls
  | _ => True
  end.
Fixpoint sized_run (coll : bool) (t : trace) (ops : list op) : Prop :=
  Forall sized_set (t_sets t) /\
  match ops with
  | [] => True
  | o :: rest => sized_op o /\ sized_run coll (tstep coll t o) rest
  end.
Definition sized_history (coll : bool) (np : nat) (ops : list op) : Prop :=
  sized_run coll (mktr [] [] (repeat [] np)) ops.

(** Does a call matter to the readers of dataset [did]?  Everything but writes to other datasets. *)
Definition touches (did : Z) (o : op) : bool :=
  match o with OWrite _ did' _ _ => did' =? did | _ => true end.

(** The sequence of one-block writes that a multi-block write stands for. *)
Fixpoint write_each (rk : nat) (did esize : Z) (sels : list block) (data : list Z) : list op :=
  match sels with
  | [] => []
  | b :: rest =>
      let n := Z.to_nat (esize * Zlen (coords b)) in
      OWrite rk did [b] (firstn n data) :: write_each rk did esize rest (skipn n data)
  end.
