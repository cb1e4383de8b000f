(** What H5Dwrite and H5Dread mean to the application, element by element: which element of the
    dataset goes with which address of the user's memory, and which value is expected there. *)
From Verif Require Import Base Spec MetaModel SelModel SelSpec SysModel History ApiModel.

(** The elements of a call: coordinate in the dataset and address in the user's memory. *)
Definition pairs := list (list Z * Z).

(** [ps] are the elements of call [a] on a dataset [d], in the order of the HDF5 library.  H5S_ALL as
    memory space stands for the file space and its selection, H5S_BLOCK for consecutive elements. *)
Definition file_part (a : access) : h5sel := match ac_fs a with FAll => HAll | FSel _ s => s end.
Definition layout (d : dinfo) (a : access) (ps : pairs) : Prop :=
  let addr := elem_addr (ac_buf a) (mt_size (ac_type a)) in
  (match ac_fs a with FSel dims _ => dims = di_dims d | FAll => True end) /\
  usable (di_dims d) (file_part a) (map fst ps) /\
  match ac_ms a with
  | SBlock => map snd ps = map (fun k => ac_buf a + mt_size (ac_type a) * k) (zseq (Zlen ps))
  | SAll => map snd ps = map (addr (di_dims d)) (map fst ps)
  | SSel dims s => exists mcs, usable dims s mcs /\ map snd ps = map (addr dims) mcs
  end.

(** The value stored for a memory element, and the one delivered for a stored element. *)
Definition out_of (t : mtype) (v : list Z) : list Z :=
  if mt_same t then v else match mt_out t with Some f => f [] v | None => [] end.
Definition in_of (t : mtype) (v : list Z) : list Z :=
  if mt_same t then v else match mt_in t with Some f => f [] v | None => [] end.

(** Types that can be used to write: equal, or with a conversion that gives elements of the right
    size and does not depend on what was stored before. *)
Definition can_write (d : dinfo) (t : mtype) : Prop :=
  0 < mt_size t /\
  (mt_same t = true -> mt_size t = di_esize d) /\
  (mt_same t = false -> exists f, mt_out t = Some f /\
     forall b v, f b v = f [] v /\ (Zlen v = mt_size t -> Zlen (f [] v) = di_esize d)).
(** Types that can be used to read.  Excluded: compound types that need a conversion, and with a
    memory selection a memory type larger than the type of the dataset. *)
Definition selective (a : access) : bool :=
  match ac_ms a with
  | SBlock => false
  | SAll => match file_part a with HAll => false | _ => true end
  | SSel _ s => match s with HAll => false | _ => true end
  end.
Definition can_read (d : dinfo) (a : access) : Prop :=
  let t := ac_type a in
  0 < mt_size t /\
  (mt_same t = true -> mt_size t = di_esize d) /\
  (mt_same t = false -> mt_comp t = false /\ (selective a = true -> mt_size t <= di_esize d) /\
     exists f, mt_in t = Some f /\ forall v, Zlen v = di_esize d -> Zlen (f [] v) = mt_size t).

(** ** Histories of calls *)
Inductive ucall :=
| UCreate (d : dinfo)
| UExtent (did : Z) (dims : list Z)
| UWrite (rk : nat) (a : access) (ps : pairs)
| UFlush (doff : Z)
| URead (doff : Z) (l : list (access * pairs))
| UReopen (doff : Z) (np : nat).
Definition call_of (u : ucall) : acall :=
  match u with
  | UCreate d => ACreate d
  | UExtent did dims => AExtent did dims
  | UWrite rk a _ => AWrite rk a
  | UFlush doff => AFlush doff
  | URead doff l => ARead doff (map fst l)
  | UReopen doff np => AReopen doff np
  end.

(** The assignments made by a write: each element gets the converted value found at its address. *)
Definition assigned (a : access) (ps : pairs) : list assignment :=
  map (fun p => (ac_did a, fst p, out_of (ac_type a) (get (ac_mem a) (snd p) (Z.to_nat (mt_size (ac_type a)))))) ps.

Definition ustep (t : trace) (u : ucall) : trace :=
  match u with
  | UCreate d => mktr (t_sets t ++ [d]) (t_pub t) (t_pend t)
  | UExtent did dims =>
      mktr (match nth_error (t_sets t) (Z.to_nat did) with
            | Some d => upd_nth (Z.to_nat did)
                          (mkdinfo (di_esize d) dims (di_mdims d) (di_dsteps d) (di_fill d)) (t_sets t)
            | None => t_sets t
            end) (t_pub t) (t_pend t)
  | UWrite rk a ps =>
      mktr (t_sets t) (t_pub t) (upd_nth rk (nth rk (t_pend t) [] ++ assigned a ps) (t_pend t))
  | UFlush _ | URead _ _ => mktr (t_sets t) (publish t) (map (fun _ => []) (t_pend t))
  | UReopen _ np => mktr (t_sets t) (publish t) (repeat [] np)
  end.
Definition utrace (np : nat) (us : list ucall) : trace := fold_left ustep us (mktr [] [] (repeat [] np)).

(** [mem] is a correct memory after the read [a] when [pub] has been published: each selected
    element is the converted last value given to it, or the converted fill value; nothing else has
    changed. *)
Definition correct_memory (sets : list dinfo) (pub : list assignment) (a : access) (ps : pairs) (mem : bytemap) : Prop :=
  exists d, nth_error sets (Z.to_nat (ac_did a)) = Some d /\
    (forall x p v, In (x, p) ps ->
       match last_assigned (ac_did a) x pub with Some w => Some w | None => di_fill d end = Some v ->
       get mem p (Z.to_nat (mt_size (ac_type a))) = in_of (ac_type a) v) /\
    (forall q, (forall x p, In (x, p) ps -> ~ (p <= q < p + mt_size (ac_type a))) -> mem q = ac_mem a q).

(** ** Legal calls: datasets exist, selections lie in the current extent, types can be used, the
    elements of one read are distinct. *)
Definition fits_int (l : list Z) : Prop := Forall (fun x => 0 <= x < 2 ^ 31) l.
Definition memory_fits (a : access) : Prop := match ac_ms a with SSel dims _ => fits_int dims | _ => True end.

Definition legal_call (t : trace) (hi : Z) (u : ucall) : Prop :=
  match u with
  | UCreate d => 0 < di_esize d /\ extent_ok d (di_dims d) /\
      match di_fill d with Some f => Zlen f = di_esize d | None => True end
  | UExtent did dims => exists d, dataset_of t did d /\ extent_ok d dims
  | UWrite rk a ps => (rk < length (t_pend t))%nat /\ memory_fits a /\
      exists d, dataset_of t (ac_did a) d /\ layout d a ps /\ can_write d (ac_type a)
  | UFlush doff => placed_after t hi doff
  | URead doff l => placed_after t hi doff /\ l <> [] /\
      Forall (fun ap => snd ap <> [] /\ memory_fits (fst ap) /\ NoDup (map fst (snd ap)) /\ NoDup (map snd (snd ap)) /\
        exists d, dataset_of t (ac_did (fst ap)) d /\ layout d (fst ap) (snd ap) /\ can_read d (fst ap)) l
  | UReopen doff np => (0 < np)%nat /\ Z.of_nat np < 2 ^ 31 /\ placed_after t hi doff
  end.
Definition ulog_end (t : trace) (hi : Z) (u : ucall) : Z :=
  match u with
  | UFlush doff | URead doff _ | UReopen doff _ => if pending_bytes t =? 0 then hi else doff + pending_bytes t
  | _ => hi
  end.
Fixpoint legal_calls (t : trace) (hi : Z) (us : list ucall) : Prop :=
  match us with
  | [] => True
  | u :: rest => legal_call t hi u /\ legal_calls (ustep t u) (ulog_end t hi u) rest
  end.
(** Sizes: the extents and rows of the datasets fit a C int; no write consists of more than four
    million blocks. *)
Fixpoint sized_calls (order : list (list Z) -> list nat) (t : trace) (us : list ucall) : Prop :=
  Forall sized_set (t_sets t) /\
  match us with
  | [] => True
  | u :: rest =>
      (match u with
       | UWrite _ a _ => forall d sels, dataset_of t (ac_did a) d ->
           normalize order (di_dims d) (file_part a) = Ok sels -> Zlen sels <= 4000000
       | _ => True
       end) /\ sized_calls order (ustep t u) rest
  end.
Definition legal_program (order : list (list Z) -> list nat) (np : nat) (us : list ucall) : Prop :=
  (0 < np)%nat /\ Z.of_nat np < 2 ^ 31 /\ Z.of_nat (length us) < 2 ^ 30 /\
  legal_calls (mktr [] [] (repeat [] np)) 0 us /\ sized_calls order (mktr [] [] (repeat [] np)) us.

(** The operations of SysModel.v that a sequence of calls amounts to. *)
Definition op_of (order : list (list Z) -> list nat) (sets : list dinfo) (u : ucall) : res op :=
  match u with
  | UCreate d => Ok (OCreate d)
  | UExtent did dims => Ok (OSetExtent did dims)
  | UWrite rk a _ => do w <- lower_write order (map Some sets) a; Ok (OWrite rk (ac_did a) (fst w) (snd w))
  | UFlush doff => Ok (OFlush doff)
  | URead doff l => do cs <- lower_reads order (map Some sets) (map fst l); Ok (ORead doff cs)
  | UReopen doff np => Ok (OReopen doff np)
  end.
Fixpoint ops_of (order : list (list Z) -> list nat) (t : trace) (us : list ucall) : res (list op) :=
  match us with
  | [] => Ok []
  | u :: rest => do o <- op_of order (t_sets t) u; do r <- ops_of order (ustep t u) rest; Ok (o :: r)
  end.
Definition operations (order : list (list Z) -> list nat) (np : nat) (us : list ucall) : res (list op) :=
  ops_of order (mktr [] [] (repeat [] np)) us.
