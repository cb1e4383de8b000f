(** Specification of dataspace selections, without reference to the connector: which elements a
    selection contains, and the row-major order. *)
From Verif Require Import Base Spec SelModel.

(** Row-major order of coordinates of one array: the first differing dimension decides. *)
Fixpoint before (a b : list Z) : Prop :=
  match a, b with
  | x :: a', y :: b' => x < y \/ (x = y /\ before a' b')
  | _, _ => False
  end.
Definition row_major (l : list (list Z)) : Prop := StronglySorted before l.

(** A block given by its first and last coordinates. *)
Definition within (e : entry) (c : list Z) : Prop :=
  Forall2 (fun p x => fst p <= x <= snd p) (combine (fst e) (snd e)) c.
Definition entry_ok (n : nat) (e : entry) : Prop :=
  length (fst e) = n /\ length (snd e) = n /\ Forall2 Z.le (fst e) (snd e).
Definition apart (e f : entry) : Prop := forall c, within e c -> within f c -> False.

(** A regular hyperslab contains, in each dimension, [count] intervals of [block] indices that
    start [stride] apart. *)
Fixpoint in_regular4 (st sd ct bk c : list Z) : Prop :=
  match st, sd, ct, bk, c with
  | s :: st', d :: sd', n :: ct', b :: bk', x :: c' =>
      (exists i j, 0 <= i < n /\ 0 <= j < b /\ x = s + i * d + j) /\ in_regular4 st' sd' ct' bk' c'
  | [], [], [], [], [] => True
  | _, _, _, _, _ => False
  end.
Definition in_regular (r : regular) (c : list Z) : Prop :=
  in_regular4 (r_start r) (r_stride r) (r_count r) (r_block r) c.

(** What HDF5 guarantees of the answers it gives about a hyperslab selection: the blocks are
    proper, do not overlap, there is at least one, and when the selection is a regular hyperslab
    they cover exactly its elements. *)
Definition hyper_ok (n : nat) (reg : option regular) (blocks : list entry) : Prop :=
  blocks <> [] /\ Forall (entry_ok n) blocks /\ ForallOrdPairs apart blocks /\
  (forall r, reg = Some r ->
     length (r_start r) = n /\ length (r_stride r) = n /\ length (r_count r) = n /\ length (r_block r) = n /\
     forall c, in_regular r c <-> exists e, In e blocks /\ within e c).

(** The elements of a selection in an array of sizes [dims]. *)
Definition selected (dims : list Z) (s : h5sel) (c : list Z) : Prop :=
  match s with
  | HNone => False
  | HAll => Forall2 (fun d x => 0 <= x < d) dims c
  | HPoints pts => In c pts
  | HHyper _ blocks => exists e, In e blocks /\ within e c
  end.
Definition sel_ok (dims : list Z) (s : h5sel) : Prop :=
  match s with
  | HNone => True
  | HAll => Forall (fun d => 0 <= d) dims
  | HPoints pts => Forall (fun p => length p = length dims) pts /\ dims <> []
  | HHyper reg blocks => hyper_ok (length dims) reg blocks
  end.

(** The order in which HDF5 lists the blocks of a hyperslab selection: by first and by last
    coordinates. *)
Definition listed_in_order (blocks : list entry) : Prop :=
  StronglySorted before (map fst blocks) /\ StronglySorted before (map snd blocks).

(** HDF5 stores an irregular hyperslab selection as a tree of spans: in each dimension a list of
    disjoint intervals in increasing order, each with a list for the next dimension.
    H5Sget_select_hyper_blocklist lists one block per path. *)
Inductive spans := SNil | SCons (lo hi : Z) (down next : spans).
Fixpoint spans_ok (n : nat) (least : Z) (t : spans) : Prop :=
  match t with
  | SNil => True
  | SCons lo hi down next =>
      least <= lo /\ lo <= hi /\ spans_ok n (hi + 1) next /\
      match n with
      | O => False
      | S O => down = SNil
      | S m => down <> SNil /\ exists l, spans_ok m l down
      end
  end.
Fixpoint span_blocks (n : nat) (t : spans) : list entry :=
  match t with
  | SNil => []
  | SCons lo hi down next =>
      (match n with
       | O => []
       | S O => [([lo], [hi])]
       | S m => map (fun e => (lo :: fst e, hi :: snd e)) (span_blocks m down)
       end) ++ span_blocks n next
  end.

(** Value of the element [c] of an array of sizes [dims] stored at [base], elements of [esize] bytes. *)
Fixpoint offset_of (dims c : list Z) : Z :=
  match dims, c with
  | _ :: ds, x :: cs => x * Zprod ds + offset_of ds cs
  | _, _ => 0
  end.
Definition elem_addr (base esize : Z) (dims c : list Z) : Z := base + esize * offset_of dims c.
Definition elem_value (mem : bytemap) (base esize : Z) (dims c : list Z) : list Z :=
  get mem (elem_addr base esize dims c) (Z.to_nat esize).
Definition in_extent (dims c : list Z) : Prop := Forall2 (fun d x => 0 <= x < d) dims c.

(** The order in which HDF5 enumerates a selection: the order of the points for a point
    selection, row-major order otherwise. *)
Definition enumerates (dims : list Z) (s : h5sel) (cs : list (list Z)) : Prop :=
  match s with
  | HPoints pts => cs = pts
  | _ => row_major cs /\ forall c, In c cs <-> selected dims s c
  end.
(** Points in row-major order (repetitions allowed), blocks in the order of the library. *)
Definition sel_in_order (s : h5sel) : Prop :=
  match s with
  | HPoints pts => StronglySorted (fun a b => a = b \/ before a b) pts
  | HHyper _ blocks => listed_in_order blocks
  | _ => True
  end.

(** The blocks of a regular hyperslab, as a tree of spans. *)
Fixpoint reg_spans (k : nat) (s d b : Z) (down : spans) : spans :=
  match k with O => SNil | S k' => SCons s (s + b - 1) down (reg_spans k' (s + d) d b down) end.
Fixpoint reg_tree (st sd ct bk : list Z) : spans :=
  match st, sd, ct, bk with
  | s :: st', d :: sd', n :: ct', b :: bk' => reg_spans (Z.to_nat n) s d b (reg_tree st' sd' ct' bk')
  | _, _, _, _ => SNil
  end.
Definition reg_blocks (r : regular) : list entry :=
  span_blocks (length (r_start r)) (reg_tree (r_start r) (r_stride r) (r_count r) (r_block r)).
(** The regular hyperslabs accepted by H5Sselect_hyperslab (none of its counts and blocks zero,
    blocks that do not overlap). *)
Fixpoint reg_ok4 (st sd ct bk : list Z) : Prop :=
  match st, sd, ct, bk with
  | _ :: st', d :: sd', n :: ct', b :: bk' => 0 < n /\ 0 < b /\ (1 < n -> b <= d) /\ reg_ok4 st' sd' ct' bk'
  | [], [], [], [] => True
  | _, _, _, _ => False
  end.

(** The selections the HDF5 library can hold for an array of sizes [dims], with its answers to the
    queries the connector makes. *)
Definition library_selection (dims : list Z) (s : h5sel) : Prop :=
  match s with
  | HNone => True
  | HAll => Forall (fun d => 0 <= d) dims
  | HPoints pts => dims <> [] /\ Forall (fun p => length p = length dims) pts
  | HHyper (Some r) blocks =>
      dims <> [] /\ length (r_start r) = length dims /\ reg_ok4 (r_start r) (r_stride r) (r_count r) (r_block r) /\
      blocks = reg_blocks r
  | HHyper None blocks =>
      dims <> [] /\ exists t least, t <> SNil /\ spans_ok (length dims) least t /\ blocks = span_blocks (length dims) t
  end.

(** A selection in use: held by the library, its elements [cs] in the library's order and inside
    the extent, points in increasing order. *)
Definition usable (dims : list Z) (s : h5sel) (cs : list (list Z)) : Prop :=
  library_selection dims s /\ enumerates dims s cs /\ (forall c, In c cs -> in_extent dims c) /\
  match s with HPoints pts => StronglySorted (fun a b => a = b \/ before a b) pts | _ => True end.
