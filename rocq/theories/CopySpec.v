(** What a replayed file should look like, independently of how it is made. *)
From Verif Require Import Base NameModel LibModel NsModel NsSpec CopyModel.
From Coq Require Import Ascii String Permutation.

(** A name that starts neither with an underscore nor with a dot or slash. *)
Definition ordinary (n : string) : Prop :=
  match n with String c _ => c <> US /\ c <> DOT /\ c <> SLASH | EmptyString => False end.
(** An attribute name: underscores are allowed. *)
Definition attr_ok (n : string) : Prop :=
  match n with String c _ => c <> DOT /\ c <> SLASH | EmptyString => False end.


(** What is written for an object, exactly: an underscore at the beginning of a component below the first
    is doubled, attributes whose name starts with a dot or slash are missing. *)
Definition keep_name (n : string) : bool :=
  match n with String c _ => negb (Ascii.eqb c DOT || Ascii.eqb c SLASH) | EmptyString => true end.
Definition doubled (n : string) : string :=
  match n with String c _ => if Ascii.eqb c US then String US n else n | EmptyString => n end.
Definition out_attrs (l : list (string * list Z)) : list (string * list Z) :=
  filter (fun p => keep_name (fst p)) (ordered ByName Inc l).
Definition out_path (p : list string) : list string :=
  match p with [] => [] | c :: r => c :: map doubled r end.
Definition out (os : list obj) (x : list string * nat) : rtree :=
  match fst x, nth_error os (snd x) with
  | c :: _, Some o => if keep_name c then [(out_path (fst x), (ob_kind o, out_attrs (ob_attrs o)))] else []
  | _, _ => []
  end.

(** A path made of hard links from object [j] to object [i]. *)
Inductive hard_path (os : list obj) : nat -> list string -> nat -> Prop :=
| hp_one j o n i : nth_error os j = Some o -> In (n, Hard i) (ob_links o) -> hard_path os j [n] i
| hp_more j o n i r k : nth_error os j = Some o -> In (n, Hard i) (ob_links o) -> hard_path os i r k ->
    hard_path os j (n :: r) k.

(** All links and attributes of the file have names the tool can handle. *)
Definition all_ordinary (os : list obj) : Prop :=
  forall o, In o os -> Forall (fun p => ordinary (fst p)) (ob_links o) /\ Forall (fun p => attr_ok (fst p)) (ob_attrs o).

(** [a] and [t] are a faithful copy of the file [os]: the attributes of the file; every object of the copy
    is one of the file, under one of its paths, with its kind and attributes; every object is there, once. *)
Definition faithful (os : list obj) (a : list (string * list Z)) (t : rtree) : Prop :=
  (exists r, nth_error os 0 = Some r /\ Permutation a (ob_attrs r)) /\
  (forall p k b, In (p, (k, b)) t ->
     exists i o, hard_path os 0 p i /\ nth_error os i = Some o /\ k = ob_kind o /\ Permutation b (ob_attrs o)) /\
  NoDup (map fst t) /\
  exists f : list string -> nat, (forall p x, In (p, x) t -> hard_path os 0 p (f p)) /\
    NoDup (map (fun x => f (fst x)) t) /\
    forall p i, hard_path os 0 p i -> i <> 0%nat -> exists q x, In (q, x) t /\ f q = i.
