(** What "the connector is transparent" means for links and attributes: the calls of a program return
    what they return when the library is used without the connector (lib_run of LibModel.v), for the
    calls described by [supported]. *)
From Verif Require Import Base NameModel LibModel NsModel.
From Coq Require Import Ascii String.

Definition nonempty (n : string) : Prop := n <> EmptyString.
(** A name that does not start with an underscore. *)
Definition plain (n : string) : Prop := match n with String c _ => c <> US | EmptyString => False end.

(** Number of attributes the connector keeps on an object. *)
Definition own_count (i : nat) (o : obj) : nat :=
  if (i =? 0)%nat then 1%nat else match ob_kind o with KDset => 3%nat | _ => 0%nat end.
Definition loc_plain (l : loc) : Prop := match l with Self _ => True | Named _ n => plain n end.
Definition loc_nonempty (l : loc) : Prop := match l with Self _ => True | Named _ n => nonempty n end.

(** The object is looked at through an identifier of its own type: the file's for the root group, a
    dataset's for a dataset, and neither for other objects. *)
Definition own_type (st : lib) (l : loc) : Prop :=
  forall i o, loc_of st l = Some (i, o) -> skip_of st l = own_count i o.
Definition no_own (st : lib) (l : loc) : Prop :=
  forall i o, loc_of st l = Some (i, o) -> own_count i o = 0%nat.
Definition not_root (st : lib) (h : nat) : Prop := forall i o, obj_of st h = Some (i, o) -> i <> 0%nat.
Definition plain_attrs (st : lib) (l : loc) : Prop :=
  forall i o, loc_of st l = Some (i, o) -> Forall (fun p => plain (fst p)) (ob_attrs o).

(** The calls, in the state [st] the program is in when the connector is not used. *)
Definition supported (st : lib) (c : call) : Prop :=
  match c with
  (* any name *)
  | CGroup _ n | CDset _ n | COpen _ n | CExists _ n | CDelete _ n => nonempty n
  | CMove (Some _) n1 (Some _) n2 => nonempty n1 /\ nonempty n2
  | CMove _ _ _ _ => False
  | CList _ _ _ => True
  (* names without underscore at the beginning *)
  | CCopy _ n1 _ n2 | CHard _ n1 _ n2 => plain n1 /\ plain n2
  | CSoft t _ n => plain t /\ plain n
  (* below the root group *)
  | CNlinks h | COpenIdx h _ _ _ => not_root st h
  | CNameIdx _ _ _ _ => False
  (* any attribute name; the object is not named by a name starting with an underscore *)
  | AMake l n _ | AGet l n | APut l n _ => loc_plain l /\ nonempty n
  (* any names *)
  | AHas l n | ADel l n => loc_nonempty l /\ nonempty n
  | AList l _ _ => loc_nonempty l
  | ARen l a b => loc_nonempty l /\ plain a /\ plain b
  | AInfo l n => loc_plain l /\ plain n
  (* by index *)
  | AOpenIdx l it io _ => loc_plain l /\ own_type st l /\ ((it = ByCrt /\ io = Inc) \/ no_own st l)
  | ANameIdx l it io _ => loc_plain l /\ own_type st l /\ (it = ByCrt \/ no_own st l) /\ plain_attrs st l
  | AInfoIdx l it io _ => loc_plain l /\ own_type st l /\ (it = ByCrt \/ no_own st l)
  | ADelIdx _ _ _ _ => False
  | ANum l => loc_nonempty l /\ own_type st l /\
      forall i o, loc_of st l = Some (i, o) -> Zlen (ob_attrs o) < 2 ^ 64
  | CReopen => True
  end.
Fixpoint supported_run (st : lib) (cs : list call) : Prop :=
  match cs with
  | [] => True
  | c :: t => supported st c /\ supported_run (fst (lib_step st c)) t
  end.

(** The connector's own attributes and its group are where it needs them. *)
Definition intact (st : lib) : Prop :=
  (exists r t, l_objs st = r :: t /\ In "_int_att"%string (map fst (ob_attrs r)) /\
     In "_LOG"%string (map fst (ob_links r))) /\
  Forall (fun o => ob_kind o = KDset -> Forall (fun n => In n (map fst (ob_attrs o))) ["_dims"; "_mdims"; "_ID"]%string)
    (l_objs st).

(** A name the connector would use for itself: one underscore at the beginning. *)
Definition reserved (n : string) : Prop :=
  exists r, n = String US r /\ (forall c s, r = String c s -> c <> US).
