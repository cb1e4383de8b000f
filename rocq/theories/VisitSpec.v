(** What H5Ovisit and H5Lvisit show through the connector, compared with the library alone. *)
From Verif Require Import Base NameModel LibModel NsModel NsSpec CopyModel CopySpec VisitModel.
From Coq Require Import Ascii String.

(** The visit starts at the root group. *)
Definition at_root (st : lib) (l : loc) : bool :=
  match loc_of st l with Some (0%nat, _) => true | _ => false end.
(** The number of attributes reported is too large by those the connector keeps. *)
Definition counted (own : Z) (x : info) : info := match x with IObj k n => IObj k (n + own) | ILink b => ILink b end.
Definition own_attrs (root : bool) (x : info) : Z :=
  if root then 1 else match x with IObj KDset _ => 3 | _ => 0 end.
(** One call of the callback: an underscore at the beginning of a name that is not the first of the path is
    doubled. *)
Definition told (root : bool) (x : list string * info) : string * info :=
  (join (out_path (fst x)),
   counted (own_attrs (root && match fst x with [] => true | _ => false end) (snd x)) (snd x)).

(** No name of the path but the first starts with an underscore. *)
Definition plain_below (p : list string) : Prop := match p with [] => True | _ :: r => Forall plain r end.
(** Names as the library allows them. *)
Definition component (n : string) : Prop := n <> EmptyString /\ n <> "."%string /\ ~ In SLASH (list_ascii_of_string n).

(** The two objects are the same for the user: kind and attributes, but for those the connector keeps. *)
Definition user_attrs (o : obj) : list (string * list Z) :=
  filter (fun p => match iterate_name (fst p) with Some _ => true | None => false end) (ob_attrs o).
Definition same_object (o o' : obj) : Prop :=
  ob_kind o' = ob_kind o /\ user_attrs o' = map (fun p => (doubled (fst p), snd p)) (ob_attrs o).
