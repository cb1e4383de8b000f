(** Specification of names and identifiers. *)
From Verif Require Import Base NameModel.

(** One component of a path as a user may give it: not empty, no slash, not starting with a dot. *)
Fixpoint no_slash (n : string) : Prop :=
  match n with EmptyString => True | String c r => c <> SLASH /\ no_slash r end.
Definition simple_name (n : string) : Prop :=
  no_slash n /\ match n with EmptyString => False | String c _ => c <> DOT end.
(** The names reserved to the connector start with exactly one underscore. *)
Definition reserved (p : string) : Prop :=
  match p with
  | String c r => c = US /\ match r with String d _ => d <> US | EmptyString => True end
  | EmptyString => False
  end.

(** What the user does: a dataset is named by the groups leading to it and its name in the last
    one. *)
Definition upath := (list string * string)%type.
Inductive uop := UCreate (p : upath) | UOpen (p : upath) | UDelete (p : upath) | UReopen.
Definition call (o : uop) : nop :=
  match o with
  | UCreate (g, n) => NCreate (group_path g) n
  | UOpen (g, n) => NOpen (group_path g) n
  | UDelete (g, n) => NDelete (group_path g) n
  | UReopen => NReopen
  end.
Definition simple_path (p : upath) : Prop := Forall simple_name (fst p) /\ simple_name (snd p).
Definition simple_op (o : uop) : Prop :=
  match o with UCreate p | UOpen p | UDelete p => simple_path p | UReopen => True end.

(** What is expected: existing datasets with their identifiers, and the next identifier.  The
    result of a call is the identifier, or None for a failure, a deletion or a reopening. *)
Definition upath_eqb (p q : upath) : bool :=
  if list_eq_dec string_dec (fst p) (fst q) then String.eqb (snd p) (snd q) else false.
Definition uspec := (list (upath * Z) * Z)%type.
Fixpoint u_find (p : upath) (l : list (upath * Z)) : option Z :=
  match l with [] => None | (q, i) :: t => if upath_eqb p q then Some i else u_find p t end.
Definition ustep (s : uspec) (o : uop) : uspec * option Z :=
  let (l, next) := s in
  match o with
  | UCreate p => match u_find p l with
                 | Some _ => (s, None)
                 | None => ((l ++ [(p, next)], next + 1), Some next)
                 end
  | UOpen p => (s, u_find p l)
  | UDelete p => ((filter (fun q => negb (upath_eqb p (fst q))) l, next), None)
  | UReopen => (s, None)
  end.
Fixpoint urun (s : uspec) (ops : list uop) : uspec * list (option Z) :=
  match ops with
  | [] => (s, [])
  | o :: t => let (s1, r) := ustep s o in let (s2, rs) := urun s1 t in (s2, r :: rs)
  end.

(** The identifiers handed out by the creations of a history. *)
Definition created (ops : list uop) (outs : list (option Z)) : list Z :=
  flat_map (fun x => match x with (UCreate _, Some i) => [i] | _ => [] end) (combine ops outs).
(** The identifiers handed out by creations, for calls with any names. *)
Definition handed (ops : list nop) (outs : list (option Z)) : list Z :=
  flat_map (fun x => match x with (NCreate _ _, Some i) => [i] | _ => [] end) (combine ops outs).
