(** What "a file not made by the connector is used as without it" means: the calls return what they
    return without the connector (plain_run of RegModel.v), and leave the file as they leave it
    without the connector, for the calls described by [rsupported]. *)
From Verif Require Import Base NameModel LibModel NsModel RegModel.
From Coq Require Import Ascii String.

(** The identifier a call is made on is neither the file's nor a dataset's. *)
Definition other_id (st : lib) (l : loc) : Prop :=
  forall hd, nth_error (l_hnds st) (match l with Self h => h | Named h _ => h end) = Some hd ->
    h_type hd <> TFile /\ h_type hd <> TObj KDset.
(** [h] is an identifier of type [t]. *)
Definition on_id (st : lib) (h : nat) (t : htype) : Prop := exists hd, nth_error (l_hnds st) h = Some hd /\ h_type hd = t.
(** The root group has no attribute called _int_att. *)
Definition no_mark (st : lib) : Prop :=
  forall r t, l_objs st = r :: t -> ~ In "_int_att"%string (map fst (ob_attrs r)).

(** Without the connector [cs] lead to the file [file_after] and return [results_of]. *)
Definition file_after {D A X} (ud : X -> lib -> D -> X * A) x st cs : lib := snd (fst (plain_run ud x st cs)).
Definition results_of {D A X} (ud : X -> lib -> D -> X * A) x st cs : list (rresult A) := snd (plain_run ud x st cs).

Definition rsupported {D} (st : lib) (c : rcall D) : Prop :=
  match c with
  | RNs (CMove (Some _) _ (Some _) _) => True
  | RNs (CMove _ _ _ _) => False
  | RNs (ANameIdx l _ _ _) | RNs (AInfoIdx l _ _ _) => other_id st l
  | RNs (ANum l) => other_id st l /\ forall i o, loc_of st l = Some (i, o) -> Zlen (ob_attrs o) < 2 ^ 64
  | RNs CReopen => no_mark st
  | RNs _ => True
  | RVarStr _ _ => False
  | RData _ => True
  | RFapl => False
  end.
Definition plain_next {D A X} (ud : X -> lib -> D -> X * A) (p : X * lib) (c : rcall D) : X * lib :=
  fst (plain_step ud (fst p) (snd p) c).
Fixpoint rsupported_from {D A X} (ud : X -> lib -> D -> X * A) (p : X * lib) (cs : list (rcall D)) : Prop :=
  match cs with
  | [] => True
  | c :: t => rsupported (snd p) c /\ rsupported_from ud (plain_next ud p c) t
  end.
Definition rsupported_run {D A X} (ud : X -> lib -> D -> X * A) (x : X) (st : lib) (cs : list (rcall D)) : Prop :=
  rsupported_from ud (x, st) cs.
