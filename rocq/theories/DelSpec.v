(** Deleting datasets: the program that does not delete, and programs that leave deleted datasets alone. *)
From Verif Require Import Base Spec SysModel DelModel.

(** The same calls without the deletions. *)
Fixpoint kept (cs : list dcall) : list op :=
  match cs with
  | [] => []
  | DOp o :: rest => o :: kept rest
  | DDelete _ :: rest => kept rest
  end.
(** The results of a history, when those of its other calls are given: a deletion returns nothing. *)
Fixpoint answers (cs : list dcall) (outs : list (list (list Z))) : list (list (list Z)) :=
  match cs, outs with
  | [], _ => []
  | DDelete _ :: rest, _ => [] :: answers rest outs
  | DOp _ :: rest, out :: outs' => out :: answers rest outs'
  | DOp _ :: rest, [] => []
  end.

(** The datasets a call names. *)
Definition named (o : op) : list Z :=
  match o with
  | OSetExtent did _ => [did]
  | OWrite _ did _ _ => [did]
  | ORead _ calls => map rc_did calls
  | _ => []
  end.
(** Every dataset that is written, read, resized or deleted was created ([n]: their number so far) and has not been
    deleted before ([gone]). *)
Fixpoint uses_live (n : Z) (gone : list Z) (cs : list dcall) : Prop :=
  match cs with
  | [] => True
  | DOp (OCreate _) :: rest => uses_live (n + 1) gone rest
  | DOp o :: rest => (forall d, In d (named o) -> 0 <= d < n /\ ~ In d gone) /\ uses_live n gone rest
  | DDelete d :: rest => 0 <= d < n /\ ~ In d gone /\ uses_live n (d :: gone) rest
  end.

(** The file is not closed and opened again after a deletion. *)
Fixpoint not_reopened (deleted : bool) (cs : list dcall) : Prop :=
  match cs with
  | [] => True
  | DOp (OReopen _ _) :: rest => deleted = false /\ not_reopened deleted rest
  | DOp _ :: rest => not_reopened deleted rest
  | DDelete _ :: rest => not_reopened true rest
  end.
