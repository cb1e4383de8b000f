(** Flushing one object: the histories without it, and with H5Fflush instead. *)
From Verif Require Import Base Spec SysModel RealSpec OflModel.

(** The calls other than flushes of objects. *)
Fixpoint without (cs : list fcall) : list op :=
  match cs with
  | [] => []
  | FOp o :: rest => o :: without rest
  | FObj :: rest => without rest
  end.
(** The results of a history, when those of its other calls are given: a flush of an object returns nothing. *)
Fixpoint spread (cs : list fcall) (outs : list (list (list Z))) : list (list (list Z)) :=
  match cs, outs with
  | [], _ => []
  | FObj :: rest, _ => [] :: spread rest outs
  | FOp _ :: rest, out :: outs' => out :: spread rest outs'
  | FOp _ :: rest, [] => []
  end.
(** H5Fflush wherever an object is flushed; [doff]: placement of the log. *)
Definition file_flush (doff : Z) (c : fcall) : op := match c with FOp o => o | FObj => OFlush doff end.
(** Writes and flushes of objects. *)
Definition write_or_flush (c : fcall) : Prop := match c with FOp o => is_write o | FObj => True end.
