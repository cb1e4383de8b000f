(** Vocabulary for files opened for reading only. *)
From Verif Require Import Base Spec MetaModel SysModel.

(** Calls of one session that ask for no change. *)
Definition only_asks (o : op) : Prop := match o with OFlush _ | ORead _ _ => True | _ => False end.
(** Calls of one session. *)
Definition stays_open (o : op) : Prop := match o with OReopen _ _ => False | _ => True end.
Definition writes (o : op) : bool := match o with OWrite _ _ _ _ => true | _ => false end.
Definition reads (o : op) : bool := match o with ORead _ _ => true | _ => false end.

(** The results of the reads among [ops]. *)
Definition read_results {A} (ops : list op) (outs : list A) : list A := map snd (filter (fun p => reads (fst p)) (combine ops outs)).
