(** Vocabulary for statements about reads that follow writes. *)
From Verif Require Import Base Spec MetaModel SysModel.

(** How many processes have the file open after [ops], if [np] had before. *)
Fixpoint opened_by (np : nat) (ops : list op) : nat :=
  match ops with
  | [] => np
  | OReopen _ np' :: rest => opened_by np' rest
  | _ :: rest => opened_by np rest
  end.

(** Every read is made by the only process, or when every write before it was followed by H5Fflush or
    H5Fclose.  [np]: number of processes; [pend]: there were writes since. *)
Fixpoint settled (np : nat) (pend : bool) (ops : list op) : bool :=
  match ops with
  | [] => true
  | OWrite _ _ sels _ :: rest => settled np (pend || match sels with [] => false | _ => true end) rest
  | OFlush _ :: rest => settled np false rest
  | ORead _ _ :: rest => ((np =? 1)%nat || negb pend) && settled np false rest
  | OReopen _ np' :: rest => settled np' false rest
  | _ :: rest => settled np pend rest
  end.

Definition is_write (o : op) : Prop := match o with OWrite _ _ _ _ => True | _ => False end.

(** The same write with other data of the same length. *)
Definition same_write (o o' : op) : Prop :=
  match o, o' with
  | OWrite rk did sels data, OWrite rk' did' sels' data' =>
      rk = rk' /\ did = did' /\ sels = sels' /\ length data = length data'
  | _, _ => False
  end.

(** Nothing was written since the file was created or opened, or the last thing done was a read. *)
Definition at_rest (ops : list op) : Prop :=
  ops = [] \/ exists pre o, ops = pre ++ [o] /\ match o with ORead _ _ | OReopen _ _ => True | _ => False end.
