(** What a user expects of a file with subfiles. *)
From Verif Require Import Base Spec MetaModel SysModel History SubModel.

(** The calls of a history as the processes of one group see them, had the group a file of its own. *)
Definition own (gid : nat) (o : sop) : list op :=
  match o with
  | SCreate d => [OCreate d]
  | SSetExtent did dims => [OSetExtent did dims]
  | SWrite g rk did sels data => if (g =? gid)%nat then [OWrite rk did sels data] else []
  | SFlush doffs => [OFlush (nth gid doffs 0)]
  | SRead doffs calls => [ORead (nth gid doffs 0) (nth gid calls [])]
  | SReopen doffs nps => [OReopen (nth gid doffs 0) (nth gid nps 0%nat)]
  end.
Definition own_part (gid : nat) (ops : list sop) : list op := flat_map (own gid) ops.

(** Calls of [ng] groups within one session. *)
Definition session_op (ng : nat) (o : sop) : Prop :=
  match o with
  | SWrite g _ _ _ _ => (g < ng)%nat
  | SFlush doffs => length doffs = ng
  | SRead doffs calls => length doffs = ng /\ length calls = ng
  | SReopen _ _ => False
  | _ => True
  end.

(** Between two reads either every group writes something or none does.  [w]: which groups have
    written since the last read. *)
Fixpoint balanced (w : list bool) (ops : list sop) : Prop :=
  match ops with
  | [] => True
  | SWrite g _ _ sels _ :: rest => balanced (match sels with [] => w | _ => upd_nth g true w end) rest
  | SRead _ _ :: rest =>
      (Forall (fun b => b = true) w \/ Forall (fun b => b = false) w) /\ balanced (map (fun _ => false) w) rest
  | _ :: rest => balanced w rest
  end.

(** Descriptions of the datasets of a history, and nothing written. *)
Definition nothing_written (t : trace) : trace := mktr (t_sets t) [] [].
