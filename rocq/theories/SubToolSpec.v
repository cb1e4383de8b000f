(** What a user expects of closing a file with subfiles and of the utilities on it. *)
From Verif Require Import Base Spec MetaModel SysModel History DefSpec DumpSpec ReplayDataModel ReplayDataSpec SubModel SubSpec.

(** Calls of a session that only writes. *)
Definition writing_op (ng : nat) (o : sop) : Prop :=
  match o with SRead _ _ => False | _ => session_op ng o end.

(** Group [gid] has written something. *)
Definition wrote (gid : nat) (ops : list sop) : Prop :=
  exists rk did sels data, In (SWrite gid rk did sels data) ops /\ sels <> [].
Definition all_or_none (ng : nat) (ops : list sop) : Prop :=
  (forall gid, (gid < ng)%nat -> wrote gid ops) \/ (forall gid, (gid < ng)%nat -> ~ wrote gid ops).

(** What group [gid] of [np] processes would have done with a file of its own, and then closed it. *)
Definition own_session (gid np : nat) (ops : list sop) (doffs : list Z) : list op :=
  own_part gid ops ++ [OReopen (nth gid doffs 0) np].

(** The calls of all groups, in the order they were made, as on one file. *)
Definition together (o : sop) : list op :=
  match o with
  | SCreate d => [OCreate d]
  | SSetExtent did dims => [OSetExtent did dims]
  | SWrite _ rk did sels data => [OWrite rk did sels data]
  | _ => []
  end.
Definition everyone (ops : list sop) : list op := flat_map together ops.

(** Every element is written by one process of one group only. *)
Definition owned_sub (ops : list sop) : Prop :=
  exists owner : Z -> list Z -> nat * nat,
    Forall (fun o => match o with
                     | SWrite g rk did sels _ => forall x, In x (sel_coords sels) -> owner did x = (g, rk)
                     | _ => True
                     end) ops.

(** What is asked of the calls of a group: they are legal, small enough to be stored, and, if selections are encoded or shared,
    avoid the defects of that (DefSpec.v). *)
Definition group_ok (cfg : Z) (np : nat) (own : list op) : Prop :=
  legal_history true np own /\ sized_history true np own /\
  ((has cfg CFG_SEL_ENCODE = false /\ has cfg CFG_METADATA_SHARE = false) \/ array_history np own).

(** What the log of group [gid] assigns: by metadata dataset, then by process, then in program order. *)
Definition subfile_log (gid np : nat) (ops : list sop) (doffs : list Z) : list assignment :=
  let own := own_session gid np ops doffs in
  flat_map (log_assigns (t_sets (trace_of true np own))) (concat (concat (ls_md (log_of np own)))).
