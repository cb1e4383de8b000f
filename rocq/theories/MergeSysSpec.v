(** Histories in which merging is of no consequence. *)
From Verif Require Import Base Spec MetaModel SysModel.

(** No process writes a dataset twice without a flush, a read or a reopening in between
    ([since]: process and dataset of the writes since the last of these). *)
Fixpoint once_each (since : list (nat * Z)) (ops : list op) : Prop :=
  match ops with
  | [] => True
  | OWrite _ _ [] _ :: rest => once_each since rest
  | OWrite rk did _ _ :: rest => ~ In (rk, did) since /\ once_each ((rk, did) :: since) rest
  | OFlush _ :: rest | ORead _ _ :: rest | OReopen _ _ :: rest => once_each [] rest
  | _ :: rest => once_each since rest
  end.

(** Merging is on, together with some other setting, and selections are stored as plain coordinates:
    neither encoded nor compressed. *)
Definition merging (cfg : Z) : Prop :=
  has cfg CFG_METADATA_MERGE = true /\ cfg <> CFG_METADATA_MERGE /\
  has cfg CFG_SEL_ENCODE = false /\ has cfg CFG_SEL_DEFLATE = false /\ 0 <= cfg < 16.
