(** The legal histories for which the connector is right in its usual settings, in one predicate. *)
From Verif Require Import Base Spec MetaModel QueueModel FlushModel IndexModel ReadModel SysModel SysSpec History DefSpec.

(** Something was written before the first read ([w] : already so). *)
Fixpoint written_first (w : bool) (ops : list op) : bool :=
  match ops with
  | [] => true
  | OWrite _ _ sels _ :: rest => written_first (w || match sels with [] => false | _ => true end) rest
  | ORead _ _ :: rest => w && written_first w rest
  | _ :: rest => written_first w rest
  end.

(** Collective reads, files without subfiles; no limit on the metadata buffer, or a write before the
    first read; a legal history of reasonable sizes; and, unless selections are stored as coordinates and not shared, the (default)
    compact index and a history that avoids the four defects listed in DefSpec.v, or the array index and
    a history that avoids those of the array index. *)
Definition tame (e : env) (cfg : Z) (np : nat) (ops : list op) : Prop :=
  e_coll e = true /\ (e_limit e = None \/ written_first false ops = true) /\ is_sort (e_sort e) /\ plain_cfg cfg /\
  legal_history true np ops /\ sized_history true np ops /\
  ((has cfg CFG_SEL_ENCODE = false /\ has cfg CFG_METADATA_SHARE = false) \/ (e_kind e = KCompact /\ default_history np ops) \/
   (e_kind e = KArray /\ array_history np ops)).

(** The calls that create, resize or write datasets; the others are flushes, reads, reopenings. *)
Definition makes_change (o : op) : bool :=
  match o with OCreate _ | OSetExtent _ _ | OWrite _ _ _ _ => true | _ => false end.

(** The same environment with another limit on the metadata buffer. *)
Definition with_limit (e : env) (lim : option Z) : env := mkenv (e_zlib e) (e_kind e) lim (e_sort e) (e_coll e).
