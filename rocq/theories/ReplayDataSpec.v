(** What the file made by h5lreplay must contain: vocabulary. *)
From Verif Require Import Base Spec MetaModel SysModel History DumpSpec ReplayDataModel.

(** What an H5Dwrite stores. *)
Definition stored (w : rwrite) : list assignment := assigns_of (rw_esize w) (rw_did w) [rw_block w] (rw_bytes w).

(** The processes write independently: any order that respects the order of each process. *)
Inductive interleaving {A} : list (list A) -> list A -> Prop :=
| il_done : forall ls, Forall (fun l => l = []) ls -> interleaving ls []
| il_next : forall ls i x r l, nth_error ls i = Some (x :: r) -> interleaving (upd_nth i r ls) l ->
    interleaving ls (x :: l).

(** The value of an element of the new file after these H5Dwrites ([None]: never written, hence the fill
    value). *)
Definition content (ws : list rwrite) (did : Z) (x : list Z) : option value :=
  last_assigned did x (flat_map stored ws).

(** What a write of the log assigns. *)
Definition log_assigns (sets : list dinfo) (l : logged) : list assignment :=
  assigns_of (esize_at sets (lg_did l)) (lg_did l) (lg_sels l) (lg_data l).

(** Every block written lies in the final extent of its dataset, and the data of a write is smaller
    than 2 GiB. *)
Definition stays_in (t : trace) (o : op) : Prop :=
  match o with
  | OWrite _ did sels data => Zlen data < 2 ^ 31 /\ exists d, dataset_of t did d /\ Forall (block_in d) sels
  | _ => True
  end.

(** Every element is written by one process only. *)
Definition owned (ops : list op) : Prop :=
  exists owner : Z -> list Z -> nat,
    Forall (fun o => match o with
                     | OWrite rk did sels _ => forall x, In x (sel_coords sels) -> owner did x = rk
                     | _ => True
                     end) ops.

(** The file is always used by [np] processes. *)
Definition same_np (np : nat) (o : op) : Prop := match o with OReopen _ n => n = np | _ => True end.
