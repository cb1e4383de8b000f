(** What a user expects of writing to a file with subfiles again, after reading or reopening it. *)
From Verif Require Import Base Spec MetaModel SysModel SubModel.
Open Scope list_scope. Open Scope Z_scope.

(** Calls of [ng] groups; the file may be closed and opened again by as many groups. *)
Definition sessions_op (ng : nat) (o : sop) : Prop :=
  match o with
  | SWrite g _ _ _ _ => (g < ng)%nat
  | SFlush doffs => length doffs = ng
  | SRead doffs calls => length doffs = ng /\ length calls = ng
  | SReopen doffs nps => length doffs = ng /\ length nps = ng
  | _ => True
  end.

(** A process of the group writes at least one byte. *)
Definition writes_bytes (gid : nat) (ops : list sop) : Prop :=
  exists rk did sels data, In (SWrite gid rk did sels data) ops /\ sels <> [] /\ data <> [].

(** A read of all subfiles, or closing and reopening the file. *)
Definition looks_again (cfg : Z) (o : sop) : Prop :=
  match o with
  | SRead _ _ => has cfg CFG_SINGLE_SUBFILE_READ = false
  | SReopen _ _ => True
  | _ => False
  end.

(** Calls that write pending data to the subfiles. *)
Definition stores (o : sop) : Prop :=
  match o with SFlush _ | SRead _ _ | SReopen _ _ => True | _ => False end.

(** Calls other than a write. *)
Definition no_write (o : sop) : Prop := match o with SWrite _ _ _ _ _ => False | _ => True end.
