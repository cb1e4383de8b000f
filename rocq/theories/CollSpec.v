(** What it means that the processes agree. *)
From Verif Require Import Base CollModel.

(** Every process has returned. *)
Definition all_done (ps : list prog) : Prop := Forall (eq Ret) ps.

(** Some process waits and no operation can take place. *)
Definition hangs (grp : nat -> nat) (ps : list prog) : Prop :=
  ~ all_done ps /\ forall ps', ~ step grp ps ps'.

(** States reached in some order of the operations. *)
Inductive reaches (grp : nat -> nat) : list prog -> list prog -> Prop :=
| reaches_here : forall ps, reaches grp ps ps
| reaches_step : forall ps ps' ps'', step grp ps ps' -> reaches grp ps' ps'' -> reaches grp ps ps''.

(** No order of the operations leaves a process waiting, and there is no endless execution. *)
Inductive always_ends (grp : nat -> nat) : list prog -> Prop :=
| ends : forall ps, (all_done ps \/ exists ps', step grp ps ps') ->
    (forall ps', step grp ps ps' -> always_ends grp ps') -> always_ends grp ps.

(** The collective calls in a process's sequence of calls, with what matters for a collective
    read: whether the selection is empty, and whether anything it selects was written before; for a
    flush, whether one of the reads still waiting selects anything that was written before. *)
Inductive kind := KRead (empty found : bool) | KFlush (found : bool) | KClose (rdonly : bool).
Fixpoint outcomes (waiting : bool) (cs : list call) : list kind :=
  match cs with
  | [] => []
  | CWrite _ _ _ :: t => outcomes waiting t
  | CRead n found :: t => KRead (n =? 0) (negb (n =? 0) && found) :: outcomes waiting t
  | CReadLater n found :: t => outcomes (waiting || negb (n =? 0) && found) t
  | CFlush :: t => KFlush waiting :: outcomes false t
  | CClose b :: t => KClose b :: outcomes waiting t
  end.

(** The collective calls alone, and the calls with the emptiness of the selections. *)
Definition plain (k : kind) : kind :=
  match k with KRead _ _ => KRead false false | KFlush _ => KFlush false | KClose b => KClose b end.
Definition emptiness (k : kind) : kind :=
  match k with KRead e _ => KRead e false | KFlush _ => KFlush false | KClose b => KClose b end.
Definition same {A} (f : list call -> A) (progs : list (list call)) : Prop :=
  forall p q, In p progs -> In q progs -> f p = f q.
Definition same_calls : list (list call) -> Prop := same (fun p => map plain (outcomes false p)).
Definition same_emptiness : list (list call) -> Prop := same (fun p => map emptiness (outcomes false p)).
Definition same_outcomes : list (list call) -> Prop := same (outcomes false).

(** A process that only writes and flushes, and then closes the file. *)
Definition writes_or_flushes (c : call) : Prop :=
  match c with CWrite _ _ _ | CFlush => True | _ => False end.
Definition writer (p : list call) : Prop :=
  exists body, p = body ++ [CClose false] /\ Forall writes_or_flushes body.
(** It writes something. *)
Definition wrote (p : list call) : Prop := exists n b m, In (CWrite n b m) p /\ n <> 0.
(** A selection that is not empty has data and metadata. *)
Definition sensible (c : call) : Prop :=
  match c with CWrite n b m => n <> 0 -> 0 < b /\ 0 < m | _ => True end.

(** Without subfiling all processes are in one group. *)
Definition one : nat -> nat := fun _ => 0%nat.

(** Programs without reads. *)
Definition no_read (c : call) : Prop := match c with CRead _ _ | CReadLater _ _ => False | _ => True end.

Definition is_write (c : call) : Prop := match c with CWrite _ _ _ => True | _ => False end.
(** [p] makes writes, a blocking read of [n] blocks, a flush, and then anything. *)
Definition reads_then_flushes (p : list call) (n : Z) (found : bool) : Prop :=
  exists ws rest, p = ws ++ CRead n found :: CFlush :: rest /\ Forall is_write ws.

(** [p] buffers reads, at least one finding something or none of them, and flushes. *)
Definition is_later (c : call) : Prop := match c with CReadLater n _ => 0 <= n | _ => False end.
Definition buffers_then_flushes (p : list call) (found : bool) : Prop :=
  exists rs rest, p = rs ++ CFlush :: rest /\ Forall is_later rs /\
    (found = true <-> exists n, In (CReadLater n true) rs /\ n <> 0).
