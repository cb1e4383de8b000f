(** Histories for which the default settings (encoded selections, shared metadata, compact index) are
    shown to be right. *)
From Verif Require Import Base Spec MetaModel SysModel History.

(** A write of blocks that all lie in one record of a dataset with an unlimited first dimension. *)
Definition record_write (d : dinfo) (sels : list block) : Prop :=
  hd 0 (di_mdims d) = UNLIMITED /\ exists r, Forall (fun b => hd 0 (b_start b) = r /\ hd 0 (b_count b) = 1) sels.

(** A block that is shorter than the dataset in every dimension but the first. *)
Definition narrow (d : dinfo) (b : block) : Prop := Forall2 (fun len n => n < len) (tl (di_dims d)) (tl (b_count b)).

(** Writes of several blocks consist of narrow blocks and are not record writes; a record write of one
    block is not repeated by the same process; datasets have a dimension and fewer than 2^62
    elements. *)
Definition default_op (t : trace) (seen : list (nat * list block)) (o : op) : Prop :=
  match o with
  | OCreate d => di_dims d <> []
  | OWrite rk did sels _ => forall d, dataset_of t did d ->
      ((1 < length sels)%nat -> Zprod (di_dims d) < 2 ^ 62 /\ Forall (narrow d) sels /\ ~ record_write d sels) /\
      (length sels = 1%nat -> record_write d sels -> ~ In (rk, sels) seen)
  | _ => True
  end.
Fixpoint default_run (t : trace) (seen : list (nat * list block)) (ops : list op) : Prop :=
  match ops with
  | [] => True
  | o :: rest => default_op t seen o /\
      default_run (tstep true t o) (match o with OWrite rk _ sels _ => (rk, sels) :: seen | _ => seen end) rest
  end.
Definition default_history (np : nat) (ops : list op) : Prop := default_run (mktr [] [] (repeat [] np)) [] ops.

(** The same for the array index, which keeps the blocks of a shared selection as they were found: in
    addition, writes of the same several blocks go to datasets of the same element size ([f] gives it);
    record writes of one block may be repeated. *)
Definition array_op (f : list block -> Z) (t : trace) (o : op) : Prop :=
  match o with
  | OCreate d => di_dims d <> []
  | OWrite _ did sels _ => (1 < length sels)%nat -> forall d, dataset_of t did d ->
      Zprod (di_dims d) < 2 ^ 62 /\ Forall (narrow d) sels /\ ~ record_write d sels /\ di_esize d = f sels
  | _ => True
  end.
Fixpoint array_run (f : list block -> Z) (t : trace) (ops : list op) : Prop :=
  match ops with
  | [] => True
  | o :: rest => array_op f t o /\ array_run f (tstep true t o) rest
  end.
Definition array_history (np : nat) (ops : list op) : Prop := exists f, array_run f (mktr [] [] (repeat [] np)) ops.
