(** Vocabulary for statements about H5Dread_n. *)
From Verif Require Import Base Spec MetaModel SysModel History NbModel ReadNModel.

(** The reads of one block each that a read of several blocks stands for: block by block, each into the part of
    the buffer behind the previous one.  [esize]: the element size; [at_]: where the next part begins. *)
Fixpoint one_by_one (esize did : Z) (mem : bytemap) (at_ : Z) (blocks : list block) : list rcall :=
  match blocks with
  | [] => []
  | b :: rest => mkrcall did [b] at_ mem :: one_by_one esize did mem (at_ + esize * Zlen (coords b)) rest
  end.
(** [doffs]: one for each read, where a log dataset would be placed if it has something to flush. *)
Definition read_one_by_one (doffs : list Z) (esize : Z) (c : rcall) : list op :=
  map (fun p => ORead (fst p) [snd p]) (combine doffs (one_by_one esize (rc_did c) (rc_mem c) (rc_buf c) (rc_sels c))).

(** The same program with non-blocking reads that have blocks of their own: those in the arrays when the call is
    made ([arrs]: what the arrays hold). *)
Fixpoint by_value (arrs : nat -> list block) (ops : list aop) : list nop :=
  match ops with
  | [] => []
  | ASet arr blocks :: rest => by_value (fun k => if (k =? arr)%nat then blocks else arrs k) rest
  | AReadN rk did n arr buf :: rest => NRead rk (mkrcall did (firstn n (arrs arr)) buf (fun _ => 0)) :: by_value arrs rest
  | ACall o :: rest => o :: by_value arrs rest
  end.
(** No array is overwritten while a read that uses it waits for H5Fflush ([used]: the arrays in use). *)
Fixpoint arrays_kept (used : list nat) (ops : list aop) : bool :=
  match ops with
  | [] => true
  | ASet arr _ :: rest => negb (existsb (Nat.eqb arr) used) && arrays_kept used rest
  | AReadN _ _ _ arr _ :: rest => arrays_kept (arr :: used) rest
  | ACall (NOp (OFlush _)) :: rest | ACall (NOp (OReopen _ _)) :: rest => arrays_kept [] rest
  | ACall _ :: rest => arrays_kept used rest
  end.
(** Calls that neither complete queued reads nor use or overwrite the arrays [arr]. *)
Definition leaves (arr : nat) (o : aop) : Prop :=
  match o with
  | ACall (NOp (OFlush _)) | ACall (NOp (OReopen _ _)) => False
  | ASet k _ => k <> arr
  | AReadN _ _ _ k _ => k <> arr
  | _ => True
  end.
