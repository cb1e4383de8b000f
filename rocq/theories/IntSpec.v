(** Vocabulary of property C74: how much a history writes. *)
From Verif Require Import Base Spec MetaModel SysModel IntModel.

Definition data_bytes (o : op) : Z := match o with OWrite _ _ _ data => Zlen data | _ => 0 end.
Definition blocks_of (o : op) : Z := match o with OWrite _ _ sels _ => Zlen sels | _ => 0 end.

(** A call within these limits: datasets of at most 32 dimensions (the HDF5 limit), at most 2^21
    blocks in a selection, fewer than 2^31 bytes in a write, fewer than 2^20 processes. *)
Definition moderate (o : op) : Prop :=
  match o with
  | OCreate d => (length (di_dims d) <= 32)%nat
  | OWrite _ _ sels data => Zlen sels <= 2 ^ 21 /\ Zlen data < 2 ^ 31
  | OReopen _ np => Z.of_nat np < 2 ^ 20
  | _ => True
  end.

(** With H5VL_LOG_PASSTHRU also the total of a history is limited: 2^20 calls and blocks and fewer
    than 2^31 bytes. *)
Definition modest (cfg : Z) (np : nat) (ops : list op) : Prop :=
  Forall moderate ops /\ Z.of_nat np < 2 ^ 20 /\ Zlen ops < 2 ^ 31 /\
  (has cfg CFG_PASSTHRU = true ->
   Zlen ops < 2 ^ 20 /\ Zsum (map blocks_of ops) <= 2 ^ 20 /\ Zsum (map data_bytes ops) < 2 ^ 31).

(** Calls that write nothing to the file. *)
Definition queues (o : op) : Prop :=
  match o with OCreate _ | OSetExtent _ _ | OWrite _ _ _ _ => True | _ => False end.
(** Calls that flush (a read only if it is collective). *)
Definition flushes (e : env) (o : op) : Prop :=
  match o with OFlush _ | OReopen _ _ => True | ORead _ _ => e_coll e = true | _ => False end.

(** Writes of one process, with their data. *)
Definition writes (rk : nat) (l : list (Z * list block)) (datas : list (list Z)) : list op :=
  map (fun p => OWrite rk (fst (fst p)) (snd (fst p)) (snd p)) (combine l datas).
(** The part of a buffer that a C int can count: its size modulo 2^32. *)
Definition counted (data : list Z) : list Z := firstn (Z.to_nat (Zlen data mod 2 ^ 32)) data.

(** A dataset of [a] rows of [b] elements of [es] bytes; all of it; and a program that writes all of
    it, flushes and reads it back. *)
Definition wide (es a b : Z) : dinfo := mkdinfo es [a; b] [a; b] [] None.
Definition whole (a b : Z) : list block := [mkblock [0; 0] [a; b]].
Definition whole_history (es a b doff : Z) (mem : bytemap) (data : list Z) : list op :=
  [OCreate (wide es a b); OWrite 0 0 (whole a b) data; OFlush doff; ORead (doff + es * (a * b)) [mkrcall 0 (whole a b) 0 mem]].
