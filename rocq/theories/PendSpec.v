(** Vocabulary for statements about pending reads and about the file view. *)
From Verif Require Import Base Spec MetaModel IndexModel ReadModel SysModel.

(** A read of the same elements into the same buffer, with the memory replaced. *)
Definition with_mem (mem : bytemap) (c : rcall) : rcall :=
  mkrcall (rc_did c) (rc_sels c) (rc_buf c) mem.

(** [buf] are the bytes the read [c] returns: they occupy memory from rc_buf on. *)
Definition apart_in_memory (x y : rcall * list Z) : Prop :=
  rc_buf (fst x) + Zlen (snd x) <= rc_buf (fst y) \/ rc_buf (fst y) + Zlen (snd y) <= rc_buf (fst x).

(** No element of a dataset is requested by both reads. *)
Definition no_common_element (x y : rcall) : Prop :=
  rc_did x = rc_did y ->
  forall c, In c (sel_coords (rc_sels x)) -> In c (sel_coords (rc_sels y)) -> False.

(** A filetype is legal when its bytes are listed in increasing order, none twice
    (MPI 4.0, 14.3: monotonically non-decreasing, non-overlapping). *)
Definition legal_view (bytes : list Z) : Prop := StronglySorted Z.lt bytes.

(** A piece to read: a box of [sr_count] elements at [sr_dstart] inside a logged block of
    [sr_dsize] elements, whose rows a C int can count. *)
Definition piece_ok (s : sret) : Prop :=
  0 < sr_esize s /\ sr_count s <> [] /\
  length (sr_msize s) = length (sr_count s) /\ length (sr_mstart s) = length (sr_count s) /\
  length (sr_dsize s) = length (sr_count s) /\
  Forall2 (fun n p => 0 <= fst p /\ 0 < snd p /\ fst p + snd p <= n)
          (sr_dsize s) (combine (sr_dstart s) (sr_count s)) /\
  length (sr_dstart s) = length (sr_count s) /\
  last (sr_count s) 1 * sr_esize s < 2 ^ 31.

(** The bytes of the logged block a piece belongs to. *)
Definition block_from (s : sret) : Z := sr_foff s + sr_doff s.
Definition block_to (s : sret) : Z := block_from s + sr_esize s * Zprod (sr_dsize s).

(** Two pieces of different logged blocks, or of one one-dimensional logged block. *)
Definition blocks_apart (s t : sret) : Prop := block_to s <= block_from t \/ block_to t <= block_from s.
Definition same_1d_block (s t : sret) : Prop :=
  sr_foff s = sr_foff t /\ sr_doff s = sr_doff t /\ sr_esize s = sr_esize t /\
  sr_dsize s = sr_dsize t /\ length (sr_dsize s) = 1%nat.
