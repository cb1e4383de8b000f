(** What zlib's manual says about the calls of ZipModel.v. *)
From Verif Require Import Base Spec MetaModel QueueModel ZipModel.

(** deflateInit finds memory, and a stream that deflate brought to its end is ended without error and leaves no input. *)
Definition documented (s : stream) : Prop := s_init s = Z_OK /\
  forall input cap, d_ret (s_deflate s input cap) = Z_STREAM_END ->
    d_left (s_deflate s input cap) = 0 /\ d_end (s_deflate s input cap) = Z_OK.
(** The compressed form of [input] fits into [cap] bytes. *)
Definition compressed_fits (s : stream) (input : list Z) (cap : Z) : Prop := d_ret (s_deflate s input cap) = Z_STREAM_END.

(** What the connector hands to zlib for a write of a selection it has not seen: everything of the entry behind the header and the
    record number. *)
Definition selection_part (cfg did : Z) (dip : dinfo) (st : rank) (sels : list block) : list Z :=
  let r := mk_wreq cfg did dip (k_mdsize st) sels in firstn (Z.to_nat (selsize_of r)) (sel_bytes r).
(** The selection is not replaced by a reference to an earlier one. *)
Definition not_shared (cfg did : Z) (dip : dinfo) (st : rank) (sels : list block) : Prop :=
  has cfg CFG_METADATA_SHARE = false \/ hash_find (mk_wreq cfg did dip (k_mdsize st) sels) (k_hash st) = Ok None.

(** The level 0 of zlib: two bytes, one stored block with a header of five bytes, four bytes of checksum.  When they do not fit
    the output is cut, and deflateEnd says so. *)
Definition stored : stream := mks Z_OK (fun input cap =>
  let out := [120; 1; 1] ++ le 2 (Zlen input) ++ le 2 (65535 - Zlen input) ++ input ++ [0; 0; 0; 0] in
  if Zlen out <=? cap then mkd Z_STREAM_END 0 out Z_OK else mkd Z_OK 0 (firstn (Z.to_nat cap) out) Z_DATA_ERROR).
