(** Byte order handling on a big-endian host: the WORDS_BIGENDIAN parts of the write path
    (src/H5VL_logi_util.hpp:87-107, src/H5VL_logi_nb.cpp:112-151,
    src/H5VL_log_filei_meta.cpp:158-164) and of the decoder (src/H5VL_logi_meta.cpp:194-196). *)
From Verif Require Import Base Spec MetaModel.

(** H5VL_logi_sreverse, H5VL_logi_lreverse, H5VL_logi_llreverse (util.hpp:87-99) on unsigned
    values of 16, 32 and 64 bits; a left shift that leaves the type is cut by the mask. *)
Definition sreverse (v : Z) : Z :=
  Z.lor (Z.land (Z.shiftr v 8) 0x00FF) (Z.land (Z.shiftl v 8) 0xFF00).
(** H5VL_logi_lreverse (src/H5VL_logi_util.hpp:90-93). *)
Definition lreverse (v : Z) : Z :=
  Z.lor (Z.lor (Z.lor
    (Z.land (Z.shiftr v 24) 0x000000FF) (Z.land (Z.shiftr v 8) 0x0000FF00))
    (Z.land (Z.shiftl v 8) 0x00FF0000)) (Z.land (Z.shiftl v 24) 0xFF000000).
(** H5VL_logi_llreverse (src/H5VL_logi_util.hpp:94-99). *)
Definition llreverse (v : Z) : Z :=
  Z.lor (Z.lor (Z.lor (Z.lor (Z.lor (Z.lor (Z.lor
    (Z.land (Z.shiftr v 56) 0x00000000000000FF) (Z.land (Z.shiftr v 40) 0x000000000000FF00))
    (Z.land (Z.shiftr v 24) 0x0000000000FF0000)) (Z.land (Z.shiftr v 8) 0x00000000FF000000))
    (Z.land (Z.shiftl v 8) 0x000000FF00000000)) (Z.land (Z.shiftl v 24) 0x0000FF0000000000))
    (Z.land (Z.shiftl v 40) 0x00FF000000000000)) (Z.land (Z.shiftl v 56) 0xFF00000000000000).

(** Memory of a big-endian host: the bytes of an integer of [n] bytes, and back.
    What the casts of src/H5VL_logi_nb.cpp:112-151 store there. *)
Definition be (n : nat) (v : Z) : list Z := rev (le n v).
(** See [be] (src/H5VL_logi_nb.cpp:112-151). *)
Definition unbe (l : list Z) : Z := unle (rev l).

(** H5VL_logi_lreverse (start, end) and H5VL_logi_llreverse (start, end) on the bytes of the
    range (util.hpp:103-108): [k] integers. *)
Fixpoint lreverse_range (k : nat) (mem : list Z) : list Z :=
  match k with
  | O => mem
  | S k' => be 4 (lreverse (unbe (firstn 4 mem))) ++ lreverse_range k' (skipn 4 mem)
  end.
(** src/H5VL_logi_util.hpp:106-108, eight bytes each. *)
Fixpoint llreverse_range (k : nat) (mem : list Z) : list Z :=
  match k with
  | O => mem
  | S k' => be 8 (llreverse (unbe (firstn 8 mem))) ++ llreverse_range k' (skipn 8 mem)
  end.

(** The header of a request in the memory of a big-endian host (meta.hpp:22-33, packed), and
    after the 32-bit reversal that precedes the metadata write (filei_meta.cpp:158-164). *)
Definition hdr_be (h : hdr) : list Z :=
  be 4 (h_size h) ++ be 4 (h_did h) ++ be 4 (h_flag h) ++ be 8 (h_foff h) ++ be 8 (h_fsize h).
(** src/H5VL_log_filei_meta.cpp:158-164. *)
Definition hdr_out_be (h : hdr) : list Z := lreverse_range 7 (hdr_be h).

(** The bytes after the header written by the request constructor (nb.cpp:112-151): the record
    number and the number of blocks are reversed before they are stored, the steps and
    coordinates after.  [words_be] are the native 64-bit words. *)
Definition words_be (ws : list Z) : list Z := flat_map (be 8) ws.
(** src/H5VL_logi_nb.cpp:112-151. *)
Definition body_be (rec mul : bool) (recnum nsel : Z) (ws : list Z) : list Z :=
  (if rec then be 8 (llreverse recnum) else []) ++
  (if mul then be 4 (lreverse nsel) else []) ++
  llreverse_range (length ws) (words_be ws).

(** The constructor (nb.cpp:42-154) and the bytes that reach the file, on a big-endian host;
    same decisions as [mk_wreq]. *)
Definition sel_words (cfg : Z) (dip : dinfo) (sels : list block) : list Z :=
  let nsel := length sels in
  let ndim := di_ndim dip in
  let rec := is_rec dip sels in
  let encdim := if rec then (ndim - 1)%nat else ndim in
  let enc := (1 <? nsel)%nat && (1 <? encdim)%nat && has cfg CFG_SEL_ENCODE in
  (if enc then firstn (encdim - 1) (skipn (ndim - encdim) (di_dsteps dip)) else []) ++
  encode_words (if enc then Some (di_dsteps dip) else None) (if rec then 1%nat else 0%nat) sels.
(** src/H5VL_logi_nb.cpp:42-154, src/H5VL_log_filei_meta.cpp:158-164. *)
Definition wreq_bytes_be (cfg did : Z) (dip : dinfo) (sels : list block) (foff fsize : Z) : list Z :=
  let h := w_hdr (mk_wreq cfg did dip 0 sels) in
  hdr_out_be (mkhdr (h_size h) (h_did h) (h_flag h) foff fsize) ++
  body_be (is_rec dip sels) (1 <? length sels)%nat
          (match sels with b :: _ => hd 0 (b_start b) | [] => 0 end)
          (Z.of_nat (length sels)) (sel_words cfg dip sels).

(** The decoder's reversal of the selection words (meta.cpp:194-196): [bp] is a pointer to
    64-bit integers and [bsize] a number of bytes, so [bsize] words are reversed, in place.
    Undefined when they leave the buffer, of which [avail] bytes remain after [bp]. *)
Definition decode_reverse_be (bsize : Z) (mem : list Z) : res (list Z) :=
  if 8 * bsize <=? Zlen mem then Ok (llreverse_range (Z.to_nat bsize) mem) else UB.
