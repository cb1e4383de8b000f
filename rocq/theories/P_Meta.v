(** Properties of single metadata entries: C04, C05, C06, C41.

    [mk_wreq] builds the entry of a write, [wreq_bytes] are its bytes in the metadata log and
    [decode] is what a reader recovers from them, wherever the entry stands in a section
    ([pre], [post]).  [describes m did foff fsize esize sels] (LocalSpec.v) says that the reader
    recovers the dataset, the place of the data, the list of blocks and, for every block, the
    number of data bytes before it. *)
From Verif Require Import Base Spec MetaModel QueueModel LocalSpec EndianModel EndianProofs
  MetaClaims MetaExamples.

(** ** C04 Selections stored as coordinates survive

    One block, or one dimension, or no selection encoding.  Compression of selections is left
    out (it is never carried out, see C21).  The size bound is the range of the C int that
    holds it. *)
Theorem C04_coordinates_round_trip : forall z cfg did d mdsize sels foff fsize pre post,
  described d -> 0 <= did < 2 ^ 31 -> coordinate foff -> coordinate fsize ->
  0 < Zlen sels < 2 ^ 31 -> Forall (well_shaped (di_ndim d)) sels ->
  (length sels = 1%nat \/ (di_ndim d <= 1)%nat \/ has cfg CFG_SEL_ENCODE = false) ->
  (length sels = 1%nat \/ has cfg CFG_SEL_DEFLATE = false) ->
  let w := published (mk_wreq cfg did d mdsize sels) foff fsize in
  Zlen (wreq_bytes w) < 2 ^ 31 ->
  exists m, decode z d (pre ++ wreq_bytes w ++ post) (Zlen pre) = Ok m /\
    describes m did foff fsize (di_esize d) sels /\
    (~ extendible d -> me_dsize m = di_esize d * count_elems sels).
Proof. exact plain_round_trip. Qed.
Print Assumptions C04_coordinates_round_trip.
Example C04_applies : described m_d3 /\ Forall (well_shaped (di_ndim m_d3)) m_sels /\
  0 < Zlen m_sels < 2 ^ 31 /\ has 8 CFG_SEL_ENCODE = false /\ has 8 CFG_SEL_DEFLATE = false /\
  ~ extendible m_d3 /\
  Zlen (wreq_bytes (published (mk_wreq 8 3 m_d3 0 m_sels) 100 92)) < 2 ^ 31.
Proof. exact m_plain_ok. Qed.

(** ** C05 Selections stored with offset encoding survive

    Proved for blocks shorter than the array in every dimension but the first; the rest of the
    property is false. *)
Theorem C05_encoding_round_trip_partial : forall z cfg did d mdsize sels foff fsize pre post,
  described d -> 0 <= did < 2 ^ 31 -> coordinate foff -> coordinate fsize ->
  0 < Zlen sels < 2 ^ 31 -> Forall (well_shaped (di_ndim d)) sels ->
  (length sels = 1%nat \/ has cfg CFG_SEL_DEFLATE = false) ->
  sized (di_dims d) -> Forall (in_array (di_dims d)) sels ->
  ~ extendible d -> Forall (inner_short (di_dims d)) sels ->
  let w := published (mk_wreq cfg did d mdsize sels) foff fsize in
  Zlen (wreq_bytes w) < 2 ^ 31 ->
  exists m, decode z d (pre ++ wreq_bytes w ++ post) (Zlen pre) = Ok m /\
    describes m did foff fsize (di_esize d) sels /\
    me_dsize m = di_esize d * count_elems sels.
Proof. exact encoded_round_trip. Qed.
Print Assumptions C05_encoding_round_trip_partial.
Example C05_applies : described m_d3 /\ Forall (well_shaped (di_ndim m_d3)) m_sels /\
  sized (di_dims m_d3) /\ Forall (in_array (di_dims m_d3)) m_sels /\
  ~ extendible m_d3 /\ Forall (inner_short (di_dims m_d3)) m_sels /\
  has 10 CFG_SEL_ENCODE = true /\ has 10 CFG_SEL_DEFLATE = false /\
  Zlen (wreq_bytes (published (mk_wreq 10 3 m_d3 0 m_sels) 100 92)) < 2 ^ 31.
Proof. exact m_short_ok. Qed.

(** The restriction is exact: if a multi-block write is recovered, all its blocks are short. *)
Theorem C05_encoding_only_short_blocks : forall z cfg did d mdsize sels foff fsize pre post m,
  described d -> 0 <= did < 2 ^ 31 -> coordinate foff -> coordinate fsize ->
  1 < Zlen sels < 2 ^ 31 -> Forall (well_shaped (di_ndim d)) sels ->
  has cfg CFG_SEL_ENCODE = true -> has cfg CFG_SEL_DEFLATE = false -> (1 < di_ndim d)%nat ->
  sized (di_dims d) -> Forall (in_array (di_dims d)) sels -> ~ extendible d ->
  let w := published (mk_wreq cfg did d mdsize sels) foff fsize in
  Zlen (wreq_bytes w) < 2 ^ 31 ->
  decode z d (pre ++ wreq_bytes w ++ post) (Zlen pre) = Ok m ->
  describes m did foff fsize (di_esize d) sels ->
  Forall (inner_short (di_dims d)) sels.
Proof. exact encoded_only_short. Qed.
Print Assumptions C05_encoding_only_short_blocks.

(** The full property is false: a two-block write of a 4x4 array, one block of which has all
    four columns. *)
Theorem C05_encoding_round_trip_refuted : exists z cfg did d sels foff fsize m,
  described d /\ Forall (well_shaped (di_ndim d)) sels /\ sized (di_dims d) /\
  Forall (in_array (di_dims d)) sels /\ ~ extendible d /\ has cfg CFG_SEL_DEFLATE = false /\
  decode z d (wreq_bytes (published (mk_wreq cfg did d 0 sels) foff fsize)) 0 = Ok m /\
  ~ describes m did foff fsize (di_esize d) sels.
Proof. exact wide_entry_refuted. Qed.
Print Assumptions C05_encoding_round_trip_refuted.

(** ** C06 Record writes survive

    The blocks are recovered with the record number as first coordinate and length one (with
    offset encoding under the restriction of C05, inside the record).  Missing: the data size
    reported by the decoder, which is wrong. *)
Theorem C06_record_round_trip_partial : forall z cfg did d mdsize sels r foff fsize pre post,
  described d -> 0 <= did < 2 ^ 31 -> coordinate foff -> coordinate fsize ->
  0 < Zlen sels < 2 ^ 31 -> Forall (well_shaped (di_ndim d)) sels ->
  (length sels = 1%nat \/ has cfg CFG_SEL_DEFLATE = false) ->
  extendible d -> in_record r sels ->
  (length sels = 1%nat \/ (di_ndim d <= 1)%nat \/ has cfg CFG_SEL_ENCODE = false \/
   (sized (di_dims d) /\ Forall (in_array (di_dims d)) sels /\
    Forall (fun b => inner_short (tl (di_dims d)) (tail_block b)) sels)) ->
  let w := published (mk_wreq cfg did d mdsize sels) foff fsize in
  Zlen (wreq_bytes w) < 2 ^ 31 ->
  exists m, decode z d (pre ++ wreq_bytes w ++ post) (Zlen pre) = Ok m /\
    describes m did foff fsize (di_esize d) sels.
Proof. exact record_round_trip. Qed.
Print Assumptions C06_record_round_trip_partial.
Example C06_applies : described m_dr /\ Forall (well_shaped (di_ndim m_dr)) m_rec /\
  extendible m_dr /\ in_record 2 m_rec /\
  sized (di_dims m_dr) /\ Forall (in_array (di_dims m_dr)) m_rec /\
  Forall (fun b => inner_short (tl (di_dims m_dr)) (tail_block b)) m_rec /\
  Zlen (wreq_bytes (published (mk_wreq 10 3 m_dr 0 m_rec) 100 16)) < 2 ^ 31.
Proof. exact m_rec_ok. Qed.

(** The data size of a one-block record write is not the size of its data. *)
Theorem C06_record_size_refuted : exists z cfg did d sels r foff fsize m,
  described d /\ Forall (well_shaped (di_ndim d)) sels /\ sized (di_dims d) /\
  Forall (in_array (di_dims d)) sels /\ extendible d /\ in_record r sels /\ length sels = 1%nat /\
  decode z d (wreq_bytes (published (mk_wreq cfg did d 0 sels) foff fsize)) 0 = Ok m /\
  describes m did foff fsize (di_esize d) sels /\
  me_dsize m <> di_esize d * count_elems sels.
Proof. exact record_size_refuted. Qed.
Print Assumptions C06_record_size_refuted.

(** ** C41 Byte order *)
Theorem C41_reversal_involution :
  (forall v, 0 <= v < 2 ^ 16 -> sreverse (sreverse v) = v) /\
  (forall v, 0 <= v < 2 ^ 32 -> lreverse (lreverse v) = v) /\
  (forall v, 0 <= v < 2 ^ 64 -> llreverse (llreverse v) = v).
Proof. exact (conj sreverse_twice (conj lreverse_twice llreverse_twice)). Qed.
Print Assumptions C41_reversal_involution.

(** Reversal exchanges the two byte orders. *)
Theorem C41_reversal_is_reversal :
  (forall v, le 4 (lreverse v) = rev (le 4 v)) /\ (forall v, le 8 (llreverse v) = rev (le 8 v)).
Proof. exact (conj le_lreverse le_llreverse). Qed.
Print Assumptions C41_reversal_is_reversal.

(** An entry written by a big-endian host has the bytes a little-endian host writes, except for
    the sixteen bytes that hold the place and size of its data. *)
Theorem C41_entry_partial : forall cfg did d sels foff fsize,
  let l := wreq_bytes (published (mk_wreq cfg did d 0 sels) foff fsize) in
  let b := wreq_bytes_be cfg did d sels foff fsize in
  length b = length l /\ firstn 12 b = firstn 12 l /\ skipn 28 b = skipn 28 l.
Proof. exact entry_be_rest. Qed.
Print Assumptions C41_entry_partial.

(** Those agree only when the two halves of each number are equal. *)
Theorem C41_entry_exact : forall cfg did d sels foff fsize,
  coordinate foff -> coordinate fsize ->
  (wreq_bytes_be cfg did d sels foff fsize =
   wreq_bytes (published (mk_wreq cfg did d 0 sels) foff fsize) <->
   foff / 2 ^ 32 = foff mod 2 ^ 32 /\ fsize / 2 ^ 32 = fsize mod 2 ^ 32).
Proof. exact entry_be_same. Qed.
Print Assumptions C41_entry_exact.

Theorem C41_entry_refuted : exists cfg did d sels foff fsize,
  described d /\ Forall (well_shaped (di_ndim d)) sels /\ coordinate foff /\ coordinate fsize /\
  wreq_bytes_be cfg did d sels foff fsize <>
  wreq_bytes (published (mk_wreq cfg did d 0 sels) foff fsize).
Proof. exact be_entry_refuted. Qed.
Print Assumptions C41_entry_refuted.

(** A big-endian reader leaves the buffer on every last entry of a section. *)
Theorem C41_reader_refuted : forall bsize mem, 0 < bsize -> Zlen mem = bsize ->
  decode_reverse_be bsize mem = UB.
Proof. exact be_reader_leaves_buffer. Qed.
Print Assumptions C41_reader_refuted.
Example C41_applies : coordinate 4096 /\ coordinate 24 /\ 4096 / 2 ^ 32 <> 4096 mod 2 ^ 32 /\
  coordinate (7 * (2 ^ 32 + 1)) /\ 7 * (2 ^ 32 + 1) / 2 ^ 32 = (7 * (2 ^ 32 + 1)) mod 2 ^ 32 /\
  decode_reverse_be 4 [0;0;0;4] = UB /\ sreverse 258 = 513 /\ lreverse 1 = 2 ^ 24 /\ llreverse 1 = 2 ^ 56.
Proof. repeat split; try (intro H; discriminate H); vm_compute; try reflexivity; intro H; discriminate H. Qed.
