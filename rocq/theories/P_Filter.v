(** Properties of datasets with filters.

    [stored_data comp ids x] is what a write of the bytes [x] puts in the log for a dataset with
    the filters [ids], [unfilter] what the read path applies to it, [filtered_block] the read of
    one intersection.  [comp] is the compressor, an arbitrary function. *)
From Verif Require Import Base Spec MetaModel IndexModel ReadModel PassModel FilterModel FilterSpec FilterClaims.

(** ** C19 Filtered datasets read back what was written

    Half of it: whatever the number of deflate stages, the log holds data from which the written
    bytes can be recovered by undoing the stages; any other filter makes the write fail. *)
Theorem C19_stored_partial : forall comp dec ids x, lossless comp dec -> Forall (eq DEFLATE) ids ->
  exists y, stored_data comp ids x = Ok y /\ decode_times dec (length ids) y = Some x.
Proof. exact stored_decodes. Qed.
Print Assumptions C19_stored_partial.
Theorem C19_unsupported_filter : forall comp ids x, ~ Forall (eq DEFLATE) ids ->
  stored_data comp ids x = Err.
Proof. exact unsupported. Qed.
Print Assumptions C19_unsupported_filter.
Example C19_stored_applies : lossless toy untoy /\
  stored_data toy [DEFLATE; DEFLATE; DEFLATE] [7; 8] = Ok [120;156;120;156;120;156;7;8].
Proof. split; [exact toy_lossless|reflexivity]. Qed.

(** The read path compresses again: with any compressor that writes the zlib header, no data that
    does not itself look like a zlib stream is recovered. *)
Theorem C19_read_back_refuted : forall comp ids x, (forall y, zlib_header (comp y)) -> ids <> [] ->
  Forall (eq DEFLATE) ids -> ~ zlib_header x ->
  exists y u, stored_data comp ids x = Ok y /\ unfilter comp ids y = Ok (Some u) /\ u <> x.
Proof. exact never_undone. Qed.
Print Assumptions C19_read_back_refuted.
Example C19_read_back_applies : (forall y, zlib_header (toy y)) /\ ~ zlib_header [7; 8].
Proof. split; [exact toy_header|]. intros [r H]. discriminate. Qed.

(** No read of more than one byte of a filtered dataset succeeds. *)
Theorem C19_read_fails_refuted : forall comp ids file s, ids <> [] -> 0 < sr_fsize s ->
  1 < sr_esize s * Zprod (sr_count s) ->
  forall bytes, filtered_block comp ids file s <> Ok bytes.
Proof. exact block_fails. Qed.
Print Assumptions C19_read_fails_refuted.

(** The second compression writes past the end of the buffer for data that does not compress. *)
Theorem C19_overflow_refuted : forall comp id file s, id = DEFLATE -> 0 < sr_fsize s ->
  sr_xsize s <= sr_fsize s ->
  sr_fsize s < Zlen (comp (get file (sr_foff s) (Z.to_nat (sr_fsize s)))) ->
  filtered_block comp [id] file s = UB.
Proof. exact overflow. Qed.
Print Assumptions C19_overflow_refuted.
Example C19_overflow_applies : let s := mksret 1 1 100 3 0 1 5000 [1] [0] [1] [0] [1] in
  0 < sr_fsize s /\ sr_xsize s <= sr_fsize s /\
  sr_fsize s < Zlen (toy (get (put (fun _ => 0) 100 (toy [7])) (sr_foff s) (Z.to_nat (sr_fsize s)))).
Proof. exact toy_overflow. Qed.

(** In pass-through mode the read fails unless the block is the whole log dataset. *)
Theorem C19_pass_through_refuted : forall lds file mem zbuf s doff len,
  foff2logidx (sr_foff s) lds = Some (doff, len) -> 0 <= len -> 0 < sr_fsize s -> sr_fsize s <> len ->
  pt_filtered lds file mem zbuf s = Err.
Proof. exact pass_fails. Qed.
Print Assumptions C19_pass_through_refuted.
