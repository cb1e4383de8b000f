(** Properties of index searches: C08 (for one search), C09, C10, C35.

    An index is a list of decoded metadata entries ([mentry]), of which the compact index keeps
    [compact_of e].  [candidates idx r] (SearchSpec.v) lists, for the request [r], all pairs of
    a requested block and a logged block of the same dataset, in the order: requested blocks,
    then logged writes, then their blocks; with the memory address of the first element of the
    requested block and the file position of the first element of the logged block. *)
From Verif Require Import Base Spec MetaModel IndexModel ReadModel LocalSpec SearchSpec
  IndexClaims IndexExamples.

(** ** C09 The search is exact

    The list returned is made of one part per candidate, in order: nothing when the two blocks
    share no element, otherwise one piece that covers exactly the shared elements.  Start
    coordinates are arbitrary; counts fit a C int. *)
Theorem C09_search_exact_partial : forall idx dip r,
  Forall (int_block (di_ndim dip)) (rq_sels r) ->
  Forall (fun e => h_did (me_hdr e) = rq_did r ->
            Forall (int_block (di_ndim dip)) (entry_blocks e)) idx ->
  exists pss, search_array idx dip r = concat pss /\
    Forall2 exact_answer (candidates idx r) pss.
Proof. exact search_exact'. Qed.
Print Assumptions C09_search_exact_partial.
Example C09_applies : Forall (int_block (di_ndim x_d)) (rq_sels x_r) /\
  Forall (fun e => h_did (me_hdr e) = rq_did x_r -> Forall (int_block (di_ndim x_d)) (entry_blocks e)) x_idx /\
  0 < di_esize x_d /\ rq_esize x_r = di_esize x_d /\ length (search_array x_idx x_d x_r) = 3%nat.
Proof. exact x_ok. Qed.

(** The same for the compact index; here the record number and the request's first coordinate
    must fit a C int as well. *)
Theorem C09_compact_exact_partial : forall idx dip r,
  Forall (int_block (di_ndim dip)) (rq_sels r) -> Forall int_first (rq_sels r) ->
  Forall (fun e => h_did (me_hdr e) = rq_did r ->
            decoded dip e /\ Forall (int_block (di_ndim dip)) (entry_blocks e)) idx ->
  exists pss, search_compact (map compact_of idx) dip r = Some (concat pss) /\
    Forall2 exact_answer (candidates idx r) pss.
Proof. exact compact_exact. Qed.
Print Assumptions C09_compact_exact_partial.
Example C09_compact_applies :
  Forall (int_block (di_ndim x_dr)) (rq_sels x_rr) /\ Forall int_first (rq_sels x_rr) /\
  Forall (fun e => h_did (me_hdr e) = rq_did x_rr ->
            decoded x_dr e /\ Forall (int_block (di_ndim x_dr)) (entry_blocks e)) x_ir.
Proof. exact x_rok2. Qed.

(** Without the bound on records it is false: a piece is reported although no element is
    shared. *)
Theorem C09_compact_refuted : exists idx dip r ps,
  Forall (fun e => Forall (well_shaped (di_ndim dip)) (entry_blocks e) /\
                   Forall (int_block (di_ndim dip)) (entry_blocks e) /\
                   exists rec, in_record rec (entry_blocks e)) idx /\
  Forall (int_block (di_ndim dip)) (rq_sels r) /\
  search_compact (map compact_of idx) dip r = Some ps /\ ps <> [] /\
  search_array idx dip r = [] /\
  forall c x, In c (candidates idx r) -> ~ shared (ca_log c) (ca_req c) x.
Proof. exact far_refuted. Qed.
Print Assumptions C09_compact_refuted.

(** ** C08 Both kinds of index return the same pieces in the same order (one search) *)
Theorem C08_same_pieces_partial : forall idx dip r,
  Forall (fun e => h_did (me_hdr e) = rq_did r -> decoded dip e) idx ->
  Forall (int_block (di_ndim dip)) (rq_sels r) -> Forall int_first (rq_sels r) ->
  search_compact (map compact_of idx) dip r = Some (search_array idx dip r).
Proof. exact compact_same. Qed.
Print Assumptions C08_same_pieces_partial.
Example C08_same_pieces_applies :
  Forall (fun e => h_did (me_hdr e) = rq_did x_rr -> decoded x_dr e) x_ir /\
  Forall (int_block (di_ndim x_dr)) (rq_sels x_rr) /\ Forall int_first (rq_sels x_rr) /\
  length (search_array x_ir x_dr x_rr) = 3%nat.
Proof. exact x_rok. Qed.

(** ** C10 Search results address the right bytes

    The bytes moved for the piece of a candidate are exactly: for every shared element, its bytes
    at its row-major position in the logged block, to its row-major position in the requested
    block. *)
Theorem C10_search_bytes_partial : forall idx dip r,
  Forall (int_block (di_ndim dip)) (rq_sels r) ->
  Forall (fun e => h_did (me_hdr e) = rq_did r ->
            Forall (int_block (di_ndim dip)) (entry_blocks e)) idx ->
  0 < di_esize dip ->
  exists pss, search_array idx dip r = concat pss /\
    Forall2 (fun c ps => exact_answer c ps /\ forall p, In p ps -> moves_shared (di_esize dip) c p)
            (candidates idx r) pss.
Proof. exact search_moves'. Qed.
Print Assumptions C10_search_bytes_partial.
(** (The hypotheses are met by [x_idx], [x_d] and [x_r]: C09_applies.) *)
(** Of a block of 2^31 elements no byte is transferred. *)
Theorem C10_search_bytes_refuted : exists idx dip r c p,
  Forall (fun e => Forall (well_shaped (di_ndim dip)) (entry_blocks e) /\
                   Forall (in_array (di_dims dip)) (entry_blocks e)) idx /\
  Forall (in_array (di_dims dip)) (rq_sels r) /\
  candidates idx r = [c] /\ search_array idx dip r = [p] /\ ~ moves_shared (di_esize dip) c p.
Proof. exact big_bytes. Qed.
Print Assumptions C10_search_bytes_refuted.

(** ** C35 Large blocks

    Coordinates of any size are handled: one logged block and one requested block of an array of
    arbitrary size, with counts below 2^31. *)
Theorem C35_large_positions_partial : forall e dip r m b,
  0 < di_esize dip -> h_did (me_hdr e) = rq_did r ->
  rq_sels r = [b] -> entry_blocks e = [m] ->
  in_array (di_dims dip) b -> in_array (di_dims dip) m ->
  Forall (fun n => n < 2 ^ 31) (b_count b) -> Forall (fun n => n < 2 ^ 31) (b_count m) ->
  let c := mkcand b (rq_xbuf r) m (h_foff (me_hdr e) + ms_doff (hd (mkmsel [] [] 0) (me_sels e))) in
  exact_answer c (search_array [e] dip r) /\
  forall p, In p (search_array [e] dip r) -> moves_shared (di_esize dip) c p.
Proof. exact long_positions. Qed.
Print Assumptions C35_large_positions_partial.
Example C35_positions_apply :
  0 < di_esize x_dlong /\ h_did (me_hdr x_along) = rq_did x_rlong /\
  Forall (in_array (di_dims x_dlong)) (rq_sels x_rlong) /\
  Forall (in_array (di_dims x_dlong)) (entry_blocks x_along) /\
  length (search_array [x_along] x_dlong x_rlong) = 1%nat.
Proof. exact x_long_ok. Qed.

(** A block of 2^31 elements is not handled. *)
Theorem C35_large_blocks_refuted : exists idx dip r c p x,
  Forall (fun e => Forall (well_shaped (di_ndim dip)) (entry_blocks e) /\
                   Forall (in_array (di_dims dip)) (entry_blocks e)) idx /\
  Forall (in_array (di_dims dip)) (rq_sels r) /\
  candidates idx r = [c] /\ search_array idx dip r = [p] /\
  search_compact (map compact_of idx) dip r = Some [p] /\
  shared (ca_log c) (ca_req c) x /\ ~ covers_shared c p.
Proof. exact big_refuted. Qed.
Print Assumptions C35_large_blocks_refuted.
