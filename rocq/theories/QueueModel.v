(** The write request queue of one process: H5VL_log_dataseti_write without merging
    (src/H5VL_log_dataseti.cpp:787-1022). *)
From Verif Require Import Base Spec MetaModel.

(** Per-process part of H5VL_log_file_t (src/H5VL_log_file.hpp) used by the write path:
    request list [wreqs], number of requests already written to the log [nflushed], metadata
    bytes queued [mdsize], deduplication table [wreq_hash], compression buffer size [zbsize].
    The table holds (key, target): the key is the copy stored in the map, the target the
    request itself as it was when inserted; only its meta_off, REC flag and record number are
    used afterwards, and these are never modified later.  src/H5VL_log_file.hpp:39-133. *)
Record rank := mkrank {
  k_wreqs : list wreq;
  k_nflushed : nat;
  k_mdsize : Z;
  k_hash : list (wreq * wreq);
  k_zbsize : Z }.
(** A process that has just created or opened the file (src/H5VL_log_filei.cpp:1086-1100). *)
Definition rank0 : rank := mkrank [] 0 0 [] 0.

(** memcmp (a, b, |a|) == 0; reads past [b] only if [b] is a strict prefix of [a].
    Called at src/H5VL_logi_nb.cpp:186-194. *)
Inductive cmp := Equal | Differ | Overread.
(** See [cmp] (src/H5VL_logi_nb.cpp:186-194). *)
Fixpoint memcmp (a b : list Z) : cmp :=
  match a, b with
  | [], _ => Equal
  | _ :: _, [] => Overread
  | x :: a', y :: b' => if x =? y then memcmp a' b' else Differ
  end.

(** H5VL_log_wreq_t::operator== (src/H5VL_logi_nb.cpp:186-194); [k] is the key looked up. *)
Definition wreq_eq (k r : wreq) : res bool :=
  if h_size (w_hdr k) =? h_size (w_hdr r) then
    match memcmp (sel_bytes k) (sel_bytes r) with
    | Equal => Ok true
    | Differ => Ok false
    | Overread => UB
    end
  else Ok false.

(** wreq_hash.find (src/H5VL_log_dataseti.cpp:848).  Simplification: the hash code
    (nb.cpp:174-184, xor of the selection words) only selects the bucket in which operator==
    is evaluated; the model evaluates operator== against every key, in insertion order.  Keys
    with equal selections have equal hash codes. *)
Fixpoint hash_find (k : wreq) (tbl : list (wreq * wreq)) : res (option wreq) :=
  match tbl with
  | [] => Ok None
  | (key, tgt) :: rest =>
      do e <- wreq_eq k key;
      if e : bool then Ok (Some tgt) else hash_find k rest
  end.

(** Storing hdr->flag (src/H5VL_log_dataseti.cpp:852-909). *)
Definition set_flag (w : wreq) (f : Z) : wreq :=
  mkwreq (mkhdr (h_size (w_hdr w)) (h_did (w_hdr w)) f (h_foff (w_hdr w)) (h_fsize (w_hdr w)))
         (w_body w) (w_selpos w) (w_metaoff w) (w_data w).
(** hdr->flag &= ~f (src/H5VL_log_dataseti.cpp:852-909). *)
Definition clear_bit (x f : Z) : Z := Z.land x (Z.lnot f).

(** Turn [r] into a reference to [tgt] (src/H5VL_log_dataseti.cpp:852-873). *)
Definition make_ref (r tgt : wreq) (mdsize : Z) : wreq :=
  let f0 := h_flag (w_hdr r) in
  let f1 := clear_bit (Z.lor f0 FLAG_SEL_REF) FLAG_SEL_DEFLATE in
  let same_rec := has f1 FLAG_REC && has (h_flag (w_hdr tgt)) FLAG_REC &&
                  (unle (firstn 8 (w_body r)) =? unle (firstn 8 (w_body tgt))) in
  let pos := if same_rec then (w_selpos r - 8)%nat else w_selpos r in
  let f2 := if same_rec then clear_bit f1 FLAG_REC else f1 in
  let roff := w_metaoff tgt - mdsize in
  mkwreq (mkhdr (h_size (w_hdr r)) (h_did (w_hdr r)) f2 (h_foff (w_hdr r)) (h_fsize (w_hdr r)))
         (firstn pos (w_body r) ++ le 8 roff ++ skipn (pos + 8) (w_body r))
         pos (w_metaoff r) (w_data r).

(** Size of the selection part, hdr->meta_size - (sel_buf - meta_buf).
    src/H5VL_log_dataseti.cpp:876-909. *)
Definition selsize_of (w : wreq) : Z := h_size (w_hdr w) - (Z.of_nat HDR + Z.of_nat (w_selpos w)).

(** Compression of the [sz] bytes of the selection part (src/H5VL_log_dataseti.cpp:876-909).
    H5VL_log_zip_compress returns a bool that the caller compares with 0, and it leaves clen at
    the buffer size when it fails.  Result: the request, the size of the selection part and
    zbsize. *)
Definition compress_sel (z : zlib) (zbsize : Z) (r : wreq) (sz : Z) : wreq * Z * Z :=
  if has (h_flag (w_hdr r)) FLAG_SEL_DEFLATE then
    let zb := Z.max zbsize sz in
    let '(okc, out) := z_deflate z (firstn (Z.to_nat sz) (sel_bytes r)) zb in
    let clen := if okc : bool then Zlen out else zb in
    let err := if okc : bool then 1 else 0 in
    if (err =? 0) && (clen <? sz)
    then (mkwreq (w_hdr r)
            (firstn (w_selpos r) (w_body r) ++ out ++ skipn (w_selpos r + length out) (w_body r))
            (w_selpos r) (w_metaoff r) (w_data r), clen, zb)
    else (set_flag r (clear_bit (h_flag (w_hdr r)) FLAG_SEL_DEFLATE), sz, zb)
  else (r, sz, zbsize).

(** Final size of the entry (src/H5VL_log_dataseti.cpp:911-917). *)
Definition shrink (r : wreq) (sz : Z) : wreq :=
  let newsize := Z.of_nat HDR + Z.of_nat (w_selpos r) + sz in
  if newsize <? h_size (w_hdr r) then w_resize r newsize else r.

(** Deduplication of a fresh request (src/H5VL_log_dataseti.cpp:836-874): the request, the table
    and the size of the selection part. *)
Definition dedup (cfg : Z) (st : rank) (r : wreq) : res (wreq * list (wreq * wreq) * Z) :=
  let sz0 := selsize_of r in
  if has cfg CFG_METADATA_SHARE && (8 <? sz0) then
    do f <- hash_find r (k_hash st);
    match f with
    | None => Ok (r, k_hash st ++ [(r, r)], sz0)
    | Some tgt => Ok (make_ref r tgt (k_mdsize st), k_hash st, 8)
    end
  else Ok (r, k_hash st, sz0).

(** Deduplication, compression and resizing (src/H5VL_log_dataseti.cpp:836-918).  Result: the
    request, the table and zbsize. *)
Definition finish_meta (z : zlib) (cfg : Z) (st : rank) (r : wreq)
  : res (wreq * list (wreq * wreq) * Z) :=
  do d <- dedup cfg st r;
  let '(r1, tbl, sz1) := d in
  let '(r2, sz2, zb) := compress_sel z (k_zbsize st) r1 sz1 in
  Ok (shrink r2 sz2, tbl, zb).

(** hdr->fsize and the buffer of the request (src/H5VL_log_dataseti.cpp:1003-1010). *)
Definition set_data (w : wreq) (data : list Z) : wreq :=
  mkwreq (mkhdr (h_size (w_hdr w)) (h_did (w_hdr w)) (h_flag (w_hdr w)) (h_foff (w_hdr w))
                (Zlen data))
         (w_body w) (w_selpos w) (w_metaoff w) data.

(** H5VL_log_dataseti_write (src/H5VL_log_dataseti.cpp:787-1022) in the mode without metadata
    merging.  [data] are the bytes of the internal buffer xbuf after packing, type conversion
    and filtering; how they are obtained from the user buffer is modelled in SelModel.v.
    A dataset id outside dsets_info, or of an unlinked dataset, is dereferenced: undefined. *)
Definition ds_write (z : zlib) (cfg : Z) (infos : list (option dinfo)) (st : rank)
                    (did : Z) (sels : list block) (data : list Z) : res rank :=
  match sels with
  | [] => Ok st
  | _ =>
      match nth_error infos (Z.to_nat did) with
      | Some (Some dip) =>
          do m <- finish_meta z cfg st (mk_wreq cfg did dip (k_mdsize st) sels);
          let '(r, tbl, zb) := m in
          Ok (mkrank (k_wreqs st ++ [set_data r data]) (k_nflushed st)
                     (k_mdsize st + h_size (w_hdr r)) tbl zb)
      | _ => UB
      end
  end.

(** H5VL_log_filei_get_num_pending_writes (src/H5VL_log_filei.cpp:657-667), without merged
    requests. *)
Definition num_pending (st : rank) : nat := (length (k_wreqs st) - k_nflushed st)%nat.
