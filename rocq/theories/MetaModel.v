(** Log metadata entries: construction by a write request and decoding by the index.
    Models src/H5VL_logi_meta.{hpp,cpp}, the request constructor of src/H5VL_logi_nb.cpp and
    H5VL_log_selections::encode / get_sel_size of src/H5VL_logi_dataspace.cpp. *)
From Verif Require Import Base Spec.

(** File configuration bits: src/H5VL_log_filei.hpp:11-16. *)
Definition CFG_METADATA_MERGE  : Z := 1.
(** src/H5VL_log_filei.hpp:13. *)
Definition CFG_SEL_ENCODE      : Z := 2.
(** src/H5VL_log_filei.hpp:14. *)
Definition CFG_SEL_DEFLATE     : Z := 4.
(** src/H5VL_log_filei.hpp:15. *)
Definition CFG_METADATA_SHARE  : Z := 8.

(** Entry flags: src/H5VL_logi_meta.hpp:22-25 and src/H5VL_logi_nb.hpp:20-22. *)
Definition FLAG_MUL_SEL     : Z := 1.
(** src/H5VL_logi_nb.hpp:19. *)
Definition FLAG_SEL_ENCODE  : Z := 4.
(** src/H5VL_logi_nb.hpp:20. *)
Definition FLAG_SEL_DEFLATE : Z := 8.
(** src/H5VL_logi_nb.hpp:21. *)
Definition FLAG_SEL_REF     : Z := 16.
(** src/H5VL_logi_nb.hpp:22. *)
Definition FLAG_REC         : Z := 32.

(** H5S_UNLIMITED is (hsize_t)(-1).  It is compared with at src/H5VL_logi_nb.cpp:57-71. *)
Definition UNLIMITED : Z := 2 ^ 64 - 1.

(** Dataset information, H5VL_log_dset_info_t (src/H5VL_log_dataset.hpp:29-38), restricted to
    what the modelled code reads.  [di_dims], [di_mdims], [di_dsteps] have one word per
    dimension.  [di_fill] is the fill value if one is to be applied (src/H5VL_log_dataset.cpp
    124-147). *)
Record dinfo := mkdinfo {
  di_esize : Z;
  di_dims : list Z;
  di_mdims : list Z;
  di_dsteps : list Z;
  di_fill : option (list Z) }.
(** The member ndim of H5VL_log_dset_info_t (src/H5VL_log_dataset.hpp:29-38). *)
Definition di_ndim (d : dinfo) : nat := length (di_dims d).

(** dsteps[ndim-1] = 1; dsteps[i] = dsteps[i+1] * dims[i+1]
    (src/H5VL_log_dataset.cpp:151-157 and :539-545, src/H5VL_log_dataseti.cpp:730-736).
    Exact integers; the C product is 64 bit. *)
Fixpoint dsteps_of (dims : list Z) : list Z :=
  match dims with
  | [] => []
  | [_] => [1]
  | _ :: (d1 :: _) as rest =>
      match dsteps_of rest with
      | s1 :: ss => s1 * d1 :: s1 :: ss
      | [] => []
      end
  end.

(** Packed entry header, H5VL_logi_meta_hdr (src/H5VL_logi_meta.hpp:27-33), 28 bytes. *)
Record hdr := mkhdr { h_size : Z; h_did : Z; h_flag : Z; h_foff : Z; h_fsize : Z }.
(** sizeof (H5VL_logi_meta_hdr) (src/H5VL_logi_meta.hpp:27-33). *)
Definition HDR : nat := 28.
(** The header in memory and in the file, little-endian (src/H5VL_logi_meta.hpp:27-33). *)
Definition enc_hdr (h : hdr) : list Z :=
  le 4 (h_size h) ++ le 4 (h_did h) ++ le 4 (h_flag h) ++ le 8 (h_foff h) ++ le 8 (h_fsize h).
(** The header at a position of a buffer (src/H5VL_logi_meta.hpp:27-33,
    src/H5VL_logi_meta.cpp:92-110). *)
Definition rd_hdr (buf : list Z) (off : Z) : option hdr :=
  match rd buf off HDR with
  | Some b =>
      Some (mkhdr (sle (firstn 4 b)) (sle (firstn 4 (skipn 4 b))) (sle (firstn 4 (skipn 8 b)))
                  (sle (firstn 8 (skipn 12 b))) (sle (firstn 8 (skipn 20 b))))
  | None => None
  end.

(** Coordinate to offset encoding, H5VL_logi_sel_encode (src/H5VL_logi_meta.hpp:57-63);
    the result is stored as a 64-bit word. *)
Fixpoint sel_encode (dsteps cord : list Z) : Z :=
  match dsteps, cord with
  | d :: ds, c :: cs => c * d + sel_encode ds cs
  | _, _ => 0
  end.

(** H5VL_logi_sel_decode (src/H5VL_logi_meta.hpp:49-55): signed 64-bit C division (truncating),
    result stored in an hsize_t; division by zero is undefined. *)
Fixpoint sel_decode (dsteps : list Z) (off : Z) : option (list Z) :=
  match dsteps with
  | [] => Some []
  | d :: ds =>
      if d =? 0 then None
      else match sel_decode ds (Z.rem off d) with
           | Some cs => Some (u64 (Z.quot off d) :: cs)
           | None => None
           end
  end.

(** H5VL_log_selections::encode (src/H5VL_logi_dataspace.cpp:655-681), as the list of 8-byte
    words written: all starts, then all counts. *)
Definition encode_words (dsteps : option (list Z)) (dimoff : nat) (sels : list block) : list Z :=
  match dsteps with
  | Some ds =>
      map (fun b => sel_encode (skipn dimoff ds) (skipn dimoff (b_start b))) sels ++
      map (fun b => sel_encode (skipn dimoff ds) (skipn dimoff (b_count b))) sels
  | None =>
      flat_map (fun b => skipn dimoff (b_start b)) sels ++
      flat_map (fun b => skipn dimoff (b_count b)) sels
  end.

(** H5VL_log_selections::get_sel_size (src/H5VL_logi_dataspace.cpp:624-653). *)
Definition block_size (b : block) : Z := Zprod (b_count b).
(** All blocks (src/H5VL_logi_dataspace.cpp:638-653). *)
Definition sel_size (sels : list block) : Z := Zsum (map block_size sels).

(** A write request, H5VL_log_wreq_t (src/H5VL_logi_nb.hpp:30-60).  [w_body] are the bytes
    after the header, [w_selpos] the position of sel_buf inside the body, [w_data] the content
    of the data blocks in the order they are logged. *)
Record wreq := mkwreq {
  w_hdr : hdr; w_body : list Z; w_selpos : nat; w_metaoff : Z; w_data : list Z }.

(** The bytes of a request in the metadata (src/H5VL_log_filei_meta.cpp:92-131). *)
Definition wreq_bytes (w : wreq) : list Z := enc_hdr (w_hdr w) ++ w_body w.
(** The selection part, from sel_buf on (src/H5VL_logi_nb.hpp:30-60). *)
Definition sel_bytes (w : wreq) : list Z := skipn (w_selpos w) (w_body w).

(** Is it a record write?  src/H5VL_logi_nb.cpp:57-71. *)
Definition is_rec (dip : dinfo) (sels : list block) : bool :=
  match di_mdims dip, sels with
  | m0 :: _, b0 :: _ =>
      (m0 =? UNLIMITED) &&
      forallb (fun b => (hd 0 (b_count b) =? 1) && (hd 0 (b_start b) =? hd 0 (b_start b0))) sels
  | _, _ => false
  end.

(** Request constructor, src/H5VL_logi_nb.cpp:42-154 (ENABLE_ZLIB, little-endian host).
    Simplifications: [foff] and [fsize] are indeterminate in C until they are assigned
    (dataseti.cpp:1007, nb.cpp:629), here 0; [mbsize] is an exact integer. *)
Definition mk_wreq (cfg did : Z) (dip : dinfo) (mdsize : Z) (sels : list block) : wreq :=
  let nsel := length sels in
  let ndim := di_ndim dip in
  let rec := is_rec dip sels in
  let encdim := if rec then (ndim - 1)%nat else ndim in
  let mul := (1 <? nsel)%nat in
  let enc := mul && (1 <? encdim)%nat && has cfg CFG_SEL_ENCODE in
  let dfl := mul && has cfg CFG_SEL_DEFLATE in
  let flag := Z.lor (if rec then FLAG_REC else 0)
             (Z.lor (if mul then FLAG_MUL_SEL else 0)
             (Z.lor (if enc then FLAG_SEL_ENCODE else 0)
                    (if dfl then FLAG_SEL_DEFLATE else 0))) in
  let mbsize := Z.of_nat HDR + (if rec then 8 else 0) + (if mul then 4 else 0) +
                (if enc then 8 * (Z.of_nat encdim - 1 + Z.of_nat nsel * 2)
                 else 8 * (Z.of_nat encdim * Z.of_nat nsel * 2)) in
  let dimoff := if rec then 1%nat else 0%nat in
  let recnum := match sels with b :: _ => hd 0 (b_start b) | [] => 0 end in
  mkwreq (mkhdr mbsize did flag 0 0)
    ((if rec then le 8 recnum else []) ++
     (if mul then le 4 (Z.of_nat nsel) else []) ++
     (if enc then words (firstn (encdim - 1) (skipn (ndim - encdim) (di_dsteps dip))) else []) ++
     words (encode_words (if enc then Some (di_dsteps dip) else None) dimoff sels))
    (if rec then 8%nat else 0%nat) mdsize [].

(** H5VL_log_wreq_t::resize (src/H5VL_logi_nb.cpp:160-172), shrinking only. *)
Definition w_resize (w : wreq) (size : Z) : wreq :=
  mkwreq (mkhdr size (h_did (w_hdr w)) (h_flag (w_hdr w)) (h_foff (w_hdr w)) (h_fsize (w_hdr w)))
         (firstn (Z.to_nat (size - Z.of_nat HDR)) (w_body w)) (w_selpos w) (w_metaoff w) (w_data w).

(** Decoded selection and entry: src/H5VL_logi_meta.hpp:35-47. *)
Record msel := mkmsel { ms_start : list Z; ms_count : list Z; ms_doff : Z }.
(** H5VL_logi_metaentry_t (src/H5VL_logi_meta.hpp:42-47). *)
Record mentry := mkmentry { me_hdr : hdr; me_sels : list msel; me_dsize : Z }.

(** Data offset of each selection, src/H5VL_logi_meta.cpp:265-274. *)
Fixpoint add_doffs (esize doff : Z) (bs : list block) : list msel :=
  match bs with
  | [] => []
  | b :: rest =>
      mkmsel (b_start b) (b_count b) doff ::
      add_doffs esize (esize * Zprod (b_count b) + doff) rest
  end.

(** Cut a list of words into [n] coordinates of [k] words.
    Layout of the words read at src/H5VL_logi_meta.cpp:245-264. *)
Fixpoint cut (n k : nat) (l : list Z) : list (list Z) :=
  match n with
  | O => []
  | S m => firstn k l :: cut m k (skipn k l)
  end.

(** Helper: a loop in which every step may leave the buffer (src/H5VL_logi_meta.cpp:245-264). *)
Fixpoint opt_map {A B} (f : A -> option B) (l : list A) : option (list B) :=
  match l with
  | [] => Some []
  | a :: t => match f a, opt_map f t with
              | Some b, Some bs => Some (b :: bs)
              | _, _ => None
              end
  end.

(** zlib as used by src/H5VL_logi_zip.cpp: [z_deflate input cap] is (success, output) of
    H5VL_log_zip_compress, [z_inflate input cap] the content of the output buffer after
    H5VL_log_zip_decompress.  Both are arbitrary functions.
    src/H5VL_logi_zip.cpp:21-59, :117-153. *)
Record zlib := mkzlib { z_deflate : list Z -> Z -> bool * list Z; z_inflate : list Z -> Z -> list Z }.

(** The coordinates of the [2*nsel] selection words at [pos] of [buf]
    (src/H5VL_logi_meta.cpp:245-264): starts first, then counts. *)
Definition decode_sels (buf : list Z) (pos : Z) (enc : bool) (encdim nsel : nat)
  : option (list (list Z) * list (list Z)) :=
  if enc then
    match rd_words buf pos (encdim - 1) with
    | Some ds =>
        let dsteps := map (to_signed 8) ds ++ [1] in
        let p := pos + 8 * (Z.of_nat encdim - 1) in
        match rd_words buf p nsel, rd_words buf (p + 8 * Z.of_nat nsel) nsel with
        | Some ss, Some cs =>
            match opt_map (fun w => sel_decode dsteps (to_signed 8 w)) ss,
                  opt_map (fun w => sel_decode dsteps (to_signed 8 w)) cs with
            | Some a, Some b => Some (a, b)
            | _, _ => None
            end
        | _, _ => None
        end
    | None => None
    end
  else
    match rd_words buf pos (nsel * encdim),
          rd_words buf (pos + 8 * Z.of_nat (nsel * encdim)) (nsel * encdim) with
    | Some ss, Some cs => Some (cut nsel encdim ss, cut nsel encdim cs)
    | _, _ => None
    end.

(** H5VL_logi_metaentry_decode (src/H5VL_logi_meta.cpp:92-282) of the entry at [off] of [buf].
    Undefined: reading outside the buffer, no selection, no dimension to encode.
    [me_dsize] multiplies only the first [encdim] counts, as :279-281 does. *)
Definition decode (z : zlib) (dip : dinfo) (buf : list Z) (off : Z) : res mentry :=
  do h <- or_ub (rd_hdr buf off);
  if h_size h <=? 0 then Err else
  let rec := has (h_flag h) FLAG_REC in
  let ndim := di_ndim dip in
  if rec && (ndim =? 0)%nat then UB else
  let encdim := if rec then (ndim - 1)%nat else ndim in
  let p1 := off + Z.of_nat HDR in
  do recnum <- (if rec then or_ub (rd_u64 buf p1) else Ok 0);
  let p2 := if rec then p1 + 8 else p1 in
  let mul := has (h_flag h) FLAG_MUL_SEL in
  let enc := has (h_flag h) FLAG_SEL_ENCODE in
  do nsel <- (if mul then or_ub (rd_i32 buf p2) else Ok 1);
  let p3 := if mul then p2 + 4 else p2 in
  if nsel <=? 0 then UB else
  if enc && (encdim =? 0)%nat then UB else
  let bsize := if enc then 8 * (Z.of_nat encdim - 1) + 16 * nsel
               else 16 * Z.of_nat encdim * nsel in
  do zb <- (if mul && has (h_flag h) FLAG_SEL_DEFLATE
            then let inlen := h_size h - Z.of_nat HDR - 4 in
                 do c <- or_ub (rd buf p3 (Z.to_nat inlen));
                 Ok (z_inflate z c bsize, 0)
            else Ok (buf, p3));
  do sc <- or_ub (decode_sels (fst zb) (snd zb) enc encdim (Z.to_nat nsel));
  let pre (r : Z) (l : list Z) := if rec then r :: l else l in
  let bs := map (fun p => mkblock (pre recnum (fst p)) (pre 1 (snd p)))
                (combine (fst sc) (snd sc)) in
  let ms := add_doffs (di_esize dip) 0 bs in
  let lst := last ms (mkmsel [] [] 0) in
  Ok (mkmentry h ms (di_esize dip * Zprod (firstn encdim (ms_count lst)) + ms_doff lst)).

(** H5VL_logi_metaentry_ref_decode (src/H5VL_logi_meta.cpp:26-83).  [cache] maps the position
    of an entry in the buffer to its selections; a missing key yields an empty vector in C,
    whose last element is then read: undefined. *)
Definition cache (A : Type) := list (Z * A).
(** std::map::find (src/H5VL_logi_meta.cpp:26-83). *)
Fixpoint cache_get {A} (c : cache A) (k : Z) : option A :=
  match c with
  | [] => None
  | (k', a) :: rest => if k =? k' then Some a else cache_get rest k
  end.

(** The record number replaces the first coordinate (src/H5VL_logi_meta.cpp:60-66). *)
Definition set_first (v : Z) (l : list Z) : list Z :=
  match l with [] => [v] | _ :: t => v :: t end.

(** src/H5VL_logi_meta.cpp:26-83. *)
Definition ref_decode (dip : dinfo) (buf : list Z) (off : Z) (bc : cache (list msel))
  : res mentry :=
  do h <- or_ub (rd_hdr buf off);
  if h_size h <=? 0 then Err else
  let rec := has (h_flag h) FLAG_REC in
  let p1 := off + Z.of_nat HDR in
  do recnum <- (if rec then or_ub (rd_u64 buf p1) else Ok 0);
  do roff <- or_ub (rd_i64 buf (if rec then p1 + 8 else p1));
  do sels <- or_ub (cache_get bc (off + roff));
  let sels' := if rec
               then map (fun s => mkmsel (set_first recnum (ms_start s))
                                         (set_first 1 (ms_count s)) (ms_doff s)) sels
               else sels in
  match sels' with
  | [] => UB
  | _ =>
      let lst := last sels' (mkmsel [] [] 0) in
      Ok (mkmentry h sels'
            (di_esize dip * Zprod (firstn (di_ndim dip) (ms_count lst)) + ms_doff lst))
  end.
