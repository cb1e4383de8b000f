(** Compression of metadata when zlib reports an error: H5VL_log_zip_compress (src/H5VL_logi_zip.cpp:21-59) over the results of the
    four zlib calls it makes, and H5VL_log_dataseti_write with it (src/H5VL_log_dataseti.cpp:836-918).  QueueModel.v takes the
    function as one that always returns. *)
From Verif Require Import Base Spec MetaModel QueueModel FailModel.

(** zlib's codes (zlib.h), as tested at src/H5VL_logi_zip.cpp:40-48. *)
Definition Z_OK : Z := 0.
(** zlib.h, src/H5VL_logi_zip.cpp:43. *)
Definition Z_STREAM_END : Z := 1.
(** zlib.h: "the stream was freed prematurely (some input or output was discarded)"; src/H5VL_logi_zip.cpp:47-48. *)
Definition Z_DATA_ERROR : Z := -3.

(** [d_ret]: result of deflate with Z_FINISH; [d_left]: avail_in; [d_out]: the output; [d_end]: result of deflateEnd.
    src/H5VL_logi_zip.cpp:42-51. *)
Record dresult := mkd { d_ret : Z; d_left : Z; d_out : list Z; d_end : Z }.
(** Result of deflateInit, and of the other calls for an input and a size of the output buffer.  Arbitrary.
    src/H5VL_logi_zip.cpp:40-48. *)
Record stream := mks { s_init : Z; s_deflate : list Z -> Z -> dresult }.

(** H5VL_log_zip_compress (src/H5VL_logi_zip.cpp:21-59): [Err] for an exception, else what it returns and the output. *)
Definition zip_compress (s : stream) (input : list Z) (cap : Z) : res (bool * list Z) :=
  if negb (s_init s =? Z_OK) then Err
  else let d := s_deflate s input cap in
       if negb (d_ret d =? Z_STREAM_END) && (d_ret d <? 0) then Err
       else if negb (d_end d =? Z_OK) then Err
       else if 0 <? d_left d then Ok (false, d_out d)
       else Ok (true, d_out d).

(** [compress_sel] of QueueModel.v with it (src/H5VL_log_dataseti.cpp:889-918).  None: an exception; zbsize in any case. *)
Definition zcompress_sel (s : stream) (zbsize : Z) (r : wreq) (sz : Z) : option (wreq * Z) * Z :=
  if has (h_flag (w_hdr r)) FLAG_SEL_DEFLATE then
    let zb := Z.max zbsize sz in
    match zip_compress s (firstn (Z.to_nat sz) (sel_bytes r)) zb with
    | Ok (okc, out) =>
        let clen := if okc : bool then Zlen out else zb in
        let err := if okc : bool then 1 else 0 in
        if (err =? 0) && (clen <? sz)
        then (Some (mkwreq (w_hdr r)
                (firstn (w_selpos r) (w_body r) ++ out ++ skipn (w_selpos r + length out) (w_body r))
                (w_selpos r) (w_metaoff r) (w_data r), clen), zb)
        else (Some (set_flag r (clear_bit (h_flag (w_hdr r)) FLAG_SEL_DEFLATE), sz), zb)
    | _ => (None, zb)
    end
  else (Some (r, sz), zbsize).

(** H5VL_log_dataseti_write (src/H5VL_log_dataseti.cpp:787-1022); the flag says whether the call succeeds.  An exception
    leaves the table of selections as the deduplication made it. *)
Definition zwrite (s : stream) (cfg : Z) (infos : list (option dinfo)) (st : rank) (did : Z) (sels : list block) (data : list Z)
  : res (rank * bool) :=
  match sels with
  | [] => Ok (st, true)
  | _ =>
      match nth_error infos (Z.to_nat did) with
      | Some (Some dip) =>
          do d <- dedup cfg st (mk_wreq cfg did dip (k_mdsize st) sels);
          let '(r1, tbl, sz1) := d in
          match zcompress_sel s (k_zbsize st) r1 sz1 with
          | (Some (r2, sz2), zb) =>
              let r := shrink r2 sz2 in
              Ok (mkrank (k_wreqs st ++ [set_data r data]) (k_nflushed st) (k_mdsize st + h_size (w_hdr r)) tbl zb, true)
          | (None, zb) => Ok (mkrank (k_wreqs st) (k_nflushed st) (k_mdsize st) tbl zb, false)
          end
      | _ => UB
      end
  end.
(** Write calls one after another, and which of them succeed.  src/H5VL_log_dataseti.cpp:787-1022, repeated. *)
Fixpoint zwrites (s : stream) (cfg : Z) (infos : list (option dinfo)) (st : rank) (ws : list (Z * list block * list Z))
  : res (rank * list bool) :=
  match ws with
  | [] => Ok (st, [])
  | (did, sels, data) :: rest =>
      do p <- zwrite s cfg infos st did sels data;
      do q <- zwrites s cfg infos (fst p) rest;
      Ok (fst q, snd p :: snd q)
  end.
