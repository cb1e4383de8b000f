(** The two metadata indexes: parsing of metadata blocks and search.
    Models src/H5VL_logi_idx_list.cpp, src/H5VL_logi_idx_compact.cpp, the loading functions of
    src/H5VL_log_filei_meta.cpp:326-535 and H5VL_log_read_idx_search (src/H5VL_logi_nb.cpp:315-339). *)
From Verif Require Import Base Spec MetaModel QueueModel FlushModel.

(** dsets_info[did]: outside the table is undefined, a null entry is an unlinked dataset.
    src/H5VL_logi_idx_list.cpp:41-93, :109-141. *)
Definition info_at (infos : list (option dinfo)) (did : Z) : option (option dinfo) :=
  if did <? 0 then None else nth_error infos (Z.to_nat did).

(** ** Array index *)

(** H5VL_logi_array_idx_t::parse_block (src/H5VL_logi_idx_list.cpp:41-93).  The entries are
    returned in insertion order; the per-dataset vectors idxs[did] are the sub-lists with that
    did.  Running out of fuel only happens when an entry of size <= 0 is skipped, i.e. when the
    C loop does not terminate. *)
Fixpoint parse_array (fuel : nat) (z : zlib) (cfg : Z) (infos : list (option dinfo))
         (buf : list Z) (pos : Z) (bc : cache (list msel)) : res (list mentry) :=
  match fuel with
  | O => UB
  | S fuel' =>
      if Zlen buf <=? pos then Ok [] else
      do h <- or_ub (rd_hdr buf pos);
      do inf <- or_ub (info_at infos (h_did h));
      match inf with
      | None => parse_array fuel' z cfg infos buf (pos + h_size h) bc
      | Some dip =>
          if has cfg CFG_METADATA_SHARE && has (h_flag h) FLAG_SEL_REF then
            do e <- ref_decode dip buf pos bc;
            do rest <- parse_array fuel' z cfg infos buf (pos + h_size h) bc;
            Ok (e :: rest)
          else
            do e <- decode z dip buf pos;
            do rest <- parse_array fuel' z cfg infos buf (pos + h_size h)
                                   ((pos, me_sels e) :: bc);
            Ok (e :: rest)
      end
  end.

(** A read request, H5VL_log_rreq_t (src/H5VL_logi_nb.hpp:89-116): dataset, selection and the
    address of its contiguous buffer xbuf. *)
Record rreq := mkrreq { rq_did : Z; rq_sels : list block; rq_xbuf : Z; rq_esize : Z }.

(** An intersection, H5VL_log_idx_search_ret_t (src/H5VL_logi_idx.hpp:16-35); the coordinate
    fields are C ints.  Unfiltered datasets only (no zbuf). *)
Record sret := mksret {
  sr_esize : Z; sr_ndim : nat; sr_foff : Z; sr_fsize : Z; sr_doff : Z; sr_xsize : Z; sr_xbuf : Z;
  sr_dsize : list Z; sr_dstart : list Z; sr_msize : list Z; sr_mstart : list Z;
  sr_count : list Z }.

(** intersect (src/H5VL_logi_idx_list.cpp:95-107 = idx_compact.cpp:179-191); exact sums. *)
Fixpoint intersect (sa ca sb cb : list Z) : option (list Z * list Z) :=
  match sa, ca, sb, cb with
  | a :: sa', x :: ca', b :: sb', y :: cb' =>
      let so := Z.max a b in
      let co := Z.min (a + x) (b + y) in
      if co <=? so then None
      else match intersect sa' ca' sb' cb' with
           | Some (os, oc) => Some (so :: os, (co - so) :: oc)
           | None => None
           end
  | _, _, _, _ => Some ([], [])
  end.

(** Differences stored in int (src/H5VL_logi_idx_list.cpp:123-137, src/H5VL_logi_idx.hpp:17-34). *)
Definition sub32 (a b : list Z) : list Z := map (fun p => i32 (fst p - snd p)) (combine a b).

(** Result record built for one request block and one entry block (idx_list.cpp:123-137). *)
Definition mk_sret (dip : dinfo) (e_foff e_fsize e_dsize doff xbuf : Z) (start count : list Z)
           (b : block) (os oc : list Z) : sret :=
  mksret (di_esize dip) (di_ndim dip) e_foff e_fsize doff e_dsize xbuf
         (map i32 count) (sub32 os start) (map i32 (b_count b)) (sub32 os (b_start b))
         (map i32 oc).

(** soff of each request block: running sum of get_sel_size (i) * esize (idx_list.cpp:140). *)
Fixpoint with_soff (esize soff : Z) (bs : list block) : list (block * Z) :=
  match bs with
  | [] => []
  | b :: rest => (b, soff) :: with_soff esize (soff + block_size b * esize) rest
  end.

(** H5VL_logi_array_idx_t::search (src/H5VL_logi_idx_list.cpp:109-141). *)
Definition search_array (idx : list mentry) (dip : dinfo) (r : rreq) : list sret :=
  flat_map (fun bo =>
    flat_map (fun e =>
      if h_did (me_hdr e) =? rq_did r then
        flat_map (fun m =>
          match intersect (ms_start m) (ms_count m) (b_start (fst bo)) (b_count (fst bo)) with
          | Some (os, oc) =>
              [mk_sret dip (h_foff (me_hdr e)) (h_fsize (me_hdr e)) (me_dsize e) (ms_doff m)
                       (rq_xbuf r + snd bo) (ms_start m) (ms_count m) (fst bo) os oc]
          | None => []
          end) (me_sels e)
      else []) idx)
    (with_soff (rq_esize r) 0 (rq_sels r)).

(** ** Compact index *)

(** H5VL_logi_compact_idx_entry_t (src/H5VL_logi_idx.hpp): blocks either own an array of words
    or point to another entry ([None]: null pointer), of which nsel and blocks are used.
    src/H5VL_logi_idx.hpp:78-92. *)
Inductive cblk := COwn (nsel : Z) (ws : list Z) | CRef (tgt : option (Z * list Z)).
(** The other members of the entry (src/H5VL_logi_idx.hpp:78-92). *)
Record cent := mkcent {
  ce_did : Z; ce_rec : Z; ce_foff : Z; ce_fsize : Z; ce_dsize : Z; ce_blocks : cblk }.

(** Entry constructor (src/H5VL_logi_idx_compact.cpp:38-68). *)
Definition compact_of (e : mentry) : cent :=
  let rec := has (h_flag (me_hdr e)) FLAG_REC in
  let cutf (l : list Z) := if rec then tl l else l in
  mkcent (h_did (me_hdr e))
         (if rec then match me_sels e with m :: _ => to_signed 8 (hd 0 (ms_start m)) | [] => -1 end
          else -1)
         (h_foff (me_hdr e)) (h_fsize (me_hdr e)) (me_dsize e)
         (COwn (Zlen (me_sels e))
               (flat_map (fun m => cutf (ms_start m) ++ cutf (ms_count m)) (me_sels e))).

(** The blocks an entry uses (src/H5VL_logi_idx_compact.cpp:193-228). *)
Definition own_blocks (c : cent) : option (Z * list Z) :=
  match ce_blocks c with COwn n ws => Some (n, ws) | CRef t => t end.

(** H5VL_logi_compact_idx_t::parse_block (src/H5VL_logi_idx_compact.cpp:103-177). *)
Fixpoint parse_compact (fuel : nat) (z : zlib) (cfg : Z) (infos : list (option dinfo))
         (buf : list Z) (pos : Z) (bc : cache cent) : res (list cent) :=
  match fuel with
  | O => UB
  | S fuel' =>
      if Zlen buf <=? pos then Ok [] else
      do h <- or_ub (rd_hdr buf pos);
      do inf <- or_ub (info_at infos (h_did h));
      match inf with
      | None => parse_compact fuel' z cfg infos buf (pos + h_size h) bc
      | Some dip =>
          if has cfg CFG_METADATA_SHARE && has (h_flag h) FLAG_SEL_REF then
            let p1 := pos + Z.of_nat HDR in
            let rec := has (h_flag h) FLAG_REC in
            do rc <- (if rec then or_ub (rd_i64 buf p1) else Ok (-1));
            do roff <- or_ub (rd_i64 buf (if rec then p1 + 8 else p1));
            let tgt := match cache_get bc (pos + roff) with
                       | Some c => own_blocks c
                       | None => None
                       end in
            let c := mkcent (h_did h) rc (h_foff h) (h_fsize h) 0 (CRef tgt) in
            do rest <- parse_compact fuel' z cfg infos buf (pos + h_size h) bc;
            Ok (c :: rest)
          else
            do e <- decode z dip buf pos;
            let c := compact_of e in
            do rest <- parse_compact fuel' z cfg infos buf (pos + h_size h) ((pos, c) :: bc);
            Ok (c :: rest)
      end
  end.

(** The walk over the blocks of one entry (idx_compact.cpp:230-262 and :264-290).  [n] words
    per coordinate; reading past the array is undefined.  [lead] are the leading fields set
    for a record entry (:222-226). *)
Fixpoint walk (fuel : nat) (n : nat) (ws : list Z) (doff esize : Z)
         (emit : list Z -> list Z -> Z -> list sret) : option (list sret) :=
  match fuel with
  | O => Some []
  | S f =>
      if (length ws <? 2 * n)%nat then None
      else
        let start := firstn n ws in
        let count := firstn n (skipn n ws) in
        match walk f n (skipn (2 * n) ws) (doff + esize * Zprod count) esize emit with
        | Some rest => Some (emit start count doff ++ rest)
        | None => None
        end
  end.

(** One entry of the loop of the search (src/H5VL_logi_idx_compact.cpp:193-292). *)
Definition search_cent (dip : dinfo) (r : rreq) (b : block) (soff : Z) (c : cent)
  : option (list sret) :=
  match own_blocks c with
  | None => None
  | Some (nsel, ws) =>
      let xbuf := rq_xbuf r + soff in
      if 0 <=? ce_rec c then
        let m0 := i32 (ce_rec c - hd 0 (b_start b)) in
        let z0 := i32 (hd 0 (b_count b)) in
        if (m0 <? 0) || (z0 <=? m0) then Some []
        else
          walk (Z.to_nat nsel) (di_ndim dip - 1) ws 0 (di_esize dip)
            (fun start count doff =>
               match intersect start count (tl (b_start b)) (tl (b_count b)) with
               | Some (os, oc) =>
                   [mksret (di_esize dip) (di_ndim dip) (ce_foff c) (ce_fsize c) doff (ce_dsize c)
                      xbuf (1 :: map i32 count) (0 :: sub32 os start)
                      (z0 :: map i32 (tl (b_count b))) (m0 :: sub32 os (tl (b_start b)))
                      (1 :: map i32 oc)]
               | None => []
               end)
      else
        walk (Z.to_nat nsel) (di_ndim dip) ws 0 (di_esize dip)
          (fun start count doff =>
             match intersect start count (b_start b) (b_count b) with
             | Some (os, oc) =>
                 [mk_sret dip (ce_foff c) (ce_fsize c) (ce_dsize c) doff xbuf start count b os oc]
             | None => []
             end)
  end.

(** Helper for loops that append results ([None]: a null pointer is followed;
    src/H5VL_logi_idx_compact.cpp:193-292). *)
Fixpoint opt_flat {A B} (f : A -> option (list B)) (l : list A) : option (list B) :=
  match l with
  | [] => Some []
  | a :: t => match f a, opt_flat f t with
              | Some x, Some y => Some (x ++ y)
              | _, _ => None
              end
  end.

(** H5VL_logi_compact_idx_t::search (src/H5VL_logi_idx_compact.cpp:193-292). *)
Definition search_compact (idx : list cent) (dip : dinfo) (r : rreq) : option (list sret) :=
  opt_flat (fun bo =>
    opt_flat (fun c =>
      if ce_did c =? rq_did r then search_cent dip r (fst bo) (snd bo) c else Some []) idx)
    (with_soff (rq_esize r) 0 (rq_sels r)).

(** ** Both kinds behind one interface (src/H5VL_logi_idx.hpp:44-57) *)
Inductive kind := KArray | KCompact.
(** fp->idx (src/H5VL_logi_idx.hpp:44-99). *)
Inductive index := IArray (l : list mentry) | ICompact (l : list cent).

(** H5VL_logi_idx_t::clear (src/H5VL_logi_idx_list.cpp:29-31, src/H5VL_logi_idx_compact.cpp:87-89).
    *)
Definition idx_empty (k : kind) : index :=
  match k with KArray => IArray [] | KCompact => ICompact [] end.

(** parse_block of the selected index, appended to the current content.
    src/H5VL_logi_idx_list.cpp:41-93, src/H5VL_logi_idx_compact.cpp:103-177. *)
Definition idx_parse (z : zlib) (cfg : Z) (infos : list (option dinfo)) (i : index)
           (buf : list Z) : res index :=
  match i with
  | IArray l => do l' <- parse_array (S (length buf)) z cfg infos buf 0 []; Ok (IArray (l ++ l'))
  | ICompact l => do l' <- parse_compact (S (length buf)) z cfg infos buf 0 []; Ok (ICompact (l ++ l'))
  end.

(** search; the request's dataset must be in the table, a null entry yields nothing.
    src/H5VL_logi_idx_list.cpp:109-141, src/H5VL_logi_idx_compact.cpp:193-292. *)
Definition idx_search1 (infos : list (option dinfo)) (i : index) (r : rreq) : res (list sret) :=
  match info_at infos (rq_did r) with
  | None => UB
  | Some None => Ok []
  | Some (Some dip) =>
      match i with
      | IArray l => Ok (search_array l dip r)
      | ICompact l => or_ub (search_compact l dip r)
      end
  end.

(** Helper: a loop over the requests that appends results (src/H5VL_logi_nb.cpp:315-339). *)
Fixpoint res_flat {A B} (f : A -> res (list B)) (l : list A) : res (list B) :=
  match l with
  | [] => Ok []
  | a :: t => do x <- f a; do y <- res_flat f t; Ok (x ++ y)
  end.

(** The loop over the requests (src/H5VL_logi_nb.cpp:315-339). *)
Definition idx_search (infos : list (option dinfo)) (i : index) (rs : list rreq)
  : res (list sret) := res_flat (idx_search1 infos i) rs.

(** ** Loading the metadata *)

(** H5VL_log_filei_metaupdate (src/H5VL_log_filei_meta.cpp:326-416): the entries after the
    decomposition map of every metadata dataset, each dataset parsed as one block. *)
Definition md_body (md : list Z) : option (list Z) :=
  match rd_i64 md 0 with
  | Some nsec =>
      let start := 8 * (nsec + 1) in
      rd md start (Z.to_nat (Zlen md - start))
  | None => None
  end.

(** The loop over the metadata datasets (src/H5VL_log_filei_meta.cpp:326-416). *)
Fixpoint load_all (z : zlib) (cfg : Z) (infos : list (option dinfo)) (i : index)
         (mds : list (list Z)) : res index :=
  match mds with
  | [] => Ok i
  | md :: rest =>
      do b <- or_ub (md_body md);
      do i' <- idx_parse z cfg infos i b;
      load_all z cfg infos i' rest
  end.

(** Number of sections that fit (meta.cpp:492-494): [offs] are the ends of the sections after
    [sec]; the result is the new [i]. *)
Fixpoint fit (limit start : Z) (i : nat) (offs : list Z) : nat :=
  match offs with
  | [] => i
  | o :: rest => if limit <? o - start then i else fit limit start (S i) rest
  end.

(** H5VL_log_filei_metaupdate_part (src/H5VL_log_filei_meta.cpp:424-535): the bytes to parse and
    the next (md, sec), [None] for md == -1. *)
Definition load_part (limit : Z) (mds : list (list Z)) (md sec : nat)
  : res (list Z * option (nat * nat)) :=
  match nth_error mds md with
  | None => Err
  | Some bytes =>
      do nsec <- or_ub (rd_i64 bytes 0);
      do offs <- or_ub (rd_words bytes 8 (Z.to_nat nsec));
      if nsec <=? Z.of_nat sec then Err else
      let start := match sec with O => 8 * (nsec + 1) | S s => nth s offs 0 end in
      let i := fit limit start (S sec) (skipn (S sec) offs) in
      let count := nth (i - 1) offs 0 - start in
      let '(md', sec') := if nsec <=? Z.of_nat i then (S md, 0%nat) else (md, i) in
      do b <- or_ub (rd bytes start (Z.to_nat count));
      Ok (b, if (length mds <=? md')%nat then None else Some (md', sec'))
  end.

(** The loop over the parts of the metadata (src/H5VL_logi_nb.cpp:331-337). *)
Fixpoint search_parts (fuel : nat) (z : zlib) (cfg : Z) (infos : list (option dinfo)) (k : kind)
         (limit : Z) (mds : list (list Z)) (md sec : nat) (rs : list rreq) : res (list sret) :=
  match fuel with
  | O => UB
  | S f =>
      do p <- load_part limit mds md sec;
      do i <- idx_parse z cfg infos (idx_empty k) (fst p);
      do x <- idx_search infos i rs;
      match snd p with
      | None => Ok x
      | Some (md', sec') =>
          do y <- search_parts f z cfg infos k limit mds md' sec' rs; Ok (x ++ y)
      end
  end.

(** H5VL_log_read_idx_search (src/H5VL_logi_nb.cpp:315-339) after the metadata is flushed.
    [limit = None]: LOG_VOL_BSIZE_UNLIMITED.  [cached] is the index content when idxvalid. *)
Definition read_search (z : zlib) (cfg : Z) (infos : list (option dinfo)) (k : kind)
           (limit : option Z) (mds : list (list Z)) (cached : option index) (rs : list rreq)
  : res (list sret * option index) :=
  match limit with
  | None =>
      do i <- match cached with
              | Some i => Ok i
              | None => load_all z cfg infos (idx_empty k) mds
              end;
      do x <- idx_search infos i rs;
      Ok (x, Some i)
  | Some lim =>
      do x <- search_parts (S (length (concat mds))) z cfg infos k lim mds 0 0 rs;
      Ok (x, cached)
  end.
