(** The replay utility, continued: decoding of the entries, reading of their data and writing it to the
    new file (utils/h5lreplay/h5lreplay_meta.cpp, h5lreplay_data.cpp; files without subfiles, datasets
    without filters). *)
From Verif Require Import Base Spec MetaModel QueueModel FlushModel IndexModel SlotModel ReplayModel.

(** The loops over the entries of the buffer (h5lreplay_meta.cpp:147-171 with metadata sharing: every
    entry is decoded for the sake of the cache; :176-186 without: only the entries taken are).  [infos]
    is the table filled in by h5lreplay_copy_handler; a slot not filled in is zero (SlotModel.v).  As in
    [take_entries] running out of fuel means not ending. *)
Fixpoint parse_entries (share : bool) (z : zlib) (infos : list (option dinfo)) (fuel : nat) (buf : list Z)
         (off stride : Z) (ep j : Z) (bc : cache (list msel)) : res (list mentry) :=
  match fuel with
  | O => UB
  | S f =>
      if ep <? Zlen buf then
        do h <- or_ub (rd_hdr buf ep);
        if stride =? 0 then UB
        else
          let mine := Z.rem (j - off) stride =? 0 in
          if negb share && negb mine then parse_entries share z infos f buf off stride ep (j + 1) bc
          else
            do inf <- or_ub (info_at infos (h_did h));
            let dip := table_slot inf in
            let ref := share && has (h_flag h) FLAG_SEL_REF in
            do e <- (if ref then ref_decode dip buf ep bc else decode z dip buf ep);
            let bc' := if ref then bc else (ep, me_sels e) :: bc in
            do r <- parse_entries share z infos f buf off stride (ep + h_size h) (j + 1) bc';
            Ok (if mine then e :: r else r)
      else Ok []
  end.

(** h5lreplay_parse_meta (h5lreplay_meta.cpp:33-190): the entries inserted by process [rank] of [np], in
    the order of insertion; the cache is cleared after each metadata dataset (:173). *)
Fixpoint replay_parse (share : bool) (z : zlib) (infos : list (option dinfo)) (rank np : Z) (mds : list (list Z))
  : res (list mentry) :=
  match mds with
  | [] => Ok []
  | md :: rest =>
      do w <- replay_window rank np md;
      do a <- match w with
              | None => Ok []
              | Some (_, off, stride, buf) => parse_entries share z infos (take_fuel stride buf) buf off stride 0 0 []
              end;
      do b <- replay_parse share z infos rank np rest;
      Ok (a ++ b)
  end.

(** One H5Dwrite to the new file: dataset, element size, block, bytes of the buffer.
    utils/h5lreplay/h5lreplay_data.cpp:127-169. *)
Record rwrite := mkrw { rw_did : Z; rw_esize : Z; rw_block : block; rw_bytes : list Z }.

(** The new dataset has the current extent of the old one, as its maximum too
    (h5lreplay_copy.cpp:113-119); a selection outside of it makes H5Dwrite fail. *)
Fixpoint in_extent (dims s n : list Z) : bool :=
  match dims, s, n with
  | d :: dims', s0 :: s', n0 :: n' => (0 <=? s0) && (s0 + n0 <=? d) && in_extent dims' s' n'
  | [], [], [] => true
  | _, _, _ => false
  end.

(** h5lreplay_write_data for one entry (h5lreplay_data.cpp:150-166), the blocks of which lie one behind
    the other in its buffer (:62-69; [data]: what was read into the buffer).  The memory space has INT_MAX
    elements (:142-143).  Undefined: writing bytes that were not read. *)
Fixpoint replay_blocks (did : Z) (dip : dinfo) (data : list Z) (off : Z) (sels : list msel) : res (list rwrite) :=
  match sels with
  | [] => Ok []
  | s :: rest =>
      let nd := di_ndim dip in
      if (length (ms_start s) <? nd)%nat || (length (ms_count s) <? nd)%nat then UB else
      let start := firstn nd (ms_start s) in
      let count := firstn nd (ms_count s) in
      let n := di_esize dip * Zprod count in
      if 2 ^ 31 - 1 <? Zprod count then Err
      else if negb (in_extent (di_dims dip) start count) then Err
      else
        do x <- or_ub (rd data off (Z.to_nat n));
        do r <- replay_blocks did dip data (off + n) rest;
        Ok (mkrw did (di_esize dip) (mkblock start count) x :: r)
  end.

(** h5lreplay_read_data and h5lreplay_write_data for one entry: (int)fsize bytes are read at foff
    (h5lreplay_data.cpp:80-107; the sort and the MPI types give each entry the bytes of its range; a
    negative length is an error of MPI).  The identifier in a slot that was not filled in is 0, for which
    H5Dwrite fails (h5lreplay_data.cpp:163-164). *)
Definition replay_entry (infos : list (option dinfo)) (file : bytemap) (e : mentry) : res (list rwrite) :=
  do inf <- or_ub (info_at infos (h_did (me_hdr e)));
  match inf with
  | None => Err
  | Some dip =>
  let len := i32 (h_fsize (me_hdr e)) in
  if len <? 0 then Err
  else replay_blocks (h_did (me_hdr e)) dip (get file (h_foff (me_hdr e)) (Z.to_nat len)) 0 (me_sels e)
  end.

(** The loop over the entries (utils/h5lreplay/h5lreplay_data.cpp:36-169). *)
Fixpoint each_entry (infos : list (option dinfo)) (file : bytemap) (es : list mentry) : res (list rwrite) :=
  match es with
  | [] => Ok []
  | e :: rest => do a <- replay_entry infos file e; do b <- each_entry infos file rest; Ok (a ++ b)
  end.

(** The loop over the datasets (h5lreplay_data.cpp:147-168): [reqs[i]] are the entries of dataset i. *)
Fixpoint each_dataset (infos : list (option dinfo)) (file : bytemap) (es : list mentry) (ids : list Z) : res (list rwrite) :=
  match ids with
  | [] => Ok []
  | i :: rest =>
      do a <- each_entry infos file (filter (fun e => h_did (me_hdr e) =? i) es);
      do b <- each_dataset infos file es rest;
      Ok (a ++ b)
  end.

(** h5lreplay_core (h5lreplay.cpp:123-290) without subfiles: the sequence of H5Dwrites of process [rank]
    of [np]. *)
Definition replay_proc (z : zlib) (rank np : Z) (g : gfile) : res (list rwrite) :=
  do es <- replay_parse (has (g_cfg g) CFG_METADATA_SHARE) z (g_infos g) rank np (g_mdsets g);
  each_dataset (g_infos g) (g_file g) es (zseq (Zlen (g_infos g))).
