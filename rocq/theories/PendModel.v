(** Several read requests served by one call.

    H5Dread with the non-blocking (buffered) transfer property leaves its request in fp->rreqs;
    H5VL_log_filei_flush (src/H5VL_log_filei.cpp:669-689) hands the whole queue to
    H5VL_log_nb_flush_read_reqs (src/H5VL_logi_nb.cpp:522-590), which initialises all buffers,
    searches the index once for all requests and issues one MPI read
    (H5VL_log_nb_perform_read, :341-420).  As in [read_one], types are equal and memory is
    contiguous, so that xbuf is the user buffer; all buffers live in one memory [mem]. *)
From Verif Require Import Base Spec MetaModel QueueModel FlushModel IndexModel ReadModel SysModel.

(** The requests of the queue (src/H5VL_log_dataseti.cpp:1059-1122). *)
Fixpoint requests (infos : list (option dinfo)) (calls : list rcall) : res (list rreq) :=
  match calls with
  | [] => Ok []
  | c :: rest =>
      match info_at infos (rc_did c) with
      | Some (Some d) =>
          do r <- requests infos rest;
          Ok (mkrreq (rc_did c) (rc_sels c) (rc_buf c) (di_esize d) :: r)
      | _ => UB
      end
  end.

(** H5VL_log_nb_flush_read_reqs and H5VL_log_nb_perform_read for the whole queue; the result is
    the memory afterwards.  src/H5VL_logi_nb.cpp:341-590. *)
Definition serve (e : env) (g : gfile) (idx : option index) (mem : bytemap) (calls : list rcall)
  : res (bytemap * option index) :=
  do rs <- requests (g_infos g) calls;
  let mem1 := fold_left (fill_req (g_infos g)) rs mem in
  do p <- read_search (e_zlib e) (g_cfg g) (g_infos g) (e_kind e) (e_limit e) (g_mdsets g) idx rs;
  Ok (perform_read (e_sort e) (g_file g) mem1 (fst p), snd p).

(** H5VL_log_filei_flush (src/H5VL_log_filei.cpp:669-689): pending writes first, then pending
    reads.  H5VL_log_read_idx_search writes pending metadata before it searches
    (src/H5VL_logi_nb.cpp:315-339), as in [step] for [ORead]. *)
Definition flush_reads (e : env) (s : sys) (doff : Z) (mem : bytemap) (calls : list rcall)
  : res (sys * bytemap) :=
  let g := s_g s in
  let g1 := if any_pending g then flush_writes doff g else g in
  let g2 := if g_metadirty g1 then metaflush g1 else g1 in
  let idx := if g_metadirty g1 then None else s_idx s in
  do p <- serve e g2 idx mem calls;
  Ok (mksys g2 (snd p), fst p).

(** The file bytes of the MPI file view built for a list of intersections, in type map order
    (src/H5VL_log_dataseti.cpp:666-671 and src/H5VL_logi_nb.cpp:405). *)
Definition file_view (sort : list sret -> list sret) (blocks : list sret) : list Z :=
  map fst (fst (gen_rtypes sort blocks)).
