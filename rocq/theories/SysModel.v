(** A file opened by a group of processes, driven by a history of API calls.

    Simplifications: API calls are atomic and collective calls are made by all processes
    together; the MPI collectives inside them complete (which processes enter them is the
    subject of CollModel.v).  The processes named in a read select at least one block. *)
From Verif Require Import Base Spec MetaModel QueueModel FlushModel IndexModel ReadModel.

(** What is fixed for a run: zlib, the index kind, the metadata buffer limit
    ([None]: unlimited), the sorting function standing for std::sort, and whether reads flush
    pending writes first: fp->dxplid is collective or np == 1
    (src/H5VL_log_dataseti.cpp:1126-1133). *)
Record env := mkenv {
  e_zlib : zlib; e_kind : kind; e_limit : option Z;
  e_sort : list sret -> list sret; e_coll : bool }.

(** The file and the index content; [None] is fp->idxvalid == false (metaflush clears the flag,
    src/H5VL_log_filei_meta.cpp:301). *)
Record sys := mksys { s_g : gfile; s_idx : option index }.

(** One blocking read issued by a process: dataset, selection, address of its buffer.
    src/H5VL_log_dataseti.cpp:1034-1141. *)
Record rcall := mkrcall { rc_did : Z; rc_sels : list block; rc_buf : Z; rc_mem : bytemap }.

(** The calls of the API: src/H5VL_log_dataset.cpp:54-221, :520-556;
    src/H5VL_log_dataseti.cpp:787-1141; src/H5VL_log_filei.cpp:669-842, :109-199. *)
Inductive op :=
| OCreate (d : dinfo)                         (* H5Dcreate, collective *)
| OSetExtent (did : Z) (dims : list Z)        (* H5Dset_extent, collective *)
| OWrite (rk : nat) (did : Z) (sels : list block) (data : list Z)
                                              (* H5Dwrite / H5Dwrite_n of one process *)
| OFlush (doff : Z)                           (* H5Fflush, collective; [doff]: placement of the log dataset *)
| ORead (doff : Z) (calls : list rcall)       (* blocking H5Dread / H5Dread_n, one per process *)
| OReopen (doff : Z) (np : nat).              (* H5Fclose, then H5Fopen by [np] processes *)

(** Replacing the queues (helper of the model; src/H5VL_log_file.hpp:39-133). *)
Definition set_ranks (g : gfile) (rs : list rank) : gfile :=
  mkg (g_cfg g) (g_infos g) rs (g_file g) (g_mdsets g) (g_nldset g) (g_metadirty g).
(** Replacing the dataset table (helper of the model; src/H5VL_log_file.hpp:39-133). *)
Definition set_infos (g : gfile) (is : list (option dinfo)) : gfile :=
  mkg (g_cfg g) is (g_ranks g) (g_file g) (g_mdsets g) (g_nldset g) (g_metadirty g).
(** MPI_Allreduce of the numbers of pending writes (src/H5VL_log_filei.cpp:657-688). *)
Definition any_pending (g : gfile) : bool :=
  existsb (fun st => negb (num_pending st =? 0)%nat) (g_ranks g).

(** Dataset creation appends to dsets_info (src/H5VL_log_dataset.cpp:111, 149-183).  dsteps are
    computed when the encoding is configured; with ndim == 0 that writes dsteps[-1]. *)
Definition create_info (cfg : Z) (d : dinfo) : res dinfo :=
  if has cfg CFG_SEL_ENCODE then
    if (di_ndim d =? 0)%nat then UB
    else Ok (mkdinfo (di_esize d) (di_dims d) (di_mdims d) (dsteps_of (di_dims d)) (di_fill d))
  else Ok d.

(** H5Dset_extent (src/H5VL_log_dataset.cpp:520-556): the sizes are checked one by one while
    they are stored.  Result: the stored sizes and whether all were accepted. *)
Fixpoint set_dims (dims mdims new : list Z) : list Z * bool :=
  match dims, mdims, new with
  | d :: dims', m :: mdims', n :: new' =>
      if negb (m =? UNLIMITED) && (m <? n) then (dims, false)
      else let '(r, ok) := set_dims dims' mdims' new' in (n :: r, ok)
  | _, _, _ => (dims, true)
  end.

(** src/H5VL_log_dataset.cpp:520-556. *)
Definition set_extent (cfg : Z) (d : dinfo) (new : list Z) : dinfo * bool :=
  let '(dims, okk) := set_dims (di_dims d) (di_mdims d) new in
  if okk : bool
  then (mkdinfo (di_esize d) dims (di_mdims d)
          (if has cfg CFG_SEL_ENCODE then dsteps_of dims else di_dsteps d) (di_fill d), true)
  else (mkdinfo (di_esize d) dims (di_mdims d) (di_dsteps d) (di_fill d), false).

(** Blocking read of one process after the collective part: H5VL_log_dataseti_read
    (src/H5VL_log_dataseti.cpp:1034-1141) with equal types and contiguous memory, so that xbuf
    is the user buffer; H5VL_log_nb_flush_read_reqs and H5VL_log_nb_perform_read
    (src/H5VL_logi_nb.cpp:341-560).  The result is the content of the user buffer. *)
Definition read_one (e : env) (g : gfile) (idx : option index) (c : rcall)
  : res (list Z * option index) :=
  match rc_sels c with
  | [] => Ok ([], idx)
  | _ =>
      match info_at (g_infos g) (rc_did c) with
      | Some (Some dip) =>
          let r := mkrreq (rc_did c) (rc_sels c) (rc_buf c) (di_esize dip) in
          let mem1 := fill_req (g_infos g) (rc_mem c) r in
          do p <- read_search (e_zlib e) (g_cfg g) (g_infos g) (e_kind e) (e_limit e)
                              (g_mdsets g) idx [r];
          let mem2 := perform_read (e_sort e) (g_file g) mem1 (fst p) in
          Ok (get mem2 (rc_buf c) (Z.to_nat (rq_bytes r)), snd p)
      | _ => UB
      end
  end.

(** The processes that read, one after the other; each loads the index if its own is not valid
    (src/H5VL_logi_nb.cpp:341-590). *)
Fixpoint read_each (e : env) (g : gfile) (idx : option index) (cs : list rcall)
  : res (list (list Z) * option index) :=
  match cs with
  | [] => Ok ([], idx)
  | c :: rest =>
      do p <- read_one e g idx c;
      do q <- read_each e g (snd p) rest;
      Ok (fst p :: fst q, snd q)
  end.

(** Dataset table of a reopened file: H5VL_log_filei_post_open (src/H5VL_log_filei.cpp:109-199)
    visits every dataset and H5VL_log_dataseti_open (src/H5VL_log_dataseti.cpp:689-761) rebuilds
    its information from its attributes and creation properties.  Simplification: the visit
    finds every dataset (which names it finds is modelled in NameModel.v). *)
Fixpoint reopen_infos (cfg : Z) (infos : list (option dinfo)) : res (list (option dinfo)) :=
  match infos with
  | [] => Ok []
  | None :: rest => do r <- reopen_infos cfg rest; Ok (None :: r)
  | Some d :: rest =>
      do d' <- create_info cfg d; do r <- reopen_infos cfg rest; Ok (Some d' :: r)
  end.

(** H5VL_log_filei_close of a file opened for writing (src/H5VL_log_filei.cpp:736-747): the
    queue is flushed and the metadata written, whether or not anything is pending. *)
Definition close_file (doff : Z) (g : gfile) : gfile := metaflush (flush_writes doff g).

(** One API call; the second component are the buffers returned by reads.
    src/H5VL_log_dataset.cpp:54-221, :520-556; src/H5VL_log_dataseti.cpp:787-1141;
    src/H5VL_log_filei.cpp:669-842, :109-199. *)
Definition step (e : env) (s : sys) (o : op) : res (sys * list (list Z)) :=
  let g := s_g s in
  match o with
  | OCreate d =>
      do d' <- create_info (g_cfg g) d;
      Ok (mksys (set_infos g (g_infos g ++ [Some d'])) (s_idx s), [])
  | OSetExtent did dims =>
      match info_at (g_infos g) did with
      | Some (Some d) =>
          let '(d', okk) := set_extent (g_cfg g) d dims in
          if okk : bool
          then Ok (mksys (set_infos g (upd_nth (Z.to_nat did) (Some d') (g_infos g))) (s_idx s), [])
          else Err
      | _ => UB
      end
  | OWrite rk did sels data =>
      match nth_error (g_ranks g) rk with
      | Some st =>
          do st' <- ds_write (e_zlib e) (g_cfg g) (g_infos g) st did sels data;
          Ok (mksys (set_ranks g (upd_nth rk st' (g_ranks g))) (s_idx s), [])
      | None => UB
      end
  | OFlush doff =>
      Ok (mksys (if any_pending g then flush_writes doff g else g) (s_idx s), [])
  | ORead doff calls =>
      let g1 := if e_coll e && any_pending g then flush_writes doff g else g in
      let g2 := if g_metadirty g1 then metaflush g1 else g1 in
      let idx := if g_metadirty g1 then None else s_idx s in
      do p <- read_each e g2 idx calls;
      Ok (mksys g2 (snd p), fst p)
  | OReopen doff np =>
      let g1 := close_file doff g in
      do infos <- reopen_infos (g_cfg g) (g_infos g);
      Ok (mksys (mkg (g_cfg g) infos (repeat rank0 np) (g_file g1) (g_mdsets g1) (g_nldset g1) false)
                None, [])
  end.

(** A history of calls (driver of the model over [step]; src/H5VL_log_filei.cpp:109-842). *)
Fixpoint run (e : env) (s : sys) (ops : list op) : res (sys * list (list (list Z))) :=
  match ops with
  | [] => Ok (s, [])
  | o :: rest =>
      do p <- step e s o;
      do q <- run e (fst p) rest;
      Ok (fst q, snd p :: snd q)
  end.

(** A freshly created file: H5VL_log_filei_post_create (src/H5VL_log_filei.cpp:201-291).
    [f0]: the content of the file before any log is written. *)
Definition init (cfg : Z) (np : nat) (f0 : bytemap) : sys :=
  mksys (mkg cfg [] (repeat rank0 np) f0 [] 0 false) None.
