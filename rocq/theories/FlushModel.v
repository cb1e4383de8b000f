(** Writing the queued requests of all processes to the log and their metadata to a metadata
    dataset: src/H5VL_logi_nb.cpp:592-894 and src/H5VL_log_filei_meta.cpp:49-320. *)
From Verif Require Import Base Spec MetaModel QueueModel.

(** hdr->foff = foff (src/H5VL_logi_nb.cpp:661-673, :829-838). *)
Definition set_foff (w : wreq) (foff : Z) : wreq :=
  mkwreq (mkhdr (h_size (w_hdr w)) (h_did (w_hdr w)) (h_flag (w_hdr w)) foff (h_fsize (w_hdr w)))
         (w_body w) (w_selpos w) (w_metaoff w) (w_data w).

(** Relative offsets of the requests of one process: foff = fsize_local; fsize_local += fsize
    (nb.cpp:661-673). *)
Fixpoint assign_foff (off : Z) (ws : list wreq) : list wreq :=
  match ws with
  | [] => []
  | w :: rest => set_foff w off :: assign_foff (off + h_fsize (w_hdr w)) rest
  end.
(** fsize_local (src/H5VL_logi_nb.cpp:661-673). *)
Definition local_size (ws : list wreq) : Z := Zsum (map (fun w => h_fsize (w_hdr w)) ws).

(** The requests from fp->nflushed on (src/H5VL_logi_nb.cpp:657-676). *)
Definition unflushed (st : rank) : list wreq := skipn (k_nflushed st) (k_wreqs st).
(** The requests before fp->nflushed (src/H5VL_logi_nb.cpp:657-676). *)
Definition flushed (st : rank) : list wreq := firstn (k_nflushed st) (k_wreqs st).

(** The bytes described by the memory type (nb.cpp:657-676). *)
Definition local_bytes (st : rank) : list Z := flat_map w_data (unflushed st).

(** Requests of one process when no byte is written in the whole communicator: only the
    relative offset has been assigned (nb.cpp:661-673, fsize_all == 0). *)
Definition rank_assign (st : rank) : rank :=
  mkrank (flushed st ++ assign_foff 0 (unflushed st)) (k_nflushed st) (k_mdsize st)
         (k_hash st) (k_zbsize st).

(** One process after its data is written at [base] = foff_group + doff (nb.cpp:829-838). *)
Definition rank_flushed (base : Z) (st : rank) : rank :=
  let ws := flushed st ++
            map (fun w => set_foff w (h_foff (w_hdr w) + base)) (assign_foff 0 (unflushed st)) in
  mkrank ws (length ws) (k_mdsize st) (k_hash st) (k_zbsize st).

(** MPI_Exscan (nb.cpp:702-704): offset of each process's part. *)
Fixpoint exscan (acc : Z) (l : list Z) : list Z :=
  match l with [] => [] | x :: t => acc :: exscan (acc + x) t end.

(** Collective state of one open file.  All processes hold the same dataset table, metadata
    datasets, file content and flags; these are
    kept once.  src/H5VL_log_file.hpp:39-133. *)
Record gfile := mkg {
  g_cfg : Z;
  g_infos : list (option dinfo);
  g_ranks : list rank;
  g_file : bytemap;
  g_mdsets : list (list Z);
  g_nldset : Z;
  g_metadirty : bool }.

(** H5VL_log_nb_flush_write_reqs (src/H5VL_logi_nb.cpp:592-894), without merged requests and
    without subfiling.  [doff] is the file offset at which the underlying VOL places the new
    log dataset (H5VL_logi_dataset_get_foff, nb.cpp:753).  Simplifications: block lengths are
    exact (C: int; see IntModel.v), the write reaches the file, and the dataset is always placed. *)
Definition flush_writes (doff : Z) (g : gfile) : gfile :=
  let sizes := map (fun st => local_size (unflushed st)) (g_ranks g) in
  let fsize_all := Zsum sizes in
  if fsize_all =? 0 then
    mkg (g_cfg g) (g_infos g) (map rank_assign (g_ranks g)) (g_file g) (g_mdsets g)
        (g_nldset g) (g_metadirty g)
  else
    let bases := map (fun o => o + doff) (exscan 0 sizes) in
    mkg (g_cfg g) (g_infos g)
        (map (fun p => rank_flushed (fst p) (snd p)) (combine bases (g_ranks g)))
        (fold_left (fun f p => put f (fst p) (local_bytes (snd p)))
                   (combine bases (g_ranks g)) (g_file g))
        (g_mdsets g) (g_nldset g + 1) true.

(** H5VL_log_filei_metaflush (src/H5VL_log_filei_meta.cpp:49-320): one new metadata dataset
    holding the decomposition map (number of sections, end offset of each section) followed by
    the entries of each process.  The dataset is built piece by piece: process [i] writes its
    entries at its offset rbuf[0]; process 0 writes the map in front of its own.
    [meta_sizes]: the values gathered at :124 (process 0 counts the map). *)
Definition meta_bytes (st : rank) : list Z := flat_map wreq_bytes (k_wreqs st).
(** mdsize of one process (src/H5VL_log_filei_meta.cpp:92-131). *)
Definition meta_len (st : rank) : Z := Zsum (map (fun w => h_size (w_hdr w)) (k_wreqs st)).

(** See above (src/H5VL_log_filei_meta.cpp:92-131). *)
Definition meta_sizes (ranks : list rank) : list Z :=
  match map meta_len ranks with
  | [] => []
  | s0 :: rest => (8 * (Zlen ranks + 1) + s0) :: rest
  end.

(** The prefix sum (src/H5VL_log_filei_meta.cpp:127-145). *)
Fixpoint prefix_ends (acc : Z) (l : list Z) : list Z :=
  match l with [] => [] | x :: t => (acc + x) :: prefix_ends (acc + x) t end.

(** mdoffs after the prefix sum, with slot 0 overwritten by the number of sections
    (:127-145). *)
Definition md_map (ranks : list rank) : list Z :=
  Zlen ranks :: prefix_ends 0 (meta_sizes ranks).

(** What each process writes; process 0 begins with the map (src/H5VL_log_filei_meta.cpp:127-280).
    *)
Definition md_pieces (ranks : list rank) : list (list Z) :=
  match ranks with
  | [] => []
  | r0 :: rest => (words (md_map ranks) ++ meta_bytes r0) :: map meta_bytes rest
  end.

(** Content of the new metadata dataset: every process writes its piece at mdoff + rbuf[0].
    src/H5VL_log_filei_meta.cpp:230-284. *)
Definition md_content (ranks : list rank) : list Z :=
  let total := Zsum (meta_sizes ranks) in
  let m := fold_left (fun f p => put f (fst p) (snd p))
                     (combine (exscan 0 (meta_sizes ranks)) (md_pieces ranks)) (fun _ => 0) in
  get m 0 (Z.to_nat total).

(** H5VL_log_filei_metaflush (src/H5VL_log_filei_meta.cpp:49-320). *)
Definition metaflush (g : gfile) : gfile :=
  let ranks := g_ranks g in
  let total := Zsum (meta_sizes ranks) in
  let mds := if 8 * (Zlen ranks + 1) <? total then g_mdsets g ++ [md_content ranks]
             else g_mdsets g in
  mkg (g_cfg g) (g_infos g)
      (map (fun st => mkrank [] 0 0 [] (k_zbsize st)) ranks)
      (g_file g) mds (g_nldset g) false.
