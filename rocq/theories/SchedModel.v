(** What the processes write during a collective flush, as separate bytes.  An MPI collective write
    says nothing about the order in which the bytes of one or of several processes reach the
    file. *)
From Verif Require Import Base Spec MetaModel QueueModel FlushModel.

(** The bytes of [l] written from [off] on, with their addresses.
    MPI_File_write_at_all of src/H5VL_logi_nb.cpp:790-801. *)
Definition bytes_at (off : Z) (l : list Z) : list (Z * Z) :=
  combine (map (fun i => off + Z.of_nat i) (seq 0 (length l))) l.

(** MPI_File_write_at_all (fp->fh, foff_group + doff, MPI_BOTTOM, 1, mtype) by each process
    (src/H5VL_logi_nb.cpp:657-716, 782-793): the bytes described by its memory type, one behind the
    other.  Nothing is written when the sizes of all processes add up to 0 (nb.cpp:720). *)
Definition flush_bytes (doff : Z) (g : gfile) : list (list (Z * Z)) :=
  let sizes := map (fun st => local_size (unflushed st)) (g_ranks g) in
  if Zsum sizes =? 0 then []
  else map (fun p => bytes_at (fst p + doff) (local_bytes (snd p)))
           (combine (exscan 0 sizes) (g_ranks g)).

(** MPI_File_write_at_all (fp->fh, mdoff + rbuf[0], MPI_BOTTOM, 1, mmtype) by each process
    (src/H5VL_log_filei_meta.cpp:94-139, 245-262), with addresses relative to the start of the
    metadata dataset. *)
Definition meta_flush_bytes (g : gfile) : list (list (Z * Z)) :=
  map (fun p => bytes_at (fst p) (snd p))
      (combine (exscan 0 (meta_sizes (g_ranks g))) (md_pieces (g_ranks g))).
