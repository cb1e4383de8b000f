(** When a blocking read flushes.

    H5VL_log_dataseti_read asks the transfer property list of the file, fp->dxplid, whether pending
    writes are to be flushed first (src/H5VL_log_dataseti.cpp:1124-1133), not the one of the call.
    fp->dxplid is a copy of the list that HDF5 hands to H5Fcreate or H5Fopen
    (src/H5VL_log_file.cpp:132 and 281); a program cannot choose that list, it is the default one, which
    says independent (trusted: HDF5 passes H5P_DATASET_XFER_DEFAULT), and the connector never changes
    it.  So a read flushes exactly when one process has opened the file (np == 1, :1128).
    [e_coll] of SysModel.v is therefore not a choice; here it is computed. *)
From Verif Require Import Base Spec MetaModel QueueModel FlushModel IndexModel SysModel.

(** [e_coll] replaced (src/H5VL_log_dataseti.cpp:1124-1133). *)
Definition with_coll (e : env) (b : bool) : env := mkenv (e_zlib e) (e_kind e) (e_limit e) (e_sort e) b.

(** One call, in a file opened by as many processes as there are queues.
    src/H5VL_log_dataseti.cpp:1124-1133. *)
Definition step_real (e : env) (s : sys) (o : op) : res (sys * list (list Z)) :=
  step (with_coll e (length (g_ranks (s_g s)) =? 1)%nat) s o.

(** A history of calls (driver of the model; src/H5VL_log_dataseti.cpp:1124-1133). *)
Fixpoint run_real (e : env) (s : sys) (ops : list op) : res (sys * list (list (list Z))) :=
  match ops with
  | [] => Ok (s, [])
  | o :: rest =>
      do p <- step_real e s o;
      do q <- run_real e (fst p) rest;
      Ok (fst q, snd p :: snd q)
  end.
