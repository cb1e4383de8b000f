(** H5Dflush, H5Oflush, H5Gflush and H5Tflush: flushing one object of the file. *)
From Verif Require Import Base Spec MetaModel QueueModel FlushModel IndexModel ReadModel SysModel RealModel.

(** The calls of SysModel.v, and flushing an object: H5Dflush of a dataset or H5Oflush of any object
    (src/H5VL_log_dataset.cpp:556-560, src/H5VL_log_obj.cpp:267-292). *)
Inductive fcall := FOp (o : op) | FObj.

(** H5VL_log_dataset_specific knows H5Dset_extent only, everything else goes to the dataset underneath, which is
    empty (src/H5VL_log_dataset.cpp:519-561); H5VL_log_object_specific remaps the name and passes the call on
    (src/H5VL_log_obj.cpp:267-292).  Neither looks at the pending writes.  Simplified: the library underneath succeeds. *)
Definition fstep (e : env) (s : sys) (c : fcall) : res (sys * list (list Z)) :=
  match c with
  | FOp o => step_real e s o
  | FObj => Ok (s, [])
  end.

(** A history of calls (driver of the model over [fstep]; src/H5VL_log_dataset.cpp:502-570). *)
Fixpoint frun (e : env) (s : sys) (cs : list fcall) : res (sys * list (list (list Z))) :=
  match cs with
  | [] => Ok (s, [])
  | c :: rest => do p <- fstep e s c; do q <- frun e (fst p) rest; Ok (fst q, snd p :: snd q)
  end.
