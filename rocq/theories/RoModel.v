(** A file opened with H5F_ACC_RDONLY.

    H5VL_log_file_open passes the flag on and keeps it (src/H5VL_log_file.cpp:259, 297).  Of all calls only
    H5Fclose looks at it: nothing is written when it is H5F_ACC_RDONLY = 0
    (src/H5VL_log_filei.cpp:739).  The file is also opened with MPI, always for reading and writing
    (src/H5VL_log_filei.cpp:182-183), so the program must be allowed to write it; data and metadata are
    written through that handle.  Trusted: the underlying library refuses to create objects and to
    write attributes in a file opened for reading only. *)
From Verif Require Import Base Spec MetaModel QueueModel FlushModel IndexModel SysModel CrashModel FaultModel RealModel.

(** The changes made by the underlying library: all but MPI_File_write_at_all of data
    (src/H5VL_logi_nb.cpp:784-797) and of metadata (src/H5VL_log_filei_meta.cpp:232-243). *)
Definition through_library (x : effect) : bool :=
  match x with XData _ _ | XMdPut _ _ _ => false | _ => true end.

(** H5Fclose: how the disk is left, and after how many changes it failed if it did.
    src/H5VL_log_filei.cpp:736-770. *)
Definition ro_close (e : env) (flag : Z) (s : sys) (dk : disk) (doff : Z) : disk * option nat :=
  if flag =? 0 then (dk, None)
  else attempt through_library 0 dk (effects e s (OReopen doff 0)).

(** One call.  [None]: it returned an error.  H5Fclose and H5Fopen (again for reading only) give what
    is on the disk.
    src/H5VL_log_filei.cpp:736-770 and the functions cited at [effects] of CrashModel.v. *)
Definition ro_step (e : env) (c : sys * disk) (o : op) : res ((sys * disk) * option (list (list Z))) :=
  let s := fst c in
  let dk := snd c in
  let e' := with_coll e (length (g_ranks (s_g s)) =? 1)%nat in
  match o with
  | OReopen doff np => let dk' := fst (ro_close e' 0 s dk doff) in do s' <- recover np dk'; Ok ((s', dk'), Some [])
  | _ =>
      if refused s o then Ok ((stopped e' s o 0 dk, dk), None)
      else
        match attempt through_library 0 dk (effects e' s o) with
        | (dk', Some k) => Ok ((stopped e' s o k dk', dk'), None)
        | (dk', None) => do p <- step e' s o; Ok ((fst p, dk'), Some (snd p))
        end
  end.

(** A history of calls (driver of the model; src/H5VL_log_filei.cpp:736-770). *)
Fixpoint ro_run (e : env) (c : sys * disk) (ops : list op) : res ((sys * disk) * list (option (list (list Z)))) :=
  match ops with
  | [] => Ok (c, [])
  | o :: rest =>
      do p <- ro_step e c o;
      do q <- ro_run e (fst p) rest;
      Ok (fst q, snd p :: snd q)
  end.
