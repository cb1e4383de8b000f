(** API calls in which the underlying library reports an error, and the program goes on.

    As in CrashModel.v every call is a sequence of changes of the underlying file.  Here one of them
    fails: it has no effect, the call stops there with an exception and returns an error, and the open
    file is left as far as the call had got.  Simplifications: the change fails in all processes; a
    write of one process is done completely or not at all; besides the changes nothing fails (asking
    for the address of a dataset, closing it, MPI). *)
From Verif Require Import Base Spec MetaModel QueueModel FlushModel IndexModel SysModel CrashModel.

(** The open file, the disk, and whether H5Fclose has failed: fp->refcnt is then 0 already
    (src/H5VL_log_filei.cpp:1081-1084) and the file is still open. *)
Record fstate := mkfs { x_sys : sys; x_disk : disk; x_dead : bool }.

(** Changes are carried out up to the first one that fails, by itself or because [bad] says so.
    Second component: how many were carried out, if not all.
    CHECK_ERR and H5VL_LOGI_EXP_CATCH_ERR (src/H5VL_logi_err.hpp:31-65) leave a call in this
    way. *)
Fixpoint attempt (bad : effect -> bool) (done : nat) (dk : disk) (xs : list effect) : disk * option nat :=
  match xs with
  | [] => (dk, None)
  | x :: rest =>
      if bad x then (dk, Some done)
      else match apply dk x with
           | Ok dk' => attempt bad (S done) dk' rest
           | _ => (dk, Some done)
           end
  end.

(** H5VL_log_nb_flush_write_reqs left by an exception after [dk] was reached: the requests have their
    relative addresses (src/H5VL_logi_nb.cpp:661-673), but are not counted as flushed and nldset is as
    it was (:829-841). *)
Definition stopped_flush (dk : disk) (g : gfile) : gfile :=
  mkg (g_cfg g) (g_infos g) (map rank_assign (g_ranks g)) (dk_file dk) (g_mdsets g) (g_nldset g) (g_metadirty g).

(** H5VL_log_filei_metaflush left by an exception after [k] changes: nmdset is increased as soon as the
    dataset exists (src/H5VL_log_filei_meta.cpp:189-194); the requests, the dirty flag and the index
    are as they were (:300-318). *)
Definition stopped_meta (k : nat) (dk : disk) (g : gfile) : gfile :=
  match k with
  | O => g
  | S _ =>
      let n := Zlen (g_mdsets g) in
      let md := match find_key n (dk_mds dk) with Some m => get (snd m) 0 (Z.to_nat (fst m)) | None => [] end in
      mkg (g_cfg g) (g_infos g) (g_ranks g) (g_file g) (g_mdsets g ++ [md]) (g_nldset g) (g_metadirty g)
  end.

(** The open file after a call that stopped after [k] changes.
    The lines are given at the cases, e.g. src/H5VL_log_dataset.cpp:165-183. *)
Definition stopped (e : env) (s : sys) (o : op) (k : nat) (dk : disk) : sys :=
  let g := s_g s in
  match o with
  (* the table of datasets is changed last (src/H5VL_log_dataset.cpp:165-183) *)
  | OCreate _ => s
  (* sizes first, then the attribute, then the strides (:525-544) *)
  | OSetExtent did dims =>
      match info_at (g_infos g) did with
      | Some (Some d) =>
          let d' := mkdinfo (di_esize d) (fst (set_dims (di_dims d) (di_mdims d) dims)) (di_mdims d) (di_dsteps d) (di_fill d) in
          mksys (set_infos g (upd_nth (Z.to_nat did) (Some d') (g_infos g))) (s_idx s)
      | _ => s
      end
  | OWrite _ _ _ _ => s
  | OFlush _ => mksys (stopped_flush dk g) (s_idx s)
  | ORead doff _ =>
      let c := e_coll e && any_pending g in
      let n := if c then length (flush_effects doff g) else 0%nat in
      if (k <? n)%nat then mksys (stopped_flush dk g) (s_idx s)
      else mksys (stopped_meta (k - n) dk (if c then flush_writes doff g else g)) (s_idx s)
  | OReopen doff _ =>
      let n := length (flush_effects doff g) in
      let g1 := flush_writes doff g in
      let m := length (meta_effects g1) in
      if (k <? n)%nat then mksys (stopped_flush dk g) (s_idx s)
      else if (k - n <? m)%nat then mksys (stopped_meta (k - n) dk g1) (s_idx s)
      else mksys (metaflush g1) None
  end.

(** An anchor whose creation was not completed stays; the next dataset has the same id and another name
    (src/H5VL_log_dataset.cpp:108, 149-176).  CrashModel.v names anchors by their number; this one gets a
    number that is not used. *)
Definition orphan (g : gfile) (o : op) (dk : disk) : disk :=
  match o with
  | OCreate _ =>
      mkdk (dk_file dk)
           (map (fun p => if fst p =? Zlen (g_infos g) then (-1 - Zlen (dk_sets dk), snd p) else p) (dk_sets dk))
           (dk_logs dk) (dk_mds dk) (dk_att dk)
  | _ => dk
  end.

(** H5Dset_extent to a size above the maximum (src/H5VL_log_dataset.cpp:527-530). *)
Definition refused (s : sys) (o : op) : bool :=
  match o with
  | OSetExtent did dims =>
      match info_at (g_infos (s_g s)) did with
      | Some (Some d) => negb (snd (set_extent (g_cfg (s_g s)) d dims))
      | _ => false
      end
  | _ => false
  end.

(** [Call bad o]: the call [o], in which the changes [bad] fail.  [LostData]: H5Fflush, and the
    underlying library does not say where the log dataset is, not even after it was flushed and opened
    again.  [LostMeta doff np]: the same for the metadata dataset of H5Fclose, followed by H5Fopen.
    src/H5VL_logi_nb.cpp:756-786 and src/H5VL_log_filei_meta.cpp:220-228 are the last two. *)
Inductive fop := Call (bad : effect -> bool) (o : op) | LostData | LostMeta (doff : Z) (np : nat).

(** The log dataset has no address (src/H5VL_logi_nb.cpp:769-778): a warning is printed, nothing is
    written, and everything goes on with address 0. *)
Definition flush_nowhere (g : gfile) : gfile :=
  let g1 := flush_writes 0 g in
  mkg (g_cfg g1) (g_infos g1) (g_ranks g1) (g_file g) (g_mdsets g1) (g_nldset g1) (g_metadirty g1).
(** The log dataset is created and has no address (src/H5VL_logi_nb.cpp:719-786). *)
Definition nowhere_effects (g : gfile) : list effect :=
  if Zsum (map (fun st => local_size (unflushed st)) (g_ranks g)) =? 0 then [] else [XLog (g_nldset g)].
(** The metadata dataset has no address (src/H5VL_log_filei_meta.cpp:220-228): a warning is printed,
    nothing is written, and the requests are deleted.  The dataset is read as zeros. *)
Definition meta_nowhere_effects (g : gfile) : list effect :=
  let total := Zsum (meta_sizes (g_ranks g)) in
  if 8 * (Zlen (g_ranks g) + 1) <? total then [XMd (Zlen (g_mdsets g)) total] else [].

(** H5Fclose is the one after which the file object is gone (src/H5VL_log_file.cpp:528-539). *)
Definition closes_file (o : op) : bool := match o with OReopen _ _ => true | _ => false end.

(** One call.  [None]: it returned an error.  Opening (after H5Fclose) reads the disk.  H5Fclose after
    an H5Fclose that failed decrements the count to -1, does nothing and returns success
    (src/H5VL_log_filei.cpp:1081-1084, src/H5VL_log_file.cpp:528-539); trusted: the library lets the
    program call it again, and the file is opened by another program. *)
Definition fstep (e : env) (x : fstate) (f : fop) : res (fstate * option (list (list Z))) :=
  let s := x_sys x in
  let dk := x_disk x in
  match f with
  | Call bad o =>
      match o, x_dead x with
      | OReopen _ np, true => do s' <- recover np dk; Ok (mkfs s' dk false, Some [])
      | _, _ =>
          if refused s o then Ok (mkfs (stopped e s o 0 dk) dk (x_dead x), None)
          else
            match attempt bad 0 dk (effects e s o) with
            | (dk', Some k) =>
                Ok (mkfs (stopped e s o k dk') (orphan (s_g s) o dk') (x_dead x || closes_file o), None)
            | (dk', None) =>
                match o with
                | OReopen _ np => do s' <- recover np dk'; Ok (mkfs s' dk' false, Some [])
                | _ => do p <- step e s o; Ok (mkfs (fst p) dk' (x_dead x), Some (snd p))
                end
            end
      end
  | LostData =>
      if any_pending (s_g s) then
        match attempt (fun _ => false) 0 dk (nowhere_effects (s_g s)) with
        | (dk', Some k) => Ok (mkfs (mksys (stopped_flush dk' (s_g s)) (s_idx s)) dk' (x_dead x), None)
        | (dk', None) => Ok (mkfs (mksys (flush_nowhere (s_g s)) (s_idx s)) dk' (x_dead x), Some [])
        end
      else Ok (x, Some [])
  | LostMeta doff np =>
      if x_dead x then do s' <- recover np dk; Ok (mkfs s' dk false, Some [])
      else
        let g1 := flush_writes doff (s_g s) in
        let g2 := metaflush g1 in
        do dk' <- apply_all dk (flush_effects doff (s_g s) ++ meta_nowhere_effects g1 ++
                                [XAtt (mkatt (Zlen (g_infos g2)) (g_nldset g2) (Zlen (g_mdsets g2)) (g_cfg g2))]);
        do s' <- recover np dk'; Ok (mkfs s' dk' false, Some [])
  end.

(** A history (driver of the model over [fstep]; no code of /repo). *)
Fixpoint frun (e : env) (x : fstate) (fs : list fop) : res (fstate * list (option (list (list Z)))) :=
  match fs with
  | [] => Ok (x, [])
  | f :: rest =>
      do p <- fstep e x f;
      do q <- frun e (fst p) rest;
      Ok (fst q, snd p :: snd q)
  end.

(** A new file.  src/H5VL_log_filei.cpp:201-291. *)
Definition fstart (cfg : Z) (np : nat) (f0 : bytemap) : fstate := mkfs (init cfg np f0) (disk0 cfg f0) false.
