(** What an open file leaves on the disk when its processes stop before closing it, and opening what
    was left.

    Every API call is taken apart into the changes it makes to the underlying file, in the order in
    which it makes them.  Trusted: each change is atomic, and the underlying library can open the file
    whichever changes it contains (HDF5 gives no such promise; what follows is the best case). *)
From Verif Require Import Base Spec MetaModel QueueModel FlushModel IndexModel SysModel.

(** The anchor dataset that stands for a dataset of the user (src/H5VL_log_dataset.cpp:118-120): its
    type and fill value ([an_new]; the stride table in it is not stored, and not used without the
    encoding) and the attributes the connector attaches to it (:165-174). *)
Record anchor := mkan { an_new : dinfo; an_dims : option (list Z); an_mdims : option (list Z); an_id : option Z }.

(** The attribute of the file (src/H5VL_log_filei.cpp:281-287, 751-767): numbers of datasets, log
    datasets and metadata datasets, and the configuration. *)
Record att := mkatt { at_ndset : Z; at_nldset : Z; at_nmdset : Z; at_cfg : Z }.

(** The underlying file: its bytes, the anchor datasets (by creation), the numbers in the names of the
    log datasets, the metadata datasets (number in the name; size and content), the attribute.  As in
    FlushModel.v metadata datasets are kept apart from the other bytes.
    Made by src/H5VL_log_filei.cpp:201-291 and the functions cited at [effects]. *)
Record disk := mkdk { dk_file : bytemap; dk_sets : list (Z * anchor); dk_logs : list Z;
                      dk_mds : list (Z * (Z * bytemap)); dk_att : att }.

(** src/H5VL_log_dataset.cpp:121-172, :520-556; src/H5VL_logi_nb.cpp:719-828;
    src/H5VL_log_filei_meta.cpp:171-300; src/H5VL_log_filei.cpp:736-770. *)
Inductive effect :=
| XAnchor (k : Z) (d : dinfo)             (* create the anchor of the k-th dataset *)
| XDims (k : Z) (dims : list Z)           (* write its attribute with the sizes *)
| XMdims (k : Z) (mdims : list Z)         (* ... the maximal sizes *)
| XId (k : Z) (id : Z)                    (* ... the id *)
| XLog (n : Z)                            (* create log dataset n *)
| XData (off : Z) (bytes : list Z)        (* write bytes of the file *)
| XMd (n : Z) (size : Z)                  (* create metadata dataset n *)
| XMdPut (n : Z) (off : Z) (bytes : list Z)  (* write into metadata dataset n *)
| XAtt (a : att).                         (* write the attribute of the file *)

(** Changing the object with number [k] (helper of [apply], which models the library; no code of
    /repo). *)
Definition at_key {A} (k : Z) (f : A -> A) (l : list (Z * A)) : list (Z * A) :=
  map (fun p => if fst p =? k then (fst p, f (snd p)) else p) l.
(** The object with number [k] (helper of [apply]; no code of /repo). *)
Fixpoint find_key {A} (k : Z) (l : list (Z * A)) : option A :=
  match l with [] => None | p :: t => if fst p =? k then Some (snd p) else find_key k t end.

(** One change.  Creating an object whose name exists fails: H5VLdataset_create returns NULL and
    CHECK_PTR reports it (src/H5VL_logi_nb.cpp:742-747, src/H5VL_log_filei_meta.cpp:189-193).  The
    content of a new metadata dataset before it is written is taken to be zero. *)
Definition apply (dk : disk) (x : effect) : res disk :=
  match x with
  | XAnchor k d =>
      match find_key k (dk_sets dk) with
      | Some _ => Err
      | None => Ok (mkdk (dk_file dk) (dk_sets dk ++ [(k, mkan d None None None)]) (dk_logs dk) (dk_mds dk) (dk_att dk))
      end
  | XDims k v => Ok (mkdk (dk_file dk) (at_key k (fun a => mkan (an_new a) (Some v) (an_mdims a) (an_id a)) (dk_sets dk)) (dk_logs dk) (dk_mds dk) (dk_att dk))
  | XMdims k v => Ok (mkdk (dk_file dk) (at_key k (fun a => mkan (an_new a) (an_dims a) (Some v) (an_id a)) (dk_sets dk)) (dk_logs dk) (dk_mds dk) (dk_att dk))
  | XId k v => Ok (mkdk (dk_file dk) (at_key k (fun a => mkan (an_new a) (an_dims a) (an_mdims a) (Some v)) (dk_sets dk)) (dk_logs dk) (dk_mds dk) (dk_att dk))
  | XLog n =>
      if existsb (Z.eqb n) (dk_logs dk) then Err
      else Ok (mkdk (dk_file dk) (dk_sets dk) (dk_logs dk ++ [n]) (dk_mds dk) (dk_att dk))
  | XData off bytes => Ok (mkdk (put (dk_file dk) off bytes) (dk_sets dk) (dk_logs dk) (dk_mds dk) (dk_att dk))
  | XMd n size =>
      match find_key n (dk_mds dk) with
      | Some _ => Err
      | None => Ok (mkdk (dk_file dk) (dk_sets dk) (dk_logs dk) (dk_mds dk ++ [(n, (size, fun _ => 0))]) (dk_att dk))
      end
  | XMdPut n off bytes =>
      Ok (mkdk (dk_file dk) (dk_sets dk) (dk_logs dk) (at_key n (fun m => (fst m, put (snd m) off bytes)) (dk_mds dk)) (dk_att dk))
  | XAtt a => Ok (mkdk (dk_file dk) (dk_sets dk) (dk_logs dk) (dk_mds dk) a)
  end.

(** Changes one after the other (driver of the model; no code of /repo). *)
Fixpoint apply_all (dk : disk) (xs : list effect) : res disk :=
  match xs with [] => Ok dk | x :: rest => do dk' <- apply dk x; apply_all dk' rest end.

(** H5VL_log_nb_flush_write_reqs: the log dataset is created (src/H5VL_logi_nb.cpp:738-747), then every
    process writes its data (:784-797); [doff] as in FlushModel.v. *)
Definition flush_effects (doff : Z) (g : gfile) : list effect :=
  let sizes := map (fun st => local_size (unflushed st)) (g_ranks g) in
  if Zsum sizes =? 0 then []
  else XLog (g_nldset g) ::
       map (fun p => XData (fst p) (local_bytes (snd p)))
           (combine (map (fun o => o + doff) (exscan 0 sizes)) (g_ranks g)).

(** H5VL_log_filei_metaflush: the metadata dataset is created (src/H5VL_log_filei_meta.cpp:186-194),
    then every process writes its part (:232-243). *)
Definition meta_effects (g : gfile) : list effect :=
  let ranks := g_ranks g in
  let total := Zsum (meta_sizes ranks) in
  let n := Zlen (g_mdsets g) in
  if 8 * (Zlen ranks + 1) <? total
  then XMd n total :: map (fun p => XMdPut n (fst p) (snd p)) (combine (exscan 0 (meta_sizes ranks)) (md_pieces ranks))
  else [].

(** The changes made by one API call, in order.  H5Fflush ends in H5VL_log_filei_flush
    (src/H5VL_log_file.cpp:444-456, src/H5VL_log_filei.cpp:669-688): it writes no metadata and not the
    attribute, and does not flush the underlying file.  The attribute is written by H5Fclose only
    (src/H5VL_log_filei.cpp:749-767), after data and metadata. *)
Definition effects (e : env) (s : sys) (o : op) : list effect :=
  let g := s_g s in
  let k := Zlen (g_infos g) in
  match o with
  | OCreate d => [XAnchor k d; XDims k (di_dims d); XMdims k (di_mdims d); XId k k]
  | OSetExtent did dims =>
      match info_at (g_infos g) did with
      | Some (Some d) => [XDims did (di_dims (fst (set_extent (g_cfg g) d dims)))]
      | _ => []
      end
  | OWrite _ _ _ _ => []
  | OFlush doff => if any_pending g then flush_effects doff g else []
  | ORead doff _ =>
      let c := e_coll e && any_pending g in
      let g1 := if c then flush_writes doff g else g in
      (if c then flush_effects doff g else []) ++ (if g_metadirty g1 then meta_effects g1 else [])
  | OReopen doff _ =>
      let g1 := flush_writes doff g in
      let g2 := metaflush g1 in
      flush_effects doff g ++ meta_effects g1 ++
      [XAtt (mkatt (Zlen (g_infos g2)) (g_nldset g2) (Zlen (g_mdsets g2)) (g_cfg g2))]
  end.

(** The program and the disk together.
    The program is [step] of SysModel.v, the disk [effects] (no further code of /repo:0). *)
Definition cstep (e : env) (c : sys * disk) (o : op) : res ((sys * disk) * list (list Z)) :=
  do dk <- apply_all (snd c) (effects e (fst c) o);
  do p <- step e (fst c) o;
  Ok ((fst p, dk), snd p).
(** A history of calls (driver of the model; no code of /repo). *)
Fixpoint crun (e : env) (c : sys * disk) (ops : list op) : res ((sys * disk) * list (list (list Z))) :=
  match ops with
  | [] => Ok (c, [])
  | o :: rest =>
      do p <- cstep e c o;
      do q <- crun e (fst p) rest;
      Ok (fst q, snd p :: snd q)
  end.

(** A new file (src/H5VL_log_filei.cpp:201-291): the attribute is written at once. *)
Definition disk0 (cfg : Z) (f0 : bytemap) : disk := mkdk f0 [] [] [] (mkatt 0 0 0 cfg).

(** ** Opening what is on the disk *)

(** H5VL_log_dataseti_open (src/H5VL_log_dataseti.cpp:689-761) of one anchor: a missing attribute is
    an error (H5VL_logi_get_att, src/H5VL_logi_util.cpp:101-102); dsets_info[id] is read without a
    check of the bound (:715), and a dataset already known is skipped. *)
Definition open_anchor (cfg : Z) (infos : list (option dinfo)) (a : anchor) : res (list (option dinfo)) :=
  match an_id a with
  | None => Err
  | Some id =>
      match info_at infos id with
      | None => UB
      | Some (Some _) => Ok infos
      | Some None =>
          match an_dims a, an_mdims a with
          | Some dims, Some mdims =>
              do d <- create_info cfg (mkdinfo (di_esize (an_new a)) dims mdims (di_dsteps (an_new a)) (di_fill (an_new a)));
              Ok (upd_nth (Z.to_nat id) (Some d) infos)
          | _, _ => Err
          end
      end
  end.
(** The visit of every dataset at H5Fopen (src/H5VL_log_filei.cpp:186-195, :293-319). *)
Fixpoint open_anchors (cfg : Z) (infos : list (option dinfo)) (l : list (Z * anchor)) : res (list (option dinfo)) :=
  match l with
  | [] => Ok infos
  | p :: rest => do i <- open_anchor cfg infos (snd p); open_anchors cfg i rest
  end.

(** Metadata datasets 0 .. n-1 (src/H5VL_log_filei_meta.cpp:356-365).  Simplification: a missing one
    is reported when the file is opened instead of at the first read. *)
Fixpoint open_mds (mds : list (Z * (Z * bytemap))) (ns : list Z) : res (list (list Z)) :=
  match ns with
  | [] => Ok []
  | n :: rest =>
      match find_key n mds with
      | None => Err
      | Some m => do r <- open_mds mds rest; Ok (get (snd m) 0 (Z.to_nat (fst m)) :: r)
      end
  end.

(** H5VL_log_filei_post_open (src/H5VL_log_filei.cpp:109-199) by [np] processes: dsets_info has the size
    found in the attribute (:130-135), then every dataset is visited and opened (:189-195).  Simplification: as
    in SysModel.v the visit finds every dataset, in creation order. *)
Definition recover (np : nat) (dk : disk) : res sys :=
  let a := dk_att dk in
  do infos <- open_anchors (at_cfg a) (repeat None (Z.to_nat (at_ndset a))) (dk_sets dk);
  do mds <- open_mds (dk_mds dk) (zseq (at_nmdset a));
  Ok (mksys (mkg (at_cfg a) infos (repeat rank0 np) (dk_file dk) mds (at_nldset a) false) None).
