(** Life time of a file object: its reference count, the handles given to the program, and the table
    of open files. *)
From Verif Require Import Base.

(** H5I_type_t as far as it matters (src/H5VL_log_obj.hpp:16-30). *)
Inductive hkind := KFile | KDset | KOther.

(** The file object (src/H5VL_log_file.hpp:56-140) and what the HDF5 library keeps for the program.
    [fo_ref]: fp->refcnt (int).  [fo_log]: fp->is_log_based_file.  [fo_objs]: connector objects held
    by the library, with their kind; several library objects of kind [KFile] may share fp.
    [fo_ids]: identifiers held by the program, each naming a library object.
    [fo_closes]: how often H5VL_log_filei_close ran; it ends with delete fp, after which any use of
    fp is undefined. *)
Record fobj := mkfobj {
  fo_ref : Z; fo_log : bool; fo_objs : list (nat * hkind); fo_ids : list (nat * nat);
  fo_next : nat; fo_closes : nat }.

(** File creation or open: refcnt = 1 (src/H5VL_log_filei.cpp:1086-1087), one identifier. *)
Definition fobj_new (log : bool) : fobj := mkfobj 1 log [(0%nat, KFile)] [(0, 0)%nat] 1 0.

(** H5VL_log_filei_inc_ref (src/H5VL_log_filei.cpp:1079). *)
Definition inc_ref (f : fobj) : res fobj :=
  if negb (fo_closes f =? 0)%nat then UB
  else if 2 ^ 31 - 1 <=? fo_ref f then UB
  else Ok (mkfobj (fo_ref f + 1) (fo_log f) (fo_objs f) (fo_ids f) (fo_next f) (fo_closes f)).

(** H5VL_log_filei_dec_ref and H5VL_log_filei_close (src/H5VL_log_filei.cpp:1081-1084, 710-850). *)
Definition dec_ref (f : fobj) : res fobj :=
  if negb (fo_closes f =? 0)%nat then UB
  else
    let r := fo_ref f - 1 in
    Ok (mkfobj r (fo_log f) (fo_objs f) (fo_ids f) (fo_next f)
               (if r =? 0 then S (fo_closes f) else fo_closes f)).

(** A new object of the connector with its identifier (src/H5VL_log_obji.cpp:65-83). *)
Definition add_obj (f : fobj) (k : hkind) : fobj :=
  mkfobj (fo_ref f) (fo_log f) (fo_objs f ++ [(fo_next f, k)])
         (fo_ids f ++ [(fo_next f, fo_next f)]) (S (fo_next f)) (fo_closes f).
(** Another identifier of an object (HDF5, no code of /repo). *)
Definition add_id (f : fobj) (o : nat) : fobj :=
  mkfobj (fo_ref f) (fo_log f) (fo_objs f) (fo_ids f ++ [(fo_next f, o)]) (S (fo_next f))
         (fo_closes f).
(** Giving up an identifier (HDF5, no code of /repo). *)
Definition del_id (f : fobj) (h : nat) : fobj :=
  mkfobj (fo_ref f) (fo_log f) (fo_objs f)
         (filter (fun p => negb (fst p =? h)%nat) (fo_ids f)) (fo_next f) (fo_closes f).
(** delete (src/H5VL_log_obji.cpp:85-95). *)
Definition del_obj (f : fobj) (o : nat) : fobj :=
  mkfobj (fo_ref f) (fo_log f)
         (filter (fun p => negb (fst p =? o)%nat) (fo_objs f)) (fo_ids f) (fo_next f) (fo_closes f).
(** The object of an identifier (HDF5, no code of /repo). *)
Definition obj_of (f : fobj) (h : nat) : option nat :=
  option_map snd (find (fun p => (fst p =? h)%nat) (fo_ids f)).
(** The type of an object (src/H5VL_log_obj.hpp:16-30). *)
Definition kind_of (f : fobj) (o : nat) : option hkind :=
  option_map snd (find (fun p => (fst p =? o)%nat) (fo_objs f)).
(** type == H5I_FILE (src/H5VL_log_wrap.cpp:106-176). *)
Definition is_file (k : hkind) : bool := match k with KFile => true | _ => false end.

(** The calls, by the functions cited above (src/H5VL_log_group.cpp:69-100 and the others). *)
Inductive rop :=
| ROpen (h : nat) (k : hkind) (okk : bool)  (* create or open an object through [h]; [okk]: the
                                               underlying connector succeeds *)
| RReopen (h : nat)                         (* H5Freopen *)
| RClose (h : nat) (okk : bool)             (* H5Dclose, H5Gclose, H5Fclose, ... *)
| RGetFile (h : nat)                        (* H5Iget_file_id *)
| RVisit (h : nat) (k : hkind).             (* the library wraps an object for a callback and
                                               unwraps it again *)

(** Opening an object.  Groups, attributes, datatypes: the object is constructed, which takes a
    reference (src/H5VL_log_obji.cpp:65-83), and deleted when the underlying call fails
    (src/H5VL_log_group.cpp:69-100, src/H5VL_log_att.cpp:69-99, src/H5VL_log_datatype.cpp:61-89,
    src/H5VL_log_dataset.cpp:101-221).  H5Dopen of a file that is not log based constructs the object
    first and has no clean-up (src/H5VL_log_dataset.cpp:249-254, 268-272); of a log based file it is
    constructed after the underlying call (src/H5VL_log_dataset.cpp:257-263,
    src/H5VL_log_dataseti.cpp:707).  [KDset] stands for H5Dopen, the other creations are [KOther]. *)
Definition open_obj (f : fobj) (k : hkind) (okk : bool) : res fobj :=
  if okk then do g <- inc_ref f; Ok (add_obj g k)
  else match k with
       | KDset => if fo_log f then Ok f else inc_ref f
       | _ => do g <- inc_ref f; dec_ref g
       end.

(** Closing an identifier: the library calls the connector when no other identifier names the
    object.  Objects: src/H5VL_log_dataset.cpp:666-706 and the other close functions; [delete dp]
    runs the destructor (src/H5VL_log_obji.cpp:85-95).  Files: src/H5VL_log_file.cpp:529-540. *)
Definition close_id (f : fobj) (h : nat) (okk : bool) : res fobj :=
  match obj_of f h with
  | None => Ok f
  | Some o =>
      if existsb (fun p => (snd p =? o)%nat && negb (fst p =? h)%nat) (fo_ids f)
      then Ok (del_id f h)
      else match kind_of f o with
           | None => UB
           | Some KFile => do g <- dec_ref f; Ok (del_obj (del_id g h) o)
           | Some _ =>
               if okk then do g <- dec_ref f; Ok (del_obj (del_id g h) o)
               else if negb (fo_closes f =? 0)%nat then UB else Ok f
           end
  end.

(** H5Iget_file_id: when the program holds no identifier of the file the library asks the connector
    to wrap the underlying file; H5VL_log_filei_wrap returns fp without taking a reference
    (src/H5VL_log_wrap.cpp:124-127, src/H5VL_log_filei.cpp:1029-1077). *)
Definition get_file (f : fobj) : res fobj :=
  match find (fun p => is_file (snd p)) (fo_objs f) with
  | Some (o, _) => Ok (add_id f o)
  | None => if negb (fo_closes f =? 0)%nat then UB else Ok (add_obj f KFile)
  end.

(** H5VL_log_wrap_object / H5VL_log_unwrap_object (src/H5VL_log_wrap.cpp:106-176). *)
Definition visit (f : fobj) (k : hkind) : res fobj :=
  match k with
  | KFile => if negb (fo_closes f =? 0)%nat then UB else Ok f
  | _ => do g <- inc_ref f; dec_ref g
  end.

(** A call with an identifier that is not open is rejected by the library.
    One call (src/H5VL_log_group.cpp:69-100 and the others cited above). *)
Definition rstep (f : fobj) (o : rop) : res fobj :=
  let h := match o with ROpen h _ _ => h | RReopen h => h | RClose h _ => h | RGetFile h => h
                      | RVisit h _ => h end in
  match obj_of f h with
  | None => Ok f
  | Some _ =>
      match o with
      | ROpen _ k okk => match k with KFile => Ok f | _ => open_obj f k okk end
      | RReopen _ => do g <- inc_ref f; Ok (add_obj g KFile)    (* src/H5VL_log_file.cpp:409-412 *)
      | RClose h okk => close_id f h okk
      | RGetFile _ => get_file f
      | RVisit _ k => visit f k
      end
  end.

(** A history of calls (driver of the model over [rstep]; src/H5VL_log_filei.cpp:1079-1084). *)
Fixpoint rrun (f : fobj) (os : list rop) : res fobj :=
  match os with [] => Ok f | o :: rest => do g <- rstep f o; rrun g rest end.

(** * The table of open files *)

(** [stat] as the connector uses it: device and inode of a path, when it succeeds (external).
    Called at src/H5VL_log_filei.cpp:49-82. *)
Definition fsview := Z -> option (Z * Z).

(** The map [files] from inode to file object (src/H5VL_log_filei.cpp:40-82); per open file, its
    identity on disk and its key (fp->ino when fp->has_ino). *)
Record otable := mkotable { ot_map : list (Z * nat); ot_open : list (nat * (option (Z * Z))); ot_next : nat }.
(** No file is open (src/H5VL_log_filei.cpp:40-48). *)
Definition otable0 : otable := mkotable [] [] 0.

(** H5VL_log_filei_search (src/H5VL_log_filei.cpp:49-62). *)
Definition ot_search (fs : fsview) (t : otable) (path : Z) : option nat :=
  match fs path with
  | None => None
  | Some (_, ino) => option_map snd (find (fun p => fst p =? ino) (ot_map t))
  end.

(** H5Fopen / H5Fcreate (src/H5VL_log_file.cpp:73-79, 222-227, 304): refused when the search finds
    a file; afterwards registered under its inode (src/H5VL_log_filei.cpp:63-79); [files[ino] = fp]
    replaces an entry. *)
Definition ot_openf (fs : fsview) (t : otable) (path : Z) : res (nat * otable) :=
  match ot_search fs t path with
  | Some _ => Err
  | None =>
      let id := ot_next t in
      match fs path with
      | Some (dev, ino) =>
          Ok (id, mkotable ((ino, id) :: filter (fun p => negb (fst p =? ino)) (ot_map t))
                           (ot_open t ++ [(id, Some (dev, ino))]) (S id))
      | None => Ok (id, mkotable (ot_map t) (ot_open t ++ [(id, None)]) (S id))
      end
  end.

(** H5VL_log_filei_rm at close (src/H5VL_log_filei.cpp:80-82, 724, 832). *)
Definition ot_close (t : otable) (id : nat) : otable :=
  match find (fun p => (fst p =? id)%nat) (ot_open t) with
  | None => t
  | Some (_, who) =>
      let map' := match who with
                  | Some (_, ino) => filter (fun p => negb (fst p =? ino)) (ot_map t)
                  | None => ot_map t
                  end in
      mkotable map' (filter (fun p => negb (fst p =? id)%nat) (ot_open t)) (ot_next t)
  end.

(** H5Fopen or H5Fcreate, and H5Fclose (src/H5VL_log_file.cpp:45-304, :528-539). *)
Inductive oop := FOpen (path : Z) | FClose (id : nat).
(** One call; a refused one changes nothing (src/H5VL_log_file.cpp:73-79, :222-227). *)
Definition ostep (fs : fsview) (t : otable) (o : oop) : otable :=
  match o with
  | FOpen p => match ot_openf fs t p with Ok r => snd r | _ => t end
  | FClose id => ot_close t id
  end.
(** A history of calls (driver of the model over [ostep]; src/H5VL_log_file.cpp:45-304). *)
Definition orun (fs : fsview) (t : otable) (os : list oop) : otable := fold_left (ostep fs) os t.
