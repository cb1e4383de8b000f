(** Model of object names and dataset identifiers: H5VL_logi_name_remap
    (src/H5VL_logi_util.hpp:109-129), H5VL_log_filei_dset_visit (src/H5VL_log_filei.cpp:293-319),
    the filters of the iteration callbacks (src/H5VL_log_linki.cpp:14-32,
    src/H5VL_log_atti.cpp:14-32, src/H5VL_log_obji.cpp:19-37), creation and opening of datasets
    (src/H5VL_log_dataset.cpp:54-221, :233-273; src/H5VL_log_dataseti.cpp:689-761) and the counters
    kept in the file (src/H5VL_log_filei.cpp:109-199, :710-760).

    Names are byte strings.  The library underneath is a set of links: each has the path of an
    object below the root group.  Groups themselves, and whether the groups on a path exist, are
    not modelled. *)
From Verif Require Import Base.
From Coq Require Export Ascii String.

(** The character tested by H5VL_logi_name_remap (src/H5VL_logi_util.hpp:109-129). *)
Definition US : ascii := "_"%char.
(** src/H5VL_logi_util.hpp:109-129. *)
Definition SLASH : ascii := "/"%char.
(** src/H5VL_logi_util.hpp:109-129. *)
Definition DOT : ascii := "."%char.

(** util.hpp:109-129.  A null name is not modelled. *)
Definition name_remap (n : string) : res string :=
  match n with
  | EmptyString => Err
  | String c _ => if Ascii.eqb c US then Ok (String US n) else Ok n
  end.

(** The name passed to H5Dopen2 by the scan (filei.cpp:293-319); None when the object is skipped.
    Reading name[1] after a one-character name gives the terminator. *)
Definition dset_visit (n : string) : option string :=
  match n with
  | EmptyString => Some n
  | String c r =>
      if Ascii.eqb c US
      then match r with
           | String d _ => if Ascii.eqb d US then Some r else None
           | EmptyString => None
           end
      else if Ascii.eqb c SLASH || Ascii.eqb c DOT then None else Some n
  end.

(** The name shown to the callback of a user's iteration; None when it is not called
    (linki.cpp:14-32 and its copies). *)
Definition iterate_name (n : string) : option string :=
  match n with
  | EmptyString => Some n
  | String c r =>
      if Ascii.eqb c US
      then match r with
           | String d _ => if Ascii.eqb d US then Some r else None
           | EmptyString => None
           end
      else Some n
  end.

(** Path below the root group meant by a name used at the group of path [loc] (empty for the root
    group).  Names starting with a slash start at the root group.  Repeated slashes inside a name
    and components "." are left as they are.
    Library underneath, called with the names made at src/H5VL_logi_util.hpp:109-129. *)
Fixpoint strip_slashes (n : string) : string :=
  match n with
  | String c r => if Ascii.eqb c SLASH then strip_slashes r else n
  | EmptyString => n
  end.
(** See [strip_slashes] (library underneath, src/H5VL_logi_util.hpp:109-129). *)
Definition link_path (loc n : string) : string :=
  match n with
  | String c _ =>
      if Ascii.eqb c SLASH then strip_slashes n
      else match loc with EmptyString => n | _ => (loc ++ String SLASH n)%string end
  | EmptyString => loc
  end.
(** The path under which an object is kept (src/H5VL_logi_util.hpp:109-129,
    src/H5VL_log_dataset.cpp:54-221). *)
Definition stored (loc n : string) : res string := do i <- name_remap n; Ok (link_path loc i).

(** Path of a group reached from the root group by opening or creating groups one by one
    (src/H5VL_log_group.cpp:55-100, :125-170). *)
Definition group_path (g : list string) : string :=
  fold_left (fun loc n => match stored loc n with Ok p => p | _ => loc end) g EmptyString.

(** A file: links of user datasets with the identifier attribute of each, the number of datasets in
    memory, and for each identifier whether its description is loaded.
    src/H5VL_log_file.hpp:39-133, src/H5VL_log_dataset.cpp:54-221. *)
Record fs := mkfs { f_links : list (string * Z); f_ndset : Z; f_loaded : list bool }.
(** A new file (src/H5VL_log_filei.cpp:201-291). *)
Definition fs0 : fs := mkfs [] 0 [].

(** Library underneath (used for src/H5VL_log_dataset.cpp:54-273). *)
Fixpoint find_link (p : string) (l : list (string * Z)) : option Z :=
  match l with
  | [] => None
  | (q, i) :: t => if String.eqb p q then Some i else find_link p t
  end.
(** H5Ldelete of the library underneath (src/H5VL_log_link.cpp:378-407). *)
Definition remove_link (p : string) (l : list (string * Z)) : list (string * Z) :=
  filter (fun q => negb (String.eqb p (fst q))) l.

(** H5VL_log_dataset_create: the identifier is the number of datasets, which grows only when the
    dataset could be created (dataset.cpp:117,:121-126,:177-182). *)
Definition fs_create (loc n : string) (f : fs) : res (fs * Z) :=
  do p <- stored loc n;
  match find_link p (f_links f) with
  | Some _ => Err
  | None => Ok (mkfs (f_links f ++ [(p, f_ndset f)]) (f_ndset f + 1) (f_loaded f ++ [true]), f_ndset f)
  end.
(** H5VL_log_dataset_open: reads the identifier attribute and loads the description.  An
    identifier outside the table would be an access outside of dsets_info.
    src/H5VL_log_dataset.cpp:233-273, src/H5VL_log_dataseti.cpp:689-761. *)
Definition fs_open (loc n : string) (f : fs) : res (fs * Z) :=
  do p <- stored loc n;
  match find_link p (f_links f) with
  | None => Err
  | Some i =>
      if (0 <=? i) && (i <? Zlen (f_loaded f))
      then Ok (mkfs (f_links f) (f_ndset f) (upd_nth (Z.to_nat i) true (f_loaded f)), i)
      else UB
  end.
(** H5VL_log_link_specific with H5VL_LINK_DELETE (src/H5VL_log_link.cpp:360-410): the remapped name is
    deleted underneath; identifiers are not reused. *)
Definition fs_delete (loc n : string) (f : fs) : res fs :=
  do p <- stored loc n;
  match find_link p (f_links f) with
  | None => Err
  | Some _ => Ok (mkfs (remove_link p (f_links f)) (f_ndset f) (f_loaded f))
  end.
(** The objects visited at opening: the user's datasets and the connector's own.  Groups are
    visited too but only datasets are opened.  src/H5VL_log_filei.cpp:186-195, :255-263. *)
Definition INTERNAL : list string := ["_LOG/_ld_0"; "_LOG/_md_0"]%string.
(** H5Ovisit with H5VL_log_filei_dset_visit (src/H5VL_log_filei.cpp:186-195, :293-319). *)
Fixpoint fs_visit (ps : list string) (f : fs) : res fs :=
  match ps with
  | [] => Ok f
  | p :: t =>
      match dset_visit p with
      | None => fs_visit t f
      | Some n => do r <- fs_open "" n f; fs_visit t (fst r)
      end
  end.
(** Closing saves the number of datasets (filei.cpp:735-752); opening reads it back, has no
    description loaded, and scans (filei.cpp:132-148, :186-194). *)
Definition fs_reopen (f : fs) : res fs :=
  let f1 := mkfs (f_links f) (f_ndset f) (repeat false (Z.to_nat (f_ndset f))) in
  fs_visit (map fst (f_links f) ++ INTERNAL) f1.

(** The calls considered: src/H5VL_log_dataset.cpp:54-273, src/H5VL_log_link.cpp:378-407,
    src/H5VL_log_filei.cpp:109-199. *)
Inductive nop := NCreate (loc n : string) | NOpen (loc n : string) | NDelete (loc n : string) | NReopen.
(** A call that fails changes nothing; what it returned is None.
    The functions cited at [nop] (src/H5VL_log_dataset.cpp:54-273). *)
Definition nstep (f : fs) (o : nop) : res (fs * option Z) :=
  match o with
  | NCreate loc n => match fs_create loc n f with Ok (f', i) => Ok (f', Some i) | Err => Ok (f, None) | UB => UB end
  | NOpen loc n => match fs_open loc n f with Ok (f', i) => Ok (f', Some i) | Err => Ok (f, None) | UB => UB end
  | NDelete loc n => match fs_delete loc n f with Ok f' => Ok (f', None) | Err => Ok (f, None) | UB => UB end
  | NReopen => do f' <- fs_reopen f; Ok (f', None)
  end.
(** A history of calls (driver of the model over [nstep]; src/H5VL_log_dataset.cpp:54-273). *)
Fixpoint nrun (f : fs) (ops : list nop) : res (fs * list (option Z)) :=
  match ops with
  | [] => Ok (f, [])
  | o :: t => do r <- nstep f o; do s <- nrun (fst r) t; Ok (fst s, snd r :: snd s)
  end.
