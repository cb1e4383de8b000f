(** Model of the connector's callbacks for groups, links, objects and attributes in files written
    through the log: src/H5VL_log_group.cpp, src/H5VL_log_link.cpp, src/H5VL_log_obj.cpp,
    src/H5VL_log_att.cpp, and the part of dataset creation and opening that concerns the connector's
    own attributes.  Each call is turned into calls of the library underneath (LibModel.v).

    Not modelled: the values of the connector's own attributes, datatypes, property lists, the
    creation order reported by H5Aget_info, asynchronous requests. *)
From Verif Require Import Base NameModel LibModel.
From Coq Require Import Ascii String.

(** Attributes of the file and of every dataset made by the connector: _int_att
    (src/H5VL_log_filei.cpp:279-287, H5VL_log_filei.hpp:24) and _dims, _mdims, _ID in this order
    (src/H5VL_log_dataset.cpp:162-172, src/H5VL_log_dataseti.hpp:16-18). *)
Definition FILE_ATTRS : list string := ["_int_att"]%string.
(** src/H5VL_log_dataset.cpp:162-172, src/H5VL_log_dataseti.hpp:16-18. *)
Definition DSET_ATTRS : list string := ["_dims"; "_mdims"; "_ID"]%string.
(** The group of the log datasets (src/H5VL_log_filei.cpp:255-263, H5VL_log_filei.hpp:23).  Its members
    are not modelled.  With subfiling it is in the subfile instead; not modelled. *)
Definition LOG_GROUP : string := "_LOG"%string.

(** A new file: the group and the file attribute (filei.cpp:200-292). *)
Definition vol0 : lib :=
  mklib [mkobj KGroup (map (fun n => (n, [])) FILE_ATTRS) [(LOG_GROUP, Hard 1)]; mkobj KGroup [] []]
        [mkh TFile 0].

(** Number of own attributes to skip: decided by the type of the identifier the call is made on
    (att.cpp:134-138, :302-306, :310-314; obj.cpp:213-217). *)
Definition skip (t : htype) : nat :=
  match t with TFile => 1 | TObj KDset => 3 | TObj _ => 0 end%nat.
(** The identifier a call is made on (src/H5VL_log_att.cpp:134-138). *)
Definition loc_hnd (l : loc) : nat := match l with Self h => h | Named h _ => h end.
(** src/H5VL_log_att.cpp:134-138, :302-306. *)
Definition skip_of (st : lib) (l : loc) : nat :=
  match nth_error (l_hnds st) (loc_hnd l) with Some hd => skip (h_type hd) | None => 0%nat end.

(** Names inside locations are remapped as well (src/H5VL_log_att.cpp:127-156,
    src/H5VL_log_obj.cpp:59-79). *)
Definition remap_loc (l : loc) : res loc :=
  match l with Self h => Ok (Self h) | Named h n => do m <- name_remap n; Ok (Named h m) end.
(** A call whose name cannot be remapped fails.
    ERR_OUT of H5VL_logi_name_remap (src/H5VL_logi_util.hpp:109-129). *)
Definition on {A} (st : lib) (r : res A) (f : A -> res (lib * result)) : res (lib * result) :=
  match r with Ok a => f a | Err => Ok (st, RFail) | UB => UB end.
(** The call of the library (e.g. src/H5VL_log_group.cpp:59-80). *)
Definition under (st : lib) (c : call) : res (lib * result) := Ok (lib_step st c).

(** H5VL_log_dataseti_open (dataseti.cpp:706-733): opening a dataset fails without its attributes.
    Those other than _ID are read only the first time the dataset is opened after the file was
    ([first]). *)
Definition has_attrs (ns : list string) (o : obj) : bool :=
  forallb (fun n => match assoc n (ob_attrs o) with Some _ => true | None => false end) ns.
(** src/H5VL_log_dataseti.cpp:706-733. *)
Definition can_open (first : bool) (o : obj) : bool :=
  match ob_kind o with
  | KDset => has_attrs (if first then DSET_ATTRS else ["_ID"%string]) o
  | _ => true
  end.
(** H5VL_log_group_open, H5VL_log_dataset_open, H5VL_log_object_open: the library opens the object, a
    dataset is then looked at (obj.cpp:69-78, dataset.cpp:233-273).  Every dataset of the file has
    been opened before: when it was created or when the file was opened. *)
Definition open_under (st : lib) (c : call) : res (lib * result) :=
  let r := lib_step st c in
  match snd r, List.last (l_hnds (fst r)) (mkh TFile 0) with
  | ROk, hd =>
      match nth_error (l_objs (fst r)) (h_obj hd) with
      | Some o => if can_open false o then Ok r else Ok (st, RFail)
      | None => Ok (st, RFail)
      end
  | _, _ => Ok (st, RFail)
  end.

(** H5VL_log_dataset_create (dataset.cpp:121-178): the dataset, then its three attributes. *)
Definition dset_create (st : lib) (h : nat) (m : string) : res (lib * result) :=
  let r := lib_step st (CDset h m) in
  match snd r with
  | ROk =>
      let d := List.length (l_hnds st) in
      Ok (fold_left (fun s n => fst (lib_step s (AMake (Self d) n []))) DSET_ATTRS (fst r), ROk)
  | _ => Ok (st, RFail)
  end.

(** Opening a file opens every dataset the scan shows (filei.cpp:186-195, :294-319): those reachable
    from the root group through a first link that is not skipped.  Simplified: an object reachable
    through several paths is looked at if one of them is not skipped. *)
Definition hard_ids (ls : list (string * target)) : list nat :=
  flat_map (fun p => match snd p with Hard i => [i] | Soft _ => [] end) ls.
(** Helper of [reach]: H5Ovisit of the library (called at src/H5VL_log_filei.cpp:186-195). *)
Definition next_ids (os : list obj) (is : list nat) : list nat :=
  flat_map (fun i => match nth_error os i with Some o => hard_ids (ob_links o) | None => [] end) is.
(** H5Ovisit of the library (called at src/H5VL_log_filei.cpp:186-195). *)
Fixpoint reach (fuel : nat) (os : list obj) (is : list nat) : list nat :=
  match fuel with O => is | S f => is ++ reach f os (nodup Nat.eq_dec (next_ids os is)) end.
(** The objects the visit opens (src/H5VL_log_filei.cpp:186-195, :294-319). *)
Definition scanned (os : list obj) : list nat :=
  match os with
  | [] => []
  | r :: _ =>
      reach (List.length os) os (nodup Nat.eq_dec (hard_ids
        (filter (fun p => match dset_visit (fst p) with Some _ => true | None => false end) (ob_links r))))
  end.
(** Closing writes the file attribute (filei.cpp:746-765), opening opens the group (filei.cpp:170-177);
    both fail when it is missing. *)
Definition root_ok (os : list obj) : bool :=
  match os with
  | [] => false
  | r :: _ => has_attrs FILE_ATTRS r && match resolve 16 (ob_links r) LOG_GROUP with Some _ => true | None => false end
  end.
(** H5Fclose and H5Fopen (src/H5VL_log_filei.cpp:109-199, :746-765). *)
Definition reopen (st : lib) : res (lib * result) :=
  if root_ok (l_objs st) &&
     forallb (fun i => match nth_error (l_objs st) i with Some o => can_open true o | None => true end)
             (scanned (l_objs st))
  then under st CReopen
  else Ok (mklib (l_objs st) [], RFail).

(** Results of an iteration pass through the filter of the iteration callbacks (link.cpp:395-402,
    att.cpp:430-436, linki.cpp:14-32, atti.cpp:14-32). *)
Fixpoint shown (l : list string) : list string :=
  match l with
  | [] => []
  | n :: t => match iterate_name n with Some m => m :: shown t | None => shown t end
  end.
(** src/H5VL_log_link.cpp:395-402, src/H5VL_log_att.cpp:430-436. *)
Definition show (r : lib * result) : lib * result :=
  match snd r with RNames l => (fst r, RNames (shown l)) | _ => r end.

(** H5VL_log_attr_get with a location by index (att.cpp:300-353): the index is moved past the own
    attributes; in decreasing order the library is asked again with the index given, after the first
    call has checked that the index is in range. *)
Definition get_idx (st : lib) (l : loc) (io : iorder) (k : nat) (c : nat -> call) : res (lib * result) :=
  let r := lib_step st (c (k + skip_of st l)%nat) in
  match snd r, io with
  | RFail, _ => Ok (st, RFail)
  | _, Inc => Ok r
  | _, Dec => under st (c k)
  end.

(** num_attrs is an hsize_t (obj.cpp:211-218). *)
Definition wrap64 (z : Z) : Z := z mod 2 ^ 64.

Section Vol.
  (** How the library describes the object of H5Adelete_by_idx: by a name, with the index apart (true),
      or by an index (false). *)
  Context (dbi : bool).

  Definition vol_step (st : lib) (c : call) : res (lib * result) :=
    match c with
    (* group.cpp:59-80 *)
    | CGroup h n => on st (name_remap n) (fun m => under st (CGroup h m))
    (* dataset.cpp:88-182 *)
    | CDset h n => on st (name_remap n) (fun m => dset_create st h m)
    (* group.cpp:128-150, dataset.cpp:233-273, obj.cpp:59-79 *)
    | COpen h n => on st (name_remap n) (fun m => open_under st (COpen h m))
    (* obj.cpp:59-79: only names are changed *)
    | COpenIdx h it io k => open_under st (COpenIdx h it io k)
    (* link.cpp:378-407 *)
    | CExists h n => on st (name_remap n) (fun m => under st (CExists h m))
    | CDelete h n => on st (name_remap n) (fun m => under st (CDelete h m))
    (* link.cpp:196-243: o_src->fp and o_dst->fp are read before the tests for NULL *)
    | CMove (Some h1) n1 (Some h2) n2 =>
        on st (name_remap n1) (fun m1 => on st (name_remap n2) (fun m2 => under st (CMove (Some h1) m1 (Some h2) m2)))
    | CMove _ _ _ _ => UB
    (* link.cpp:128-137 *)
    | CCopy h1 n1 h2 n2 => under st (CCopy h1 n1 h2 n2)
    (* link.cpp:60-80 *)
    | CHard h1 n1 h2 n2 => under st (CHard h1 n1 h2 n2)
    | CSoft t h n => under st (CSoft t h n)
    (* link.cpp:395-410, linki.cpp:14-32 *)
    | CList h it io => Ok (show (lib_step st (CList h it io)))
    (* group.cpp:183-213 *)
    | CNlinks h => under st (CNlinks h)
    (* link.cpp:306-309 *)
    | CNameIdx h it io k => Ok (st, RFail)
    (* att.cpp:62-83: the name of the object is passed on *)
    | AMake l n v => on st (name_remap n) (fun m => under st (AMake l m v))
    (* att.cpp:127-156, :196-273 *)
    | AGet l n => on st (name_remap n) (fun m => under st (AGet l m))
    | APut l n v => on st (name_remap n) (fun m => under st (APut l m v))
    (* att.cpp:414-456 *)
    | AHas l n => on st (remap_loc l) (fun l' => on st (name_remap n) (fun m => under st (AHas l' m)))
    | ADel l n => on st (remap_loc l) (fun l' => on st (name_remap n) (fun m => under st (ADel l' m)))
    (* att.cpp:414-456: H5VL_ATTR_RENAME is in the default case *)
    | ARen l old new => on st (remap_loc l) (fun l' => under st (ARen l' old new))
    (* att.cpp:300-320: by name, nothing is changed *)
    | AInfo l n => under st (AInfo l n)
    (* att.cpp:127-156; the name passed is null *)
    | AOpenIdx l it io k => under st (AOpenIdx l it io (k + skip_of st l)%nat)
    | ANameIdx l it io k => get_idx st l io k (ANameIdx l it io)
    | AInfoIdx l it io k => get_idx st l io k (AInfoIdx l it io)
    (* att.cpp:414-456 *)
    | ADelIdx l it io k =>
        if dbi then on st (remap_loc l) (fun l' => under st (ADelIdx l' it io k)) else Ok (st, RFail)
    (* att.cpp:414-464, atti.cpp:14-32 *)
    | AList l it io => on st (remap_loc l) (fun l' => Ok (show (lib_step st (AList l' it io))))
    (* obj.cpp:190-218 *)
    | ANum l => on st (remap_loc l) (fun l' =>
        let r := lib_step st (ANum l') in
        match snd r with
        | RNum n => Ok (fst r, RNum (wrap64 (n - Z.of_nat (skip_of st l))))
        | _ => Ok r
        end)
    (* filei.cpp:109-199 *)
    | CReopen => reopen st
    end.

  Fixpoint vol_run (st : lib) (cs : list call) : res (lib * list result) :=
    match cs with
    | [] => Ok (st, [])
    | c :: t => do r <- vol_step st c; do s <- vol_run (fst r) t; Ok (fst s, snd r :: snd s)
    end.
End Vol.
