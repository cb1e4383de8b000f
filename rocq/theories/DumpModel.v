(** The h5ldump utility: what it lists of the log of a file (utils/h5ldump). *)
From Coq Require Import Ascii String.
From Verif Require Import Base Spec MetaModel QueueModel FlushModel IndexModel SlotModel.

(** One listed block: data offset, start, count and, unless -H is given, the bytes handed to
    h5ldump_print_data.  utils/h5ldump/h5ldump_meta.cpp:273-290. *)
Record dblock := mkdb { db_doff : Z; db_start : list Z; db_count : list Z; db_bytes : option (list Z) }.

(** One listed entry: position in the section, the header that is printed field by field, the
    "Referenced entry offset" of a duplicate, the blocks.
    utils/h5ldump/h5ldump_meta.cpp:244-273. *)
Record dentry := mkde { de_pos : Z; de_hdr : hdr; de_ref : option Z; de_blocks : list dblock }.

(** The loop over the selections of an entry (utils/h5ldump/h5ldump_meta.cpp:273-290); [data]: the
    content of dbuf as far as it was read from the file.  Undefined: printing bytes of dbuf that
    were not read, or more coordinates than were decoded. *)
Fixpoint dump_blocks (ndim : nat) (esize : Z) (data : option (list Z)) (sels : list msel) : res (list dblock) :=
  match sels with
  | [] => Ok []
  | s :: rest =>
      if (length (ms_start s) <? ndim)%nat || (length (ms_count s) <? ndim)%nat then UB else
      do bytes <- match data with
                  | None => Ok None
                  | Some d => do x <- or_ub (rd d (ms_doff s) (Z.to_nat (esize * Zprod (firstn ndim (ms_count s))))); Ok (Some x)
                  end;
      do r <- dump_blocks ndim esize data rest;
      Ok (mkdb (ms_doff s) (firstn ndim (ms_start s)) (firstn ndim (ms_count s)) bytes :: r)
  end.

(** The size of dbuf (h5ldump_meta.cpp:201-211): elements of the last block plus its offset in bytes,
    times the element size; exact integers.  A block list is never empty after decoding. *)
Definition dump_bsize (ndim : nat) (esize : Z) (sels : list msel) : Z :=
  match sels with
  | [] => esize
  | _ => let l := last sels (mkmsel [] [] 0) in (Zprod (firstn ndim (ms_count l)) + ms_doff l) * esize
  end.

(** Reading the data of an entry (h5ldump_meta.cpp:199-235): abort when the recorded size exceeds the
    buffer.  Simplification: datasets without filters, as in SysModel.v; reads of the file succeed. *)
Definition dump_data (ndim : nat) (esize : Z) (file : option bytemap) (e : mentry) : res (option (list Z)) :=
  match file with
  | None => Ok None
  | Some f =>
      if dump_bsize ndim esize (me_sels e) <? h_fsize (me_hdr e) then Err
      else Ok (Some (get f (h_foff (me_hdr e)) (Z.to_nat (h_fsize (me_hdr e)))))
  end.

(** h5ldump_mdsec (h5ldump_meta.cpp:167-300).  [infos] is the table made by h5ldump_visit.  Whether an entry
    is a reference is decided by its flag alone. *)
Fixpoint dump_sec (fuel : nat) (z : zlib) (infos : list (option dinfo)) (file : option bytemap)
         (buf : list Z) (pos : Z) (bc : cache (list msel)) : res (list dentry) :=
  match fuel with
  | O => UB
  | S fuel' =>
      if Zlen buf <=? pos then Ok [] else
      do h <- or_ub (rd_hdr buf pos);
      do inf <- or_ub (info_at infos (h_did h));
      let dip := table_slot inf in
      let ref := has (h_flag h) FLAG_SEL_REF in
      do e <- (if ref then ref_decode dip buf pos bc else decode z dip buf pos);
      let bc' := if ref then bc else (pos, me_sels e) :: bc in
      do data <- dump_data (di_ndim dip) (di_esize dip) file e;
      do roff <- (if ref
                  then do r <- or_ub (rd_i64 buf (pos + Z.of_nat HDR + (if has (h_flag h) FLAG_REC then 8 else 0)));
                       Ok (Some (pos + r))
                  else Ok None);
      do bs <- dump_blocks (di_ndim dip) (di_esize dip) data (me_sels e);
      do rest <- dump_sec fuel' z infos file buf (pos + h_size h) bc';
      Ok (mkde pos h roff bs :: rest)
  end.

(** The sections between consecutive offsets (h5ldump_meta.cpp:80-95); a selection outside the dataset
    is an HDF5 error. *)
Fixpoint dump_secs (z : zlib) (infos : list (option dinfo)) (file : option bytemap) (md : list Z)
         (off : Z) (ends : list Z) : res (list (list dentry)) :=
  match ends with
  | [] => Ok []
  | e :: rest =>
      match rd md off (Z.to_nat (e - off)) with
      | None => Err
      | Some buf =>
          do a <- dump_sec (S (length buf)) z infos file buf 0 [];
          do b <- dump_secs z infos file md e rest;
          Ok (a :: b)
      end
  end.

(** h5ldump_mdset (h5ldump_meta.cpp:27-96): number of sections, then their ends; the first section
    starts behind the offsets.  The memory space of the first two reads is H5S_ALL, so that bytes go to
    the position in the buffer that they have in the file: nsec at 0, the ends at offs + 1. *)
Definition dump_mdset (z : zlib) (infos : list (option dinfo)) (file : option bytemap) (md : list Z)
  : res (list (list dentry)) :=
  do nsec <- or_ub (rd_i64 md 0);
  if nsec <? 0 then UB else
  match rd_words md 8 (Z.to_nat nsec) with
  | None => Err
  | Some ends => dump_secs z infos file md (8 + 8 * nsec) (map (to_signed 8) ends)
  end.

(** h5ldump_file (utils/h5ldump/h5ldump.cpp:178-280) of a file without subfiles: every metadata dataset in turn.
    [withdata] is the absence of -H. *)
Fixpoint dump_mdsets (z : zlib) (infos : list (option dinfo)) (file : option bytemap) (mds : list (list Z))
  : res (list (list (list dentry))) :=
  match mds with
  | [] => Ok []
  | md :: rest =>
      do a <- dump_mdset z infos file md;
      do b <- dump_mdsets z infos file rest;
      Ok (a :: b)
  end.
(** utils/h5ldump/h5ldump.cpp:190-280. *)
Definition dump_file (z : zlib) (withdata : bool) (g : gfile) : res (list (list (list dentry))) :=
  dump_mdsets z (g_infos g) (if withdata then Some (g_file g) else None) (g_mdsets g).

(** ** Printing of values *)

(** H5T_class_t as far as h5ldump_print_data distinguishes it.
    utils/h5ldump/h5ldump_meta.cpp:113-165. *)
Inductive tclass := TInt (signed : bool) | TFloat | TString | TOther.

(** h5ldump_print_data (h5ldump_meta.cpp:113-165): the values printed for [nelem] elements of [esize]
    bytes, as (number of values, bytes per value), read one behind the other from the buffer. *)
Definition print_plan (c : tclass) (nelem esize : Z) : Z * Z :=
  match c with
  | TInt _ =>
      if (esize =? 1) || (esize =? 2) || (esize =? 4) || (esize =? 8) then (nelem, esize)
      else (nelem * esize, 1)
  | TFloat => (nelem, if 4 <? esize then 8 else 4)
  | TString => (nelem, 1)
  | TOther => (nelem * esize, 1)
  end.

(** ** The kind of a file *)

(** What is known of an HDF5 file before it is dumped: does the connector's attribute exist, does the
    NetCDF-4 attribute exist.  utils/h5ldump/h5ldump.cpp:61-70. *)
Record hdf5attrs := mkha { has_log_attr : bool; has_nc_attr : bool }.

(** The first bytes of an HDF5 file (utils/h5ldump/h5ldump.cpp:34-72). *)
Definition hdf5_sig : list Z := [137; 72; 68; 70; 13; 10; 26; 10].
(** The first bytes of a NetCDF file, "CDF" (utils/h5ldump/h5ldump.cpp:34-72). *)
Definition cdf_sig : list Z := [67; 68; 70].

(** memcmp of the signature (utils/h5ldump/h5ldump.cpp:34-72). *)
Fixpoint zlist_eqb (a b : list Z) : bool :=
  match a, b with
  | [], [] => true
  | x :: a', y :: b' => (x =? y) && zlist_eqb a' b'
  | _, _ => false
  end.

(** get_file_signature (h5ldump.cpp:34-86), the text printed by -k; [None]: the file cannot be opened.
    Missing bytes of a short file are 0 (memset). *)
Definition file_kind (content : option (list Z)) (at_ : hdf5attrs) : string :=
  match content with
  | None => "Unknown"%string
  | Some c =>
      let sig := firstn 8 (c ++ repeat 0 8) in
      if zlist_eqb hdf5_sig sig then
        if has_log_attr at_ then "HDF5-LogVOL"%string
        else if has_nc_attr at_ then "NetCDF-4"%string else "HDF5"%string
      else if zlist_eqb cdf_sig (firstn 3 sig) then
        let v := nth 3 sig 0 in
        if v =? 5 then "NetCDF classic"%string
        else if v =? 2 then "NetCDF 64-bit offset"%string
        else if v =? 1 then "NetCDF 64-bit data"%string
        else ""%string
      else "unknown"%string
  end.
