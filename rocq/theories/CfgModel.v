(** Model of property lists (src/H5VL_log.cpp:134-770) and of the settings of a file
    (src/H5VL_log_filei.cpp:336-469, :109-152, :201-247, :281-287; src/H5VL_log_file.cpp:117-138,
    :239-303, :344-375). *)
From Verif Require Import Base.
From Coq Require Export Ascii String.

(** ** The library's property lists

    A list has a class and named values, each of the size it was inserted with.  H5Pinsert2, H5Pset
    and H5Pget copy that many bytes from or to the caller's object: an object smaller than that is
    read or written out of bounds.  H5P_DEFAULT has none of the three classes. *)
(** Used by src/H5VL_log.cpp:134-770; a model of HDF5, not of /repo. *)
Inductive class := FAPL | FCPL | DXPL | NOCLASS.
(** H5Pisa_class of HDF5, as called at src/H5VL_log.cpp:140-142 and its copies. *)
Definition class_eqb (a b : class) : bool :=
  match a, b with FAPL, FAPL => true | FCPL, FCPL => true | DXPL, DXPL => true | NOCLASS, NOCLASS => true | _, _ => false end.
(** A property list of HDF5 (used by src/H5VL_log.cpp:134-770). *)
Record plist := mkpl { pl_class : class; pl_vals : list (string * list Z) }.
(** The value of a name (HDF5, used by src/H5VL_log.cpp:134-770). *)
Fixpoint pl_find (n : string) (l : list (string * list Z)) : option (list Z) :=
  match l with [] => None | (m, v) :: t => if String.eqb n m then Some v else pl_find n t end.
(** Replacing the value of a name (HDF5, used by src/H5VL_log.cpp:134-770). *)
Fixpoint pl_upd (n : string) (v : list Z) (l : list (string * list Z)) : list (string * list Z) :=
  match l with [] => [] | (m, w) :: t => if String.eqb n m then (m, v) :: t else (m, w) :: pl_upd n v t end.
(** H5Pexist of HDF5 (called in src/H5VL_log.cpp:134-770). *)
Definition pexist (n : string) (l : plist) : bool := match pl_find n (pl_vals l) with Some _ => true | None => false end.
(** H5Pinsert2 of HDF5 (called in src/H5VL_log.cpp:134-770). *)
Definition pinsert (n : string) (size : nat) (init : list Z) (l : plist) : res plist :=
  if (size <=? List.length init)%nat then Ok (mkpl (pl_class l) ((n, firstn size init) :: pl_vals l)) else UB.
(** H5Pset of HDF5 (called in src/H5VL_log.cpp:134-770). *)
Definition pset (n : string) (v : list Z) (l : plist) : res plist :=
  match pl_find n (pl_vals l) with
  | None => Err
  | Some w => if (List.length w <=? List.length v)%nat then Ok (mkpl (pl_class l) (pl_upd n (firstn (List.length w) v) (pl_vals l))) else UB
  end.
(** H5Pget of HDF5 (called in src/H5VL_log.cpp:134-770). *)
Definition pget (n : string) (size : nat) (l : plist) : res (list Z) :=
  match pl_find n (pl_vals l) with
  | None => Err
  | Some w => if (List.length w <=? size)%nat then Ok w else UB
  end.

(** ** The connector's properties

    The setters and getters are copies of one another; a record says in what they differ: the
    name, the class checked, the size given to H5Pinsert2, the size of the C object, the value
    inserted first, the value reported when absent, whether the setter returns before doing
    anything, whether the getter fails for a list of another class. *)
(** src/H5VL_log.cpp:134-770. *)
Record prop := mkprop { p_name : string; p_class : class; p_ins : nat; p_obj : nat; p_init : Z; p_default : Z;
                        p_noop : bool; p_strict : bool }.
(** The eleven properties; the lines of each are given behind it (src/H5VL_log.cpp:134-765). *)
Definition P_buffered : prop := mkprop "H5VL_log_nonblocking" DXPL 1 1 0 0 false false. (* log.cpp:134-187 *)
Definition P_nb_buffer_size : prop := mkprop "H5VL_log_nb_buffer_size" FAPL 8 8 (-1) (-1) true false. (* log.cpp:189-246 *)
Definition P_idx_buffer_size : prop := mkprop "H5VL_log_idx_buffer_size" FAPL 8 8 (-1) (-1) true false. (* log.cpp:248-305 *)
Definition P_meta_merge : prop := mkprop "H5VL_log_metadata_merge" FAPL 1 1 0 0 true false. (* log.cpp:307-364 *)
Definition P_meta_share : prop := mkprop "H5VL_log_metadata_share" FAPL 1 1 0 1 false false. (* log.cpp:366-422 *)
Definition P_meta_zip : prop := mkprop "H5VL_log_metadata_zip" FAPL 1 1 0 0 false false. (* log.cpp:424-481 *)
Definition P_sel_encoding : prop := mkprop "H5VL_log_sel_encoding" FAPL 8 4 0 0 false false. (* log.cpp:483-540 *)
Definition P_data_layout : prop := mkprop "H5VL_log_data_layout" FCPL 4 4 0 0 false false. (* log.cpp:542-596 *)
Definition P_subfiling : prop := mkprop "H5VL_log_subfiling" FCPL 4 4 0 0 false false. (* log.cpp:598-651 *)
Definition P_single_subfile_read : prop := mkprop "H5VL_log_single_subfile_read" FCPL 1 1 0 0 false false. (* log.cpp:653-707 *)
Definition P_passthru : prop := mkprop "H5VL_log_passthru" FAPL 1 1 0 0 false true. (* log.cpp:709-765 *)

(** A setter, given the value of the C object (two's complement).
    src/H5VL_log.cpp:135-159 and its copies. *)
Definition set_prop (p : prop) (v : Z) (l : plist) : res plist :=
  if p_noop p then Ok l
  else if negb (class_eqb (pl_class l) (p_class p)) then Err
  else do l1 <- (if pexist (p_name p) l then Ok l else pinsert (p_name p) (p_ins p) (le (p_obj p) (p_init p)) l);
       pset (p_name p) (le (p_obj p) v) l1.
(** A getter: the value read from the C object afterwards.
    src/H5VL_log.cpp:162-187 and its copies. *)
Definition get_prop (p : prop) (l : plist) : res Z :=
  if negb (class_eqb (pl_class l) (p_class p)) then if p_strict p then Err else Ok (p_default p)
  else if pexist (p_name p) l then do b <- pget (p_name p) (p_obj p) l; Ok (sle b)
  else Ok (p_default p).

(** ** Settings of a file *)
(** getenv (called at src/H5VL_log_filei.cpp:336-469). *)
Definition env := string -> option string.
(** The bits of the configuration (src/H5VL_log_filei.hpp:12-15). *)
Definition M_MERGE := 1. Definition M_ENCODE := 2. Definition M_DEFLATE := 4. Definition M_SHARE := 8.
(** src/H5VL_log_filei.hpp:16-21. *)
Definition M_PASSTHRU := 16. Definition M_ALIGN := 256. Definition M_SUBFILING := 512. Definition M_SINGLE := 1024.
(** fp->config |= m (src/H5VL_log_filei.cpp:342-353 and its copies). *)
Definition set_bit (m config : Z) : Z := Z.lor config m.
(** fp->config &= ~m (src/H5VL_log_filei.cpp:342-353 and its copies). *)
Definition clear_bit (m config : Z) : Z := Z.land config (Z.lnot m).

(** atoi, atoll: optional blanks, sign, digits (only the space is taken as a blank); a value out of
    range is undefined.  atoi and atoll are called at src/H5VL_log_filei.cpp:336-469. *)
Definition digit (c : ascii) : option Z :=
  let n := Z.of_nat (nat_of_ascii c) - 48 in if (0 <=? n) && (n <=? 9) then Some n else None.
(** See [digit] (src/H5VL_log_filei.cpp:336-469). *)
Fixpoint digits (s : string) (acc : Z) : Z :=
  match s with
  | String c r => match digit c with Some d => digits r (acc * 10 + d) | None => acc end
  | EmptyString => acc
  end.
(** atoi and atoll of the C library (called at src/H5VL_log_filei.cpp:336-469). *)
Fixpoint ato (s : string) : Z :=
  match s with
  | String c r =>
      if Ascii.eqb c " " then ato r
      else if Ascii.eqb c "-" then - digits r 0
      else if Ascii.eqb c "+" then digits r 0
      else digits s 0
  | EmptyString => 0
  end.
(** The range of the result of atoi (32) or atoll (64) (src/H5VL_log_filei.cpp:336-469). *)
Definition in_bits (n : Z) (z : Z) : res Z := if (- 2 ^ (n - 1) <=? z) && (z <? 2 ^ (n - 1)) then Ok z else UB.

(** A setting of [m] from a property with value [v], then from the environment
    (filei.cpp:342-353 and its copies). *)
Definition by_env (m : Z) (e : option string) (on : string) (config : Z) : Z :=
  match e with
  | None => config
  | Some s => if String.eqb s on then set_bit m config else clear_bit m config
  end.
(** The same for a property that is true or false (src/H5VL_log_filei.cpp:342-353 and its copies).
    *)
Definition by_bool (m : Z) (v : Z) (e : option string) (config : Z) : Z :=
  by_env m e "1" (if v =? 0 then config else set_bit m config).

(** fp->index_type (src/H5VL_log_filei.cpp:336-432). *)
Inductive index_type := IdxCompact | IdxList.
(** fp->config, fp->mbuf_size, fp->index_type, fp->ngroup (src/H5VL_log_file.hpp:39-133). *)
Record cfg := mkcfg { c_bits : Z; c_mbuf : Z; c_index : index_type; c_ngroup : Z }.

(** H5VL_log_filei_parse_fapl, filei.cpp:336-432. *)
Definition parse_fapl (ev : env) (l : plist) (c : cfg) : res cfg :=
  do v1 <- get_prop P_meta_merge l; let b1 := by_bool M_MERGE v1 (ev "H5VL_LOG_METADATA_MERGE"%string) (c_bits c) in
  do v2 <- get_prop P_meta_share l; let b2 := by_bool M_SHARE v2 (ev "H5VL_LOG_METADATA_SHARE"%string) b1 in
  do v3 <- get_prop P_meta_zip l; let b3 := by_bool M_DEFLATE v3 (ev "H5VL_LOG_METADATA_ZIP"%string) b2 in
  do v4 <- get_prop P_sel_encoding l;
  let b4 := if v4 =? 0 then set_bit M_ENCODE b3 else b3 in
  let b5 := match ev "H5VL_LOG_SEL_ENCODING"%string with
            | None => b4
            | Some s => if String.eqb s "canonical" then clear_bit M_ENCODE b4 else set_bit M_ENCODE b4
            end in
  do v5 <- get_prop P_idx_buffer_size l;
  do mb <- match ev "H5VL_LOG_IDX_BSIZE"%string with None => Ok v5 | Some s => in_bits 64 (ato s) end;
  let ix := match ev "H5VL_LOG_INDEX_TYPE"%string with
            | None => IdxCompact
            | Some s => if String.eqb s "compact" then IdxCompact else IdxList
            end in
  do v6 <- get_prop P_single_subfile_read l; let b6 := by_bool M_SINGLE v6 (ev "H5VL_LOG_SINGLE_SUBFILE_READ"%string) b5 in
  do v7 <- get_prop P_passthru l; let b7 := by_bool M_PASSTHRU v7 (ev "H5VL_LOG_PASSTHRU"%string) b6 in
  Ok (mkcfg b7 mb ix (c_ngroup c)).

(** H5VL_log_filei_parse_fcpl, filei.cpp:434-469. *)
Definition parse_fcpl (ev : env) (l : plist) (c : cfg) : res cfg :=
  do v1 <- get_prop P_data_layout l;
  let b1 := if v1 =? 1 then set_bit M_ALIGN (c_bits c) else c_bits c in
  let b2 := match ev "H5VL_LOG_DATA_LAYOUT"%string with
            | None => b1
            | Some s => if String.eqb s "align" then clear_bit M_ALIGN b1 else set_bit M_ALIGN b1
            end in
  do ng <- match ev "H5VL_LOG_NSUBFILES"%string with
           | Some EmptyString => Ok (-1)
           | Some s => in_bits 32 (ato s)
           | None => get_prop P_subfiling l
           end;
  Ok (mkcfg (if ng =? 0 then b2 else set_bit M_SUBFILING b2) (c_mbuf c) (c_index c) ng).

(** Their values before the settings are read (src/H5VL_log_file.cpp:112-138). *)
Definition cfg0 : cfg := mkcfg 0 0 IdxCompact 0.
(** H5VL_log_file_create (file.cpp:112-138). *)
Definition cfg_create (ev : env) (fapl fcpl : plist) : res cfg :=
  do c <- parse_fapl ev fapl cfg0; parse_fcpl ev fcpl c.
(** H5VL_log_filei_post_create (filei.cpp:216-247): asking the MPI library for the striping uses a
    file handle that is opened only later (:276), so the aligned layout is undefined.  With
    subfiling the aligned layout is switched off, after that.  The attribute holds the settings
    (:281-287). *)
Definition post_create (c : cfg) : res (cfg * list Z) :=
  if has (c_bits c) M_ALIGN then UB
  else let bits := if has (c_bits c) M_SUBFILING then clear_bit M_ALIGN (c_bits c) else c_bits c in
       let ng := if has bits M_SUBFILING then c_ngroup c else 1 in
       Ok (mkcfg bits (c_mbuf c) (c_index c) ng, [0; 0; 0; bits; ng]).
(** H5VL_log_file_open (file.cpp:260-303), then H5VL_log_filei_post_open (filei.cpp:132-152) which
    takes the settings from the attribute. *)
Definition cfg_open (ev : env) (fapl : plist) (att : list Z) : res cfg :=
  do c <- parse_fapl ev fapl cfg0;
  let bits := nth 3 att 0 in
  Ok (mkcfg bits (c_mbuf c) (c_index c) (if has bits M_SUBFILING then nth 3 att 0 else 1)).

(** H5Fget_access_plist and H5Fget_create_plist (file.cpp:344-375), on the lists made by the
    library underneath, which have none of the connector's properties. *)
Definition file_get_fapl (c : cfg) : res plist :=
  let l := mkpl FAPL [] in
  do l1 <- (if has (c_bits c) M_MERGE then set_prop P_meta_merge 1 l else Ok l);
  do l2 <- (if has (c_bits c) M_ENCODE then set_prop P_sel_encoding 0 l1 else Ok l1);
  do l3 <- (if has (c_bits c) M_DEFLATE then set_prop P_meta_zip 1 l2 else Ok l2);
  if has (c_bits c) M_SHARE then set_prop P_meta_share 1 l3 else Ok l3.
(** H5VL_log_file_get with H5VL_FILE_GET_FCPL (src/H5VL_log_file.cpp:345-357). *)
Definition file_get_fcpl (c : cfg) : res plist :=
  if has (c_bits c) M_SUBFILING then set_prop P_subfiling (c_ngroup c) (mkpl FCPL []) else Ok (mkpl FCPL []).
