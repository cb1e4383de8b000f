(** Model of the connector's callbacks on files that were not made by the connector
    (is_log_based_file = false): the branches of src/H5VL_log_att.cpp, H5VL_log_dataset.cpp,
    H5VL_log_file.cpp, H5VL_log_filei.cpp, H5VL_log_group.cpp, H5VL_log_link.cpp and H5VL_log_obj.cpp
    taken in this case, and the code of these callbacks that runs in both cases.

    Not modelled: property lists and datatypes except where they decide whether a call is refused, the
    creation order reported by H5Aget_info, asynchronous requests, H5Ocopy, external links. *)
From Verif Require Import Base NameModel LibModel NsModel.
From Coq Require Import Ascii String.

(** The calls of a program: those of LibModel.v and some that concern data and the file.
    The functions are cited at [reg_step]; data calls are src/H5VL_log_dataset.cpp:285-500. *)
Inductive rcall (D : Type) :=
| RNs (c : call)
(** H5Dcreate with a type that is a variable-length string *)
| RVarStr (h : nat) (n : string)
(** H5Dwrite, H5Dread, H5Dset_extent, H5Dget_space, H5Dget_type, H5Dget_storage_size, H5Fflush,
    H5Fget_create_plist, ... *)
| RData (d : D)
(** H5Fget_access_plist *)
| RFapl.
Arguments RNs {D} c. Arguments RVarStr {D} h n. Arguments RData {D} d. Arguments RFapl {D}.

(** Results: those of LibModel.v or of a call on data (src/H5VL_log_dataset.cpp:285-500). *)
Inductive rresult (A : Type) := RR (r : result) | RA (a : A).
Arguments RR {A} r. Arguments RA {A} a.

Section Reg.
  (** What the library does with the data of the file: any function. *)
  Context {D A X : Type} (under_data : X -> lib -> D -> X * A).

  (** Without the connector. *)
  Definition plain_step (x : X) (st : lib) (c : rcall D) : X * lib * rresult A :=
    match c with
    | RNs c => let r := lib_step st c in (x, fst r, RR (snd r))
    | RVarStr h n => let r := lib_step st (CDset h n) in (x, fst r, RR (snd r))
    | RData d => let r := under_data x st d in (fst r, st, RA (snd r))
    | RFapl => (x, st, RR ROk)
    end.
  Fixpoint plain_run (x : X) (st : lib) (cs : list (rcall D)) : X * lib * list (rresult A) :=
    match cs with
    | [] => (x, st, [])
    | c :: t =>
        let r := plain_step x st c in
        let s := plain_run (fst (fst r)) (snd (fst r)) t in
        (fst s, snd r :: snd s)
    end.

  (** H5VL_log_filei_post_open (filei.cpp:122-127): a file with an attribute _int_att is taken for one
      made by the connector.  The attribute is then read into an array of H5VL_LOG_FILEI_NATTR = 5
      integers, whatever its size (filei.cpp:115, :128, filei.hpp:25).  What happens to a file taken for one
      of the connector's is not modelled except that opening it fails without the group _LOG
      (filei.cpp:170-177); Err stands for it. *)
  Definition reg_reopen (st : lib) : res (lib * result) :=
    match l_objs st with
    | [] => under st CReopen
    | r :: _ =>
        match assoc "_int_att"%string (ob_attrs r) with
        | None => under st CReopen
        | Some v =>
            if (5 <? Zlen v) then UB
            else match resolve 16 (ob_links r) LOG_GROUP with
                 | Some _ => Err
                 | None => Ok (mklib (l_objs st) [], RFail)
                 end
        end
    end.

  (** Links, objects and attributes. *)
  Definition reg_ns (st : lib) (c : call) : res (lib * result) :=
    match c with
    (* link.cpp:197, :213: o_src->fp and o_dst->fp are read before the tests for NULL *)
    | CMove (Some h1) n1 (Some h2) n2 => under st (CMove (Some h1) n1 (Some h2) n2)
    | CMove _ _ _ _ => UB
    (* att.cpp:300-353: the index is moved past the connector's attributes, without looking at the kind
       of the file *)
    | ANameIdx l it io k => get_idx st l io k (ANameIdx l it io)
    | AInfoIdx l it io k => get_idx st l io k (AInfoIdx l it io)
    (* obj.cpp:191-218: the names are left alone, the connector's attributes are deducted *)
    | ANum l =>
        let r := lib_step st (ANum l) in
        match snd r with
        | RNum n => Ok (fst r, RNum (wrap64 (n - Z.of_nat (skip_of st l))))
        | _ => Ok r
        end
    (* filei.cpp:109-127 *)
    | CReopen => reg_reopen st
    (* group.cpp:61-67, :130-137; dataset.cpp:102-108, :250-256; obj.cpp:62, :71-78; link.cpp:60-80,
       :128-137, :368-376; group.cpp:183-213; link.cpp:297; att.cpp:63-67, :128-142 (the index is
       changed back after the call although it was not changed, without effect), :409-412 *)
    | _ => under st c
    end.

  Definition reg_step (x : X) (st : lib) (c : rcall D) : res (X * lib * rresult A) :=
    match c with
    | RNs c => do r <- reg_ns st c; Ok (x, fst r, RR (snd r))
    (* dataset.cpp:88-90: before the kind of the file is looked at *)
    | RVarStr h n => Ok (x, st, RR RFail)
    (* dataset.cpp:299-302, :352-355, :441-444, :514-517, :589-592; file.cpp:346-350, :452, :460 *)
    | RData d => let r := under_data x st d in Ok (fst r, st, RA (snd r))
    (* file.cpp:346: fp->sfp is asked, which is NULL (file.cpp:262): it is set only for files made by
       the connector (filei.cpp:162, :251, :890, :932) *)
    | RFapl => Ok (x, st, RR RFail)
    end.
  Fixpoint reg_run (x : X) (st : lib) (cs : list (rcall D)) : res (X * lib * list (rresult A)) :=
    match cs with
    | [] => Ok (x, st, [])
    | c :: t =>
        do r <- reg_step x st c;
        do s <- reg_run (fst (fst r)) (snd (fst r)) t;
        Ok (fst s, snd r :: snd s)
    end.
End Reg.
