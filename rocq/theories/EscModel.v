(** How a failure leaves the connector: as an error returned to the library, or as a C++ exception
    that nobody catches, which ends the program. *)
From Verif Require Import Base RefModel.

(** What the program sees of a call.  Every failing step of the connector throws
    (src/H5VL_logi_err.hpp:57-94); the callbacks catch it and return an error
    (src/H5VL_logi_err.hpp:31-50).  [Terminated]: the exception leaves a callback, whose caller is C
    code, or a destructor, which is noexcept: std::terminate. *)
Inductive answer := Returned (ok : bool) | Terminated.

(** The calls.  [ECall o cf]: the calls of [RefModel]; [cf]: some step of H5VL_log_filei_close fails
    if the call gets there (src/H5VL_log_filei.cpp:739-825).  [EData els]: one H5Dread or H5Dwrite,
    or H5Dread_multi or H5Dwrite_multi on several datasets; [els] says for each whether
    H5VL_log_dataset_read_1 or _write_1 succeeds (src/H5VL_log_dataset.cpp:286-379).  [EOther okk]:
    the remaining callbacks, of attributes, links, groups, objects, datatypes, requests
    (src/H5VL_log_att.cpp:110-560, src/H5VL_log_link.cpp:40-330, src/H5VL_log_group.cpp:110-330,
    src/H5VL_log_obj.cpp:60-330, src/H5VL_log_req.cpp:40-260): all their steps are in a try block. *)
Inductive eop := ECall (o : rop) (cf : bool) | EData (els : list bool) | EOther (okk : bool).

(** What is caught by the callback itself: an error is returned (src/H5VL_logi_err.hpp:31-50). *)
Definition caught (okk : bool) : answer := Returned okk.

(** H5VL_log_dataset_read_2 and _write_2: a loop over the datasets with CHECK_ERR outside any try
    block (src/H5VL_log_dataset.cpp:381-420). *)
Fixpoint multi (els : list bool) : answer :=
  match els with
  | [] => Returned true
  | true :: rest => multi rest
  | false :: _ => Terminated
  end.

(** Which callbacks are registered: read_2 and write_2 from HDF5 1.13.3 on, before it read_1 and
    write_1, with one dataset per call (src/H5VL_log_dataset.hpp:20-26, src/H5VL_log_dataset.cpp:30-50).
    Older versions of HDF5 have no call on several datasets, so [forallb] is over one. *)
Definition data_call (ge1133 : bool) (els : list bool) : answer :=
  if ge1133 then multi els else caught (forallb (fun b => b) els).

(** The identifier a call is made with (no code of /repo). *)
Definition id_of (o : rop) : nat :=
  match o with ROpen h _ _ => h | RReopen h => h | RClose h _ => h | RGetFile h => h | RVisit h _ => h end.

(** What the underlying library answers within the call (src/H5VL_log_group.cpp:69-100 and the
    others cited at [rstep]).  H5Fclose makes no call of its own before H5VL_log_filei_close. *)
Definition under_ok (f : fobj) (o : rop) : bool :=
  match o with
  | ROpen _ _ okk => okk
  | RClose h okk =>
      match obj_of f h with
      | Some ob =>
          if existsb (fun p => (snd p =? ob)%nat && negb (fst p =? h)%nat) (fo_ids f) then true
          else match kind_of f ob with Some KFile => true | _ => okk end
      | None => false
      end
  | _ => true
  end.

(** Is the call H5Fclose (src/H5VL_log_file.cpp:528-539)? *)
Definition by_file_close (f : fobj) (o : rop) : bool :=
  match o with
  | RClose h _ => match obj_of f h with
                  | Some ob => match kind_of f ob with Some KFile => true | _ => false end
                  | None => false
                  end
  | _ => false
  end.

(** A failing H5VL_log_filei_close of H5Fclose: the reference was given up, the rest is as before,
    and the library keeps the identifier (src/H5VL_log_filei.cpp:1081-1084). *)
Definition failed_close (f : fobj) : fobj :=
  mkfobj (fo_ref f - 1) (fo_log f) (fo_objs f) (fo_ids f) (fo_next f) (fo_closes f).

(** One call.  H5VL_log_filei_close runs when the call brings the count of references to 0
    (src/H5VL_log_filei.cpp:1081-1084); for a file that is not log based it checks nothing
    (src/H5VL_log_filei.cpp:721-732).  Called by H5VL_log_file_close it is inside a try block
    (src/H5VL_log_file.cpp:528-539); called by the destructor of an object (src/H5VL_log_obji.cpp:82-95)
    the exception meets noexcept. *)
Definition estep (ge1133 : bool) (f : fobj) (op : eop) : res (fobj * answer) :=
  match op with
  | EOther okk => Ok (f, caught okk)
  | EData els => Ok (f, data_call ge1133 els)
  | ECall o cf =>
      match obj_of f (id_of o) with
      | None => Ok (f, Returned false)      (* rejected by the library *)
      | Some _ =>
          do g <- rstep f o;
          if ((fo_closes f <? fo_closes g)%nat && cf && fo_log f)%bool
          then if by_file_close f o then Ok (failed_close f, Returned false) else Ok (g, Terminated)
          else Ok (g, caught (under_ok f o))
      end
  end.

(** A program: it stops when it is terminated.  What the state of a file is after its H5Fclose
    failed is the subject of [FaultModel]; here the program ends there too
    (driver of the model over [estep]; src/H5VL_log_file.cpp:528-539). *)
Fixpoint erun (ge1133 : bool) (f : fobj) (os : list eop) : res (fobj * list answer) :=
  match os with
  | [] => Ok (f, [])
  | op :: rest =>
      do r <- estep ge1133 f op;
      let '(g, a) := r in
      if (match a with Terminated => true | _ => false end || (fo_ref g <? Zlen (fo_objs g)))%bool
      then Ok (g, [a])
      else do t <- erun ge1133 g rest; Ok (fst t, a :: snd t)
  end.

(** * Files whose H5Fclose failed *)

(** H5Fopen, H5Fcreate and H5Fclose in a program with several files; [XClose id cf]: [cf] as above.
    The table [files] of [RefModel], and the files whose close failed. *)
Inductive xop := XOpen (path : Z) | XClose (id : nat) (cf : bool).

(** H5VL_log_filei_rm is the last step of H5VL_log_filei_close (src/H5VL_log_filei.cpp:832): after a
    failure the file stays in the table.  Another H5Fclose brings the count from 0 to -1 and does
    nothing (src/H5VL_log_filei.cpp:1081-1084). *)
Definition xstep (fs : fsview) (s : otable * list nat) (o : xop) : otable * list nat :=
  let '(t, bad) := s in
  match o with
  | XOpen p => (ostep fs t (FOpen p), bad)
  | XClose id cf =>
      if negb (existsb (fun q => (fst q =? id)%nat) (ot_open t)) then s   (* rejected by the library *)
      else if existsb (Nat.eqb id) bad then s
      else if cf then (t, id :: bad) else (ostep fs t (FClose id), bad)
  end.
(** A history of such calls (driver of the model over [xstep]; src/H5VL_log_file.cpp:45-304). *)
Definition xrun (fs : fsview) (s : otable * list nat) (os : list xop) : otable * list nat :=
  fold_left (xstep fs) os s.
