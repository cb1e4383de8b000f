(** Deleting datasets (H5Ldelete of the only link of a dataset). *)
From Verif Require Import Base Spec MetaModel QueueModel FlushModel IndexModel ReadModel SysModel.

(** The calls of SysModel.v, and deleting the dataset with number [did] (src/H5VL_log_link.cpp:343-427). *)
Inductive dcall := DOp (o : op) | DDelete (did : Z).

(** The file, and the datasets deleted since it was opened.  src/H5VL_log_file.hpp:39-133. *)
Record dsys := mkdsys { d_sys : sys; d_gone : list Z }.

(** dsets_info of a file opened again: the visit finds the datasets that are linked, the entries of the others stay null
    (src/H5VL_log_filei.cpp:135-136, :188-196, src/H5VL_log_dataseti.cpp:715-755).  [k]: number of the first entry. *)
Fixpoint unlink (gone : list Z) (k : Z) (infos : list (option dinfo)) : list (option dinfo) :=
  match infos with
  | [] => []
  | x :: rest => (if existsb (Z.eqb k) gone then None else x) :: unlink gone (k + 1) rest
  end.

(** H5Ldelete goes to the library underneath (src/H5VL_log_link.cpp:343-427); nothing else is changed: the dataset keeps its
    entry in dsets_info until the file is closed, and its log entries stay.  A dataset that is not there makes it fail.
    Simplified: every dataset has one link, and no identifier of it is used afterwards.  At closing the table is not used for
    the pending writes (src/H5VL_log_filei.cpp:736-747), so the entries are removed first. *)
Definition dstep (e : env) (s : dsys) (c : dcall) : res (dsys * list (list Z)) :=
  match c with
  | DDelete did =>
      match info_at (g_infos (s_g (d_sys s))) did with
      | Some (Some _) => if existsb (Z.eqb did) (d_gone s) then Err else Ok (mkdsys (d_sys s) (did :: d_gone s), [])
      | _ => Err
      end
  | DOp (OReopen doff np) =>
      let g := s_g (d_sys s) in
      do p <- step e (mksys (set_infos g (unlink (d_gone s) 0 (g_infos g))) (s_idx (d_sys s))) (OReopen doff np);
      Ok (mkdsys (fst p) [], snd p)
  | DOp o => do p <- step e (d_sys s) o; Ok (mkdsys (fst p) (d_gone s), snd p)
  end.

(** A history of calls (driver of the model over [dstep]; src/H5VL_log_filei.cpp:109-842). *)
Fixpoint drun (e : env) (s : dsys) (cs : list dcall) : res (dsys * list (list (list Z))) :=
  match cs with
  | [] => Ok (s, [])
  | c :: rest => do p <- dstep e s c; do q <- drun e (fst p) rest; Ok (fst q, snd p :: snd q)
  end.

(** A new file (src/H5VL_log_filei.cpp:201-291). *)
Definition dinit (cfg : Z) (np : nat) (f0 : bytemap) : dsys := mkdsys (init cfg np f0) [].
