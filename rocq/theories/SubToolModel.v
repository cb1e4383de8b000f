(** Closing a file with subfiles, and the utilities on it.

    Modelled: H5VL_log_filei_close (src/H5VL_log_filei.cpp:736-800), h5ldump_file (utils/h5ldump/h5ldump.cpp:190-301), split_comm
    and h5lreplay_core (utils/h5lreplay/h5lreplay.cpp:94-129, 132-309) for files with subfiles.

    Simplifications: as in SubModel.v, DumpModel.v and ReplayDataModel.v; the table of datasets, which the utilities make from
    the main file, is that of each group (all groups take part in creating and extending datasets). *)
From Coq Require Import String.
From Verif Require Import Base Spec MetaModel QueueModel FlushModel IndexModel ReadModel SysModel SubModel DumpModel ReplayDataModel.
Open Scope list_scope. Open Scope Z_scope.

(** A closed file: its name, the number of subfiles in the attribute of the main file (src/H5VL_log_filei.cpp:757), and the
    subfiles on disk by their paths. *)
Record closed := mkcl { cl_name : string; cl_nsub : nat; cl_disk : list (string * gfile) }.

(** A subfile: the attribute says how many metadata datasets there are (src/H5VL_log_filei.cpp:753-764). *)
Definition on_disk (sg : sgroup) : gfile :=
  let g := s_g (sg_sys sg) in
  mkg (g_cfg g) (g_infos g) [] (g_file g) (firstn (sg_nmd sg) (g_mdsets g)) (g_nldset g) false.

(** H5Fclose by all processes: flush, metadata flush, attributes (src/H5VL_log_filei.cpp:739-769).
    [doffs]: placement of each group's log dataset. *)
Definition sub_close (doffs : list Z) (s : sfile) : sres closed :=
  sdo s1 <- sub_flush doffs s;
  sdo gs <- sub_metaflush (sf_groups s1);
  SOk (mkcl (sf_name s) (length gs) (combine (sf_created s) (map on_disk gs))).

(** The path of subfile [i] (utils/h5ldump/h5ldump.cpp:275-276, utils/h5lreplay/h5lreplay.cpp:245-246). *)
Definition tool_path (name : string) (i : nat) : string :=
  append name (append ".subfiles/" (append (basename name) (append "." (number i)))).

(** H5Fopen of a subfile (utils/h5ldump/h5ldump.cpp:223-224, utils/h5lreplay/h5lreplay.cpp:253-254). *)
Fixpoint on_path (p : string) (disk : list (string * gfile)) : res gfile :=
  match disk with
  | [] => Err
  | (q, g) :: rest => if String.eqb p q then Ok g else on_path p rest
  end.
(** Subfile [i] with the table of datasets read from the main file (utils/h5ldump/h5ldump_visit.cpp:27-135,
    utils/h5lreplay/h5lreplay_copy.cpp:22-163). *)
Definition subfile (c : closed) (i : nat) : res gfile :=
  do g <- on_path (tool_path (cl_name c) i) (cl_disk c);
  do infos <- reopen_infos (g_cfg g) (g_infos g);
  Ok (set_infos g infos).

(** One after another (helper of the model, no code of /repo). *)
Fixpoint each {A B} (f : A -> res B) (l : list A) : res (list B) :=
  match l with
  | [] => Ok []
  | a :: rest => do b <- f a; do r <- each f rest; Ok (b :: r)
  end.

(** h5ldump_file on the main file: the subfiles in order (utils/h5ldump/h5ldump.cpp:272-279). *)
Definition dump_sub (z : zlib) (withdata : bool) (c : closed) : res (list (list (list (list dentry)))) :=
  each (fun i => do g <- subfile c i; dump_file z withdata g) (seq 0 (cl_nsub c)).

(** split_comm (utils/h5lreplay/h5lreplay.cpp:94-129): two groups, by the parity of the rank, or one group if there is only one
    process; subid, subrank and subnp of process [r] of [nr]. *)
Definition nnode (nr : Z) : Z := Z.min nr 2.
(** See [nnode] (utils/h5lreplay/h5lreplay.cpp:94-129). *)
Definition subid (r : Z) : Z := r mod 2.
(** See [nnode] (utils/h5lreplay/h5lreplay.cpp:94-129, 233-234). *)
Definition subrank (r : Z) : Z := r / 2.
(** See [nnode] (utils/h5lreplay/h5lreplay.cpp:94-129, 233-234). *)
Definition subnp (r nr : Z) : Z := (nr + 1 - subid r) / 2.

(** h5lreplay_core (utils/h5lreplay/h5lreplay.cpp:228-295): the H5Dwrites of process [r] of [nr], subfiles subid, subid + nnode
    and so on. *)
Definition replay_sub (z : zlib) (r nr : Z) (c : closed) : res (list rwrite) :=
  do l <- each (fun i => do g <- subfile c i; replay_proc z (subrank r) (subnp r nr) g)
               (List.filter (fun i => Z.of_nat i mod nnode nr =? subid r) (seq 0 (cl_nsub c)));
  Ok (concat l).
