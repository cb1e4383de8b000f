(** The files on the disk: H5Fcreate, H5Fdelete and H5Fis_accessible.

    Simplifications: one process stands for all (which process makes which file is the subject of
    SubModel.v and GroupModel.v); directories can be made; every file on the disk is an HDF5 file, so
    that the library underneath opens, truncates or deletes it; the calls are made while the file is
    not open. *)
From Coq Require Import Ascii String.
From Verif Require Import Base SubModel.
Open Scope list_scope. Open Scope nat_scope.

(** The paths of the files that exist (no code of /repo). *)
Definition disk := list string.
(** Does the file exist (no code of /repo). *)
Definition exists_file (d : disk) (p : string) : bool := existsb (String.eqb p) d.

(** The library underneath creates a file: H5VLfile_create, called at src/H5VL_log_file.cpp:171 and
    src/H5VL_log_filei.cpp:890-891.  With H5F_ACC_EXCL an existing file is an error, with
    H5F_ACC_TRUNC it is replaced. *)
Definition lib_create (excl : bool) (p : string) (d : disk) : option disk :=
  if exists_file d p then if excl then None else Some d else Some (p :: d).

(** The subfiles, each made by the processes of its group; the groups do not wait for each other, so
    that a group that fails does not keep the others from making theirs
    (H5VL_log_filei_create_subfile, src/H5VL_log_filei.cpp:867-903, with the flags of the main file,
    src/H5VL_log_filei.cpp:249). *)
Fixpoint create_subfiles (excl : bool) (name : string) (groups : list nat) (d : disk) : disk * bool :=
  match groups with
  | [] => (d, true)
  | g :: rest =>
      match lib_create excl (create_path name g) d with
      | Some d1 => create_subfiles excl name rest d1
      | None => (fst (create_subfiles excl name rest d), false)
      end
  end.

(** The calls.  [ngroups]: number of subfiles, 0 without subfiling.
    src/H5VL_log_file.cpp:40-193, :391-470. *)
Inductive dcall :=
| DCreate (excl : bool) (name : string) (ngroups : nat)
| DDelete (name : string)
| DAccessible (name : string).

(** H5Fcreate: H5VL_log_file_create makes the main file (src/H5VL_log_file.cpp:155-172), then the library
    calls H5VL_log_filei_post_create, which makes the subfiles (src/H5VL_log_filei.cpp:243-253); a failure
    there removes nothing.
    H5Fdelete: the library first asks whether the file is accessible; H5VL_log_file_specific passes both
    questions on (src/H5VL_log_file.cpp:413-442), the library underneath removes the file of that name. *)
Definition dstep (d : disk) (c : dcall) : disk * bool :=
  match c with
  | DCreate excl name n =>
      match lib_create excl name d with
      | Some d1 => create_subfiles excl name (seq 0 n) d1
      | None => (d, false)
      end
  | DDelete name =>
      if exists_file d name then (filter (fun p => negb (String.eqb name p)) d, true) else (d, false)
  | DAccessible name => (d, exists_file d name)
  end.

(** A history of calls and their results (driver over [dstep]; src/H5VL_log_file.cpp:47-443). *)
Fixpoint drun (d : disk) (cs : list dcall) : disk * list bool :=
  match cs with
  | [] => (d, [])
  | c :: rest => let p := dstep d c in let q := drun (fst p) rest in (fst q, snd p :: snd q)
  end.
