(** The shape of a dataset: attributes in the file, description in memory, H5Dset_extent,
    H5Dget_space (src/H5VL_log_dataset.cpp, src/H5VL_log_dataseti.cpp:689-761). *)
From Verif Require Import Base MetaModel SysModel.

(** A dataset of the file: the attributes with its sizes and maximal sizes, element size and fill
    value (kept by the underlying dataset) and, once known to the open file, its description
    (dsets_info, src/H5VL_log_file.hpp).  src/H5VL_log_dataset.hpp:29-38. *)
Record dset := mkdset {
  ds_dims : list Z; ds_mdims : list Z; ds_esize : Z; ds_fill : option (list Z); ds_info : option dinfo }.

(** src/H5VL_log_dataset.cpp:54-221, :431-556; src/H5VL_log_filei.cpp:109-199. *)
Inductive sop :=
| SCreate (d : dinfo)                (* H5Dcreate *)
| SExtent (did : nat) (new : list Z) (* H5Dset_extent *)
| SReopen                            (* H5Fclose, H5Fopen *)
| SOpen (did : nat)                  (* H5Dopen *)
| SSpace (did : nat).                (* H5Dget_space *)

(** What a call returns: nothing, failure, or a data space (sizes, maximal sizes).
    src/H5VL_log_dataset.cpp:431-556. *)
Inductive sout := ODone | OFailed | OSpace (dims mdims : list Z).

(** H5VL_log_dataseti_open (src/H5VL_log_dataseti.cpp:689-761): the description is built from the
    attributes unless the file already has one. *)
Definition load_info (cfg : Z) (d : dset) : res dinfo :=
  match ds_info d with
  | Some i => Ok i
  | None => create_info cfg (mkdinfo (ds_esize d) (ds_dims d) (ds_mdims d) [] (ds_fill d))
  end.

(** Storing the description (src/H5VL_log_dataset.cpp:179-185). *)
Definition set_info (d : dset) (i : option dinfo) : dset :=
  mkdset (ds_dims d) (ds_mdims d) (ds_esize d) (ds_fill d) i.

(** One call.  H5VL_log_dataset_create (src/H5VL_log_dataset.cpp:149-183) stores the attributes and
    the description; H5VL_log_dataset_specific (:520-540) leaves through an exception at the first
    size that is too large, before the attribute is written; H5VL_log_dataset_get (:446-449)
    reports the description; at H5Fclose the descriptions go. *)
Definition shape_step (cfg : Z) (l : list dset) (o : sop) : res (list dset * sout) :=
  match o with
  | SCreate d =>
      do i <- create_info cfg d;
      Ok (l ++ [mkdset (di_dims d) (di_mdims d) (di_esize d) (di_fill d) (Some i)], ODone)
  | SExtent did new =>
      match nth_error l did with
      | Some d =>
          match ds_info d with
          | None => UB
          | Some i =>
              let '(i', okk) := set_extent cfg i new in
              if okk : bool
              then Ok (upd_nth did (mkdset (di_dims i') (ds_mdims d) (ds_esize d) (ds_fill d) (Some i')) l, ODone)
              else Ok (upd_nth did (set_info d (Some i')) l, OFailed)
          end
      | None => UB
      end
  | SReopen => Ok (map (fun d => set_info d None) l, ODone)
  | SOpen did =>
      match nth_error l did with
      | Some d => do i <- load_info cfg d; Ok (upd_nth did (set_info d (Some i)) l, ODone)
      | None => Err
      end
  | SSpace did =>
      match nth_error l did with
      | Some d => match ds_info d with Some i => Ok (l, OSpace (di_dims i) (di_mdims i)) | None => UB end
      | None => UB
      end
  end.

(** A history of calls (driver of the model; src/H5VL_log_dataset.cpp:431-556). *)
Fixpoint shape_run (cfg : Z) (l : list dset) (os : list sop) : res (list dset * list sout) :=
  match os with
  | [] => Ok (l, [])
  | o :: rest =>
      do x <- shape_step cfg l o;
      let '(l', out) := x in
      do y <- shape_run cfg l' rest;
      let '(l'', outs) := y in Ok (l'', out :: outs)
  end.
