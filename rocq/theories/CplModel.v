(** Dataset creation property lists: what H5Dcreate does to the list of the program and what is kept of it
    (src/H5VL_log_dataset.cpp:54-240, src/H5VL_log_dataseti.cpp:690-770, src/H5VL_logi_filter.hpp:36-62).

    Simplified: of a creation property list the layout, the filters and the fill value; one log file, and creations in
    files without the connector.  Of HDF5: a dataset keeps its list while the file is open; the file itself keeps the filters only of chunked
    datasets (comment at src/H5VL_log_dataset.cpp:112); mandatory filters are refused for the empty dataspace the connector
    gives the dataset, optional ones are ignored; extendable datasets and filters need the chunked layout. *)
From Verif Require Import Base.

(** H5D_layout_t with the chunk sizes (src/H5VL_log_dataset.cpp:113). *)
Inductive layout := LContiguous | LCompact | LChunked (dims : list Z).
(** H5D_fill_value_t with the value (src/H5VL_log_dataset.cpp:136-144). *)
Inductive fillv := FUndef | FDefault | FUser (v : list Z).
(** A creation property list; a filter is its identifier and whether it is optional (H5VL_log_filter_t,
    src/H5VL_logi_filter.hpp:16-25). *)
Record plist := mkpl { pl_layout : layout; pl_filters : list (Z * bool); pl_fill : fillv }.
(** H5Pcreate (H5P_DATASET_CREATE), whose identifier is the argument of src/H5VL_log_dataset.cpp:60. *)
Definition plist0 : plist := mkpl LContiguous [] FDefault.

(** A dataset of the log file: the list of the underlying dataset, and filters and fill value of H5VL_log_dset_info_t
    (src/H5VL_log_dataset.hpp:19-37). *)
Record dset := mkds { ds_list : plist; ds_filters : list (Z * bool); ds_fill : fillv }.
(** The property lists of the program and the datasets of the log file, in the order of their creation
    (dsets_info, src/H5VL_log_file.hpp:39-133). *)
Record pworld := mkpw { pw_lists : list plist; pw_sets : list dset }.

(** H5Pset_layout (src/H5VL_log_dataset.cpp:113). *)
Definition with_layout (l : plist) (y : layout) : plist := mkpl y (pl_filters l) (pl_fill l).
(** Lists of the program are the lists handed over at src/H5VL_log_dataset.cpp:60. *)
Definition set_list (w : pworld) (p : nat) (l : plist) : pworld := mkpw (upd_nth p l (pw_lists w)) (pw_sets w).

(** Whether HDF5 creates the underlying dataset, whose dataspace is empty and whose layout is contiguous
    (src/H5VL_log_dataset.cpp:117-122). *)
Definition under_ok (l : plist) : bool := forallb snd (pl_filters l).
(** Whether HDF5 creates a dataset in a file without the connector (src/H5VL_log_dataset.cpp:102-108). *)
Definition plain_ok (l : plist) (ext : bool) : bool :=
  match pl_layout l with
  | LChunked _ => true
  | _ => negb ext && match pl_filters l with [] => true | _ => false end
  end.
(** The list of a dataset read back from a file (comment at src/H5VL_log_dataset.cpp:112). *)
Definition on_disk (l : plist) : plist :=
  mkpl (pl_layout l) (match pl_layout l with LChunked _ => pl_filters l | _ => [] end) (pl_fill l).

(** [PCreate]: H5Pcreate; [PLayout], [PFilter], [PFill]: H5Pset_layout and H5Pset_chunk, H5Pset_filter, H5Pset_fill_value;
    [DCreate]: H5Dcreate in the log file, [fail]: HDF5 refuses, for instance because the name is taken; [DOther]: H5Dcreate in a
    file without the connector of a dataset that is extendable if [ext]; [DGet]: H5Dget_create_plist; [Reopen]: H5Fclose and
    H5Fopen of the log file with its datasets opened. *)
Inductive pcall := PCreate | PLayout (p : nat) (y : layout) | PFilter (p : nat) (f : Z * bool) | PFill (p : nat) (f : fillv)
  | DCreate (p : nat) (fail : bool) | DOther (p : nat) (ext : bool) | DGet (d : nat) | Reopen.
(** What a call returns. *)
Inductive panswer := PDone | PFail.

(** One call; H5VL_log_dataset_create (src/H5VL_log_dataset.cpp:54-240) for [DCreate] sets the layout of the program's
    own list before anything can fail and keeps filters and fill value; H5VL_log_dataset_get passes H5Dget_create_plist on
    (src/H5VL_log_dataset.cpp:463-472) for [DGet]; H5VL_log_dataseti_open (src/H5VL_log_dataseti.cpp:690-770) takes filters and
    fill value from the list of the underlying dataset for [Reopen]. *)
Definition pexec (w : pworld) (c : pcall) : pworld * panswer :=
  match c with
  | PCreate => (mkpw (pw_lists w ++ [plist0]) (pw_sets w), PDone)
  | PLayout p y => match nth_error (pw_lists w) p with
                   | Some l => (set_list w p (with_layout l y), PDone)
                   | None => (w, PFail)
                   end
  | PFilter p f => match nth_error (pw_lists w) p with
                   | Some l => (set_list w p (mkpl (pl_layout l) (pl_filters l ++ [f]) (pl_fill l)), PDone)
                   | None => (w, PFail)
                   end
  | PFill p f => match nth_error (pw_lists w) p with
                 | Some l => (set_list w p (mkpl (pl_layout l) (pl_filters l) f), PDone)
                 | None => (w, PFail)
                 end
  | DCreate p fail =>
      match nth_error (pw_lists w) p with
      | Some l =>
          let l' := with_layout l LContiguous in
          let w' := set_list w p l' in
          if fail || negb (under_ok l') then (w', PFail)
          else (mkpw (pw_lists w') (pw_sets w' ++ [mkds l' (pl_filters l') (pl_fill l')]), PDone)
      | None => (w, PFail)
      end
  | DOther p ext => match nth_error (pw_lists w) p with
                    | Some l => (w, if plain_ok l ext then PDone else PFail)
                    | None => (w, PFail)
                    end
  | DGet d => match nth_error (pw_sets w) d with
              | Some s => (mkpw (pw_lists w ++ [ds_list s]) (pw_sets w), PDone)
              | None => (w, PFail)
              end
  | Reopen => (mkpw (pw_lists w) (map (fun s => let l := on_disk (ds_list s) in mkds l (pl_filters l) (pl_fill l)) (pw_sets w)), PDone)
  end.

(** A program (driver of the model; src/H5VL_log_dataset.cpp:54-240). *)
Fixpoint pexecs (w : pworld) (cs : list pcall) : pworld * list panswer :=
  match cs with
  | [] => (w, [])
  | c :: rest => let '(w1, a) := pexec w c in let '(w2, l) := pexecs w1 rest in (w2, a :: l)
  end.
(** No list, no dataset (src/H5VL_log_filei.cpp:201-291). *)
Definition pworld0 : pworld := mkpw [] [].
