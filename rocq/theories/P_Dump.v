(** Properties of the h5ldump utility (C56, C57, C58).

    [log_of np ops] (DumpSpec.v) is the log that the calls of a history produce: which writes are in
    which metadata dataset and where their data is placed.  [show] says what is to be listed of a
    write; [listed] reads an entry of the listing. *)
From Coq Require Import Ascii String.
From Verif Require Import Base Spec MetaModel QueueModel FlushModel IndexModel ReadModel SysModel
  SysSpec History SysCheck Examples ClaimProofs2 DefSpec DumpModel DumpSpec DumpRun DumpClaims.

(** ** C56 The listing shows exactly the writes of the log *)
(** Every legal history of reasonable sizes, in every index and buffer setting: the listing of the
    resulting file, with data or without, consists of the writes issued, each once, in the section of
    the process that issued it, in program order, with its blocks and its bytes.  Selections stored as
    coordinates and not shared, or a history that avoids the defects of encoding and sharing
    ([array_history], DefSpec.v).  Missing: those histories, merging, filters, subfiles. *)
Theorem C56_dump_lists_the_writes_partial : forall e cfg np f0 ops s outs withdata, e_coll e = true -> plain_cfg cfg ->
  legal_history true np ops -> sized_history true np ops ->
  ((has cfg CFG_SEL_ENCODE = false /\ has cfg CFG_METADATA_SHARE = false) \/ array_history np ops) ->
  run e (init cfg np f0) ops = Ok (s, outs) ->
  exists d, dump_file (e_zlib e) withdata (s_g s) = Ok d /\
    map (map (map listed)) d =
    map (map (map (show withdata (t_sets (trace_of true np ops))))) (ls_md (log_of np ops)).
Proof. exact dump_all. Qed.
Print Assumptions C56_dump_lists_the_writes_partial.
(** Default settings, two processes, shared selections, an extended dataset, closed twice. *)
Example C56_dump_applies : legal_history true 2 h_dump /\ sized_history true 2 h_dump /\ array_history 2 h_dump /\ plain_cfg cfg_dflt /\
  (exists s outs, run e_dflt (init cfg_dflt 2 f_zero) h_dump = Ok (s, outs)) /\
  map (map (@List.length logged)) (ls_md (log_of 2 h_dump)) = [[3; 3]; [0; 1]; [0; 0; 1]]%nat.
Proof. exact dump_ex. Qed.
(** Default settings, the same two blocks written to datasets of different element sizes: the listing
    shows wrong data. *)
Theorem C56_dump_shared_esize_refuted : exists cfg np ops s outs d, plain_cfg cfg /\ legal_history true np ops /\ sized_history true np ops /\
  run e_dflt (init cfg np f_zero) ops = Ok (s, outs) /\ dump_file (e_zlib e_dflt) true (s_g s) = Ok d /\
  map (map (map listed)) d <> map (map (map (show true (t_sets (trace_of true np ops))))) (ls_md (log_of np ops)).
Proof. exact dump_esize_wrong. Qed.
Print Assumptions C56_dump_shared_esize_refuted.
(** Default settings, a two-block write with a block as wide as the dataset: the utility aborts. *)
Theorem C56_dump_wide_refuted : exists cfg np ops s outs, plain_cfg cfg /\ legal_history true np ops /\ sized_history true np ops /\
  run e_dflt (init cfg np f_zero) ops = Ok (s, outs) /\ dump_file (e_zlib e_dflt) true (s_g s) = Err.
Proof. exact dump_wide_aborts. Qed.
Print Assumptions C56_dump_wide_refuted.
(** A dataset whose name starts with a single underscore is skipped by the visit: its entries are
    decoded with a table slot that was never filled in. *)
Theorem C56_dump_hidden_name_refuted : exists ops s outs, legal_history true 2 ops /\ run e_dflt (init cfg_dflt 2 f_zero) ops = Ok (s, outs) /\
  (exists d, dump_file (e_zlib e_dflt) true (s_g s) = Ok d) /\ dump_file (e_zlib e_dflt) true (hidden 0 (s_g s)) = UB.
Proof. exact dump_hidden. Qed.
Print Assumptions C56_dump_hidden_name_refuted.

(** ** C57 Every element of a block is printed, once *)
(** Integers and unknown types of any size, floats of 4 and 8 bytes, strings of length 1: the values
    printed cover exactly the bytes of the block, one per element or one per byte. *)
Theorem C57_all_elements_printed_partial : forall c nelem esize, 0 <= nelem -> 0 < esize ->
  match c with TInt _ | TOther => True | TFloat => esize = 4 \/ esize = 8 | TString => esize = 1 end ->
  let p := print_plan c nelem esize in
  fst p * snd p = nelem * esize /\ (p = (nelem, esize) \/ p = (nelem * esize, 1)).
Proof. exact print_exact. Qed.
Print Assumptions C57_all_elements_printed_partial.
Example C57_applies : print_plan (TInt true) 6 4 = (6, 4) /\ print_plan (TInt false) 6 16 = (96, 1) /\ print_plan TOther 3 12 = (36, 1).
Proof. repeat split. Qed.
(** Strings of more than one character: only the first bytes of the block are printed. *)
Theorem C57_strings_refuted : forall nelem esize, 0 < nelem -> 1 < esize ->
  let p := print_plan TString nelem esize in fst p * snd p < nelem * esize.
Proof. exact print_short. Qed.
Print Assumptions C57_strings_refuted.
(** Floats of other sizes: beyond the block (2-byte floats), or only part of it (16-byte floats). *)
Theorem C57_floats_refuted : forall nelem esize, 0 < nelem -> 0 < esize -> esize <> 4 -> esize <> 8 ->
  let p := print_plan TFloat nelem esize in
  (esize < 8 -> nelem * esize < fst p * snd p) /\ (8 < esize -> fst p * snd p < nelem * esize).
Proof. exact print_floats. Qed.
Print Assumptions C57_floats_refuted.

(** ** C58 The kind of a file *)
Theorem C58_kind_hdf5_partial : forall r a, file_kind (Some (hdf5_sig ++ r)) a =
  (if has_log_attr a then "HDF5-LogVOL" else if has_nc_attr a then "NetCDF-4" else "HDF5")%string.
Proof. exact kind_hdf5. Qed.
Print Assumptions C58_kind_hdf5_partial.
Theorem C58_kind_unknown_partial : forall c a, ~ (exists r, c = hdf5_sig ++ r) -> ~ (exists r, c = cdf_sig ++ r) -> file_kind (Some c) a = "unknown"%string.
Proof. exact kind_unknown. Qed.
Print Assumptions C58_kind_unknown_partial.
Example C58_unknown_applies : file_kind (Some [137; 72; 68]) (mkha true true) = "unknown"%string /\ file_kind (Some []) (mkha false false) = "unknown"%string.
Proof. split; reflexivity. Qed.
Theorem C58_kind_offset_partial : forall r a, file_kind (Some (cdf_sig ++ 2 :: r)) a = "NetCDF 64-bit offset"%string.
Proof. exact (kind_cdf 2). Qed.
Print Assumptions C58_kind_offset_partial.
(** The classic format has version 1 and the 64-bit data format version 5; the utility prints them
    the other way round, for every file. *)
Theorem C58_kind_netcdf_refuted : forall r a,
  file_kind (Some (cdf_sig ++ 1 :: r)) a = "NetCDF 64-bit data"%string /\
  file_kind (Some (cdf_sig ++ 5 :: r)) a = "NetCDF classic"%string.
Proof. exact (fun r a => conj (kind_cdf 1 r a) (kind_cdf 5 r a)). Qed.
Print Assumptions C58_kind_netcdf_refuted.
