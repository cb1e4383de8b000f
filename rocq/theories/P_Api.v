(** Calls as the application makes them, with dataspaces, memory types and buffers: C01 (API level),
    C51 and C52 (type conversion). *)
From Verif Require Import Base Spec MetaModel QueueModel FlushModel IndexModel ReadModel SelModel SelSpec SysModel
  SysSpec History HistoryProofs DefSpec TameSpec Examples SelExamples ApiModel ApiSpec ApiSim ApiClaims TameMoreClaims.

(** ** C01 at the level of H5Dwrite and H5Dread

    [us] is any legal sequence of calls of any number of processes: H5Dcreate, H5Dset_extent, H5Dwrite,
    H5Fflush, H5Dread, H5Fclose and H5Fopen, with any selections in file and memory and any convertible
    types.  No call fails, and after each read every selected element of the user's memory is
    the (converted) value given last to the element of the dataset it goes with, or the fill value;
    no other byte of the user's memory changes.  Here for files without selection encoding and
    metadata sharing. *)
Theorem C01_api_partial : forall e order cfg np f0 us,
  e_coll e = true -> e_limit e = None -> is_sort (e_sort e) -> is_order order -> plain_cfg cfg ->
  has cfg CFG_SEL_ENCODE = false -> has cfg CFG_METADATA_SHARE = false ->
  legal_program order np us ->
  exists s mems, arun e order (init cfg np f0) (map call_of us) = Ok (s, mems) /\ length mems = length us /\
    forall i doff l, nth_error us i = Some (URead doff l) ->
      exists ms, nth_error mems i = Some ms /\
        let t := utrace np (firstn i us) in
        Forall2 (fun ap m => correct_memory (t_sets t) (publish t) (fst ap) (snd ap) m) l ms.
Proof. exact api_reads. Qed.
Print Assumptions C01_api_partial.
(** A selection of an irregular shape written from points of an array of wider integers by one of two
    processes, read back in two ways, and once more after reopening. *)
Example C01_api_applies : legal_program iorder 2 u_ex /\ is_order iorder /\ is_sort isort /\ plain_cfg 0.
Proof. exact (conj u_ex_legal (conj iorder_is_order (conj isort_is_sort (conj (conj (Z.le_refl 0) eq_refl) eq_refl)))). Qed.
Example C01_api_example : forall f0, exists s mems m1 m2 m3, arun e_dflt iorder (init 0 2 f0) (map call_of u_ex) = Ok (s, mems) /\
  nth_error mems 3 = Some [m1; m2] /\ nth_error mems 5 = Some [m3] /\
  get m1 (2000 + 4 * 19) 4 = get um (1000 + 4 * 28) 2 ++ [0; 0] /\ get m1 (2000 + 4 * 23) 4 = [9; 9; 0; 0] /\
  get m2 (3000 + 2 * 28) 2 = get um (1000 + 4 * 28) 2 /\ get m3 (3000 + 2 * 28) 2 = get um (1000 + 4 * 28) 2 /\
  m3 (3000 + 2 * 27) = um (3000 + 2 * 27).
Proof. exact u_ex_says. Qed.

(** The same for every configuration, under the restrictions of [ok_history] (SysSpec.v) on the
    operations that the calls amount to. *)
Theorem C01_api_any_partial : forall e order cfg cv np f0 us, e_coll e = true -> is_order order -> legal_program order np us ->
  exists ops, operations order np us = Ok ops /\ (ok_history e cfg cv np ops ->
    exists s mems, arun e order (init cfg np f0) (map call_of us) = Ok (s, mems) /\ length mems = length us /\
      forall i doff l, nth_error us i = Some (URead doff l) ->
        exists ms, nth_error mems i = Some ms /\
          let t := utrace np (firstn i us) in
          Forall2 (fun ap m => correct_memory (t_sets t) (publish t) (fst ap) (snd ap) m) l ms).
Proof. exact api_reads_any. Qed.
Print Assumptions C01_api_any_partial.
Example C01_api_any_applies : exists ops, operations iorder 2 u_ex = Ok ops /\
  ok_history e_dflt cfg_dflt (mkconv (fun _ _ => false) (fun _ => 2)) 2 ops.
Proof. exact u_ex_default. Qed.

(** With the default settings (encoded selections, shared metadata, compact index, and any other plain
    configuration), for programs whose writes are as described in DefSpec.v. *)
Theorem C01_api_default_partial : forall e order cfg np f0 us,
  e_coll e = true -> e_limit e = None -> is_sort (e_sort e) -> e_kind e = KCompact -> is_order order -> plain_cfg cfg ->
  legal_program order np us ->
  exists ops, operations order np us = Ok ops /\ (default_history np ops ->
    exists s mems, arun e order (init cfg np f0) (map call_of us) = Ok (s, mems) /\ length mems = length us /\
      forall i doff l, nth_error us i = Some (URead doff l) ->
        exists ms, nth_error mems i = Some ms /\
          let t := utrace np (firstn i us) in
          Forall2 (fun ap m => correct_memory (t_sets t) (publish t) (fst ap) (snd ap) m) l ms).
Proof. exact api_reads_default. Qed.
Print Assumptions C01_api_default_partial.
Example C01_api_default_applies : exists ops, operations iorder 2 u_ex = Ok ops /\ default_history 2 ops.
Proof. exact u_ex_default2. Qed.

(** Also with the array index, and with a limited metadata buffer: programs that amount to tame histories
    (TameSpec.v). *)
Theorem C01_api_tame_partial : forall e order cfg np f0 us, is_order order -> legal_program order np us ->
  exists ops, operations order np us = Ok ops /\ (tame e cfg np ops ->
    exists s mems, arun e order (init cfg np f0) (map call_of us) = Ok (s, mems) /\ length mems = length us /\
      forall i doff l, nth_error us i = Some (URead doff l) ->
        exists ms, nth_error mems i = Some ms /\
          let t := utrace np (firstn i us) in
          Forall2 (fun ap m => correct_memory (t_sets t) (publish t) (fst ap) (snd ap) m) l ms).
Proof. exact api_reads_tame. Qed.
Print Assumptions C01_api_tame_partial.
Example C01_api_tame_applies : exists ops, operations iorder 2 u_ex = Ok ops /\ tame e_dflt cfg_dflt 2 ops /\ tame e_small cfg_dflt 2 ops /\ tame e_arr 4 2 ops.
Proof. exact u_ex_tame. Qed.

(** ** C51 Type conversion on write

    The write is the write of the converted elements, each to its coordinate.  Missing: compound types
    whose conversion keeps members of the stored element (refuted below). *)
Theorem C51_write_converts_partial : forall e order s rk a ps d, is_order order ->
  info_at (g_infos (s_g s)) (ac_did a) = Some (Some d) ->
  0 < di_esize d -> fits_int (di_dims d) -> memory_fits a -> layout d a ps -> can_write d (ac_type a) ->
  exists sels data, sel_coords sels = map fst ps /\
    elems (di_esize d) data = map (fun p => out_of (ac_type a) (get (ac_mem a) (snd p) (Z.to_nat (mt_size (ac_type a))))) ps /\
    astep e order s (AWrite rk a) = do p <- step e s (OWrite rk (ac_did a) sels data); Ok (fst p, []).
Proof. exact write_converts. Qed.
Print Assumptions C51_write_converts_partial.
Example C51_applies : layout dI w_wide w_wide_ps /\ can_write dI t_wide.
Proof. exact (conj (irr_pts_layout t_wide 1000 um 5000 junk 0 dI eq_refl) (wide_write dI eq_refl)). Qed.

(** A write for which HDF5 has no conversion is not refused: it does what the write of the same bytes
    with the dataset's own type does. *)
Theorem C51_no_conversion_refuted : forall e order s rk a ps d, is_order order ->
  info_at (g_infos (s_g s)) (ac_did a) = Some (Some d) ->
  0 < di_esize d -> fits_int (di_dims d) -> memory_fits a -> layout d a ps ->
  mt_same (ac_type a) = false -> mt_out (ac_type a) = None -> mt_size (ac_type a) = di_esize d ->
  astep e order s (AWrite rk a) = astep e order s (AWrite rk (raw a)).
Proof. exact no_conversion. Qed.
Print Assumptions C51_no_conversion_refuted.
Example C51_no_conversion_example : first_memory (arun e_dflt iorder (init cfg_dflt 1 f_zero) x_calls) 2 6 = Some [1;2;3;4;5;6].
Proof. exact text_stored. Qed.

(** Elements (1,2) (3,4) (5,6) are stored, then their first members are set to 7, 8, 9.  The second
    members become whatever malloc returned (77 here). *)
Theorem C51_compound_refuted : first_memory (arun e_dflt iorder (init cfg_dflt 1 f_zero) c_calls) 4 6 = Some [7;77;8;77;9;77].
Proof. exact compound_junk. Qed.
Print Assumptions C51_compound_refuted.

(** ** C52 Type conversion on read

    That reads deliver converted values to their places is part of C01_api_partial; the excluded
    cases ([can_read]) never succeed.  First: a memory type larger than the dataset's with a
    memory selection. *)
Theorem C52_larger_type_refuted : forall e order s doff a ps d, is_order order ->
  info_at (g_infos (s_g s)) (ac_did a) = Some (Some d) ->
  0 < di_esize d -> fits_int (di_dims d) -> memory_fits a -> layout d a ps -> ps <> [] -> NoDup (map snd ps) ->
  selective a = true -> mt_same (ac_type a) = false -> mt_comp (ac_type a) = false -> di_esize d < mt_size (ac_type a) ->
  forall r, astep e order s (ARead doff [a]) <> Ok r.
Proof. exact larger_fails. Qed.
Print Assumptions C52_larger_type_refuted.
Example C52_larger_applies : exists s outs, arun e_dflt iorder (init 0 2 f_zero) (map call_of (firstn 3 u_ex)) = Ok (s, outs) /\
  info_at (g_infos (s_g s)) 0 = Some (Some dI) /\ layout dI r_wide_pts r_wide_pts_ps /\ NoDup (map snd r_wide_pts_ps) /\
  memory_fits r_wide_pts /\ fits_int (di_dims dI) /\
  selective r_wide_pts = true /\ mt_comp t_wide = false /\ mt_same t_wide = false /\ di_esize dI < mt_size t_wide /\ r_wide_pts_ps <> [].
Proof. exact wide_pts_applies. Qed.

(** Second: a compound type that needs a conversion. *)
Theorem C52_compound_refuted : forall e order s doff a ps d, is_order order ->
  info_at (g_infos (s_g s)) (ac_did a) = Some (Some d) ->
  fits_int (di_dims d) -> memory_fits a -> layout d a ps ->
  mt_same (ac_type a) = false -> mt_comp (ac_type a) = true ->
  forall r, astep e order s (ARead doff [a]) <> Ok r.
Proof. exact compound_fails. Qed.
Print Assumptions C52_compound_refuted.
Example C52_compound_applies : mt_same t_first = false /\ mt_comp t_first = true /\ fits_int (di_dims dC) /\
  layout dC (mkac 0 t_first SAll FAll 0 f_zero 5000 junk) [([0], 0); ([1], 1); ([2], 2)].
Proof. exact first_layout. Qed.

(** What is proved of C52 by itself: after any legal program, a read with a conversion delivers the
    converted values. *)
Theorem C52_read_converts_partial : forall e order cfg np f0 us doff a ps d x p v,
  e_coll e = true -> e_limit e = None -> is_sort (e_sort e) -> is_order order -> plain_cfg cfg ->
  has cfg CFG_SEL_ENCODE = false -> has cfg CFG_METADATA_SHARE = false ->
  legal_program order np (us ++ [URead doff [(a, ps)]]) ->
  let t := utrace np us in
  dataset_of t (ac_did a) d -> In (x, p) ps ->
  match last_assigned (ac_did a) x (publish t) with Some w => Some w | None => di_fill d end = Some v ->
  exists s mems m, arun e order (init cfg np f0) (map call_of (us ++ [URead doff [(a, ps)]])) = Ok (s, mems ++ [[m]]) /\
    get m p (Z.to_nat (mt_size (ac_type a))) = in_of (ac_type a) v.
Proof. exact read_converts. Qed.
Print Assumptions C52_read_converts_partial.
