(** Properties of settings and property lists. *)
From Verif Require Import Base CfgModel CfgSpec CfgProofs CfgClaims.
Local Open Scope string_scope.

(** ** C28 Set then get

    After any sequence of setter calls on a property list, a getter returns the value last set by a
    successful call, or the default.  For the seven properties whose setter works; a call for a
    property of another class of lists fails and changes nothing. *)
Theorem C28_get_after_set_partial : forall l ops, none_of_ours l -> sets_ok ops ->
  exists l1, run_sets ops l = Ok l1 /\
    (forall p, In p working -> get_prop p l1 = if p_strict p && negb (class_eqb (pl_class l) (p_class p)) then Err else Ok (expected p (pl_class l) ops)) /\
    (forall p, In p all_props -> ~ In p working -> get_prop p l1 = Ok (p_default p)) /\ pl_class l1 = pl_class l.
Proof. exact get_after_sets. Qed.
Print Assumptions C28_get_after_set_partial.
Example C28_applies : none_of_ours (mkpl FAPL []) /\ sets_ok fops_ex /\ map (fun p => expected p FAPL fops_ex) [P_meta_share; P_meta_zip; P_passthru] = [0; 1; 0]%Z.
Proof. exact (conj fresh_fapl (conj (proj1 sets_ex) eq_refl)). Qed.
(** Three setters do nothing, and the setter for the encoding reads out of bounds. *)
Theorem C28_lost_refuted : forall p, In p [P_nb_buffer_size; P_idx_buffer_size; P_meta_merge] -> forall v l, set_prop p v l = Ok l.
Proof. exact setters_without_effect. Qed.
Print Assumptions C28_lost_refuted.
Theorem C28_value_refuted : exists l, set_prop P_meta_merge 1 (mkpl FAPL []) = Ok l /\ get_prop P_meta_merge l = Ok 0%Z.
Proof. exact setter_lost. Qed.
Print Assumptions C28_value_refuted.
Theorem C28_encoding_refuted : forall v, set_prop P_sel_encoding v (mkpl FAPL []) = UB.
Proof. exact encoding_overruns. Qed.
Print Assumptions C28_encoding_refuted.

(** ** C27 Settings

    Bit by bit, the settings of a new file are those asked for by the property lists (made by any
    calls on lists of the right class) and the environment, the environment having precedence; the
    other settings taken from the environment too.  The variable for the data layout must not be
    set. *)
Theorem C27_create_partial : forall ev f0 c0 fops cops fapl fcpl, none_of_ours f0 -> none_of_ours c0 -> pl_class f0 = FAPL -> pl_class c0 = FCPL ->
  sets_ok fops -> sets_ok cops -> run_sets fops f0 = Ok fapl -> run_sets cops c0 = Ok fcpl -> numbers_ok ev -> ev "H5VL_LOG_DATA_LAYOUT" = None ->
  exists c, cfg_create ev fapl fcpl = Ok c /\ (forall k, (0 <= k)%Z -> Z.testbit (c_bits c) k = wanted ev fops cops k) /\
    c_mbuf c = match ev "H5VL_LOG_IDX_BSIZE" with Some s => ato s | None => (-1)%Z end /\
    c_index c = match ev "H5VL_LOG_INDEX_TYPE" with Some s => if is "compact" s then IdxCompact else IdxList | None => IdxCompact end /\
    c_ngroup c = subfiles (ev "H5VL_LOG_NSUBFILES") (expected P_subfiling FCPL cops).
Proof. exact create_bits. Qed.
Print Assumptions C27_create_partial.
Example C27_applies : numbers_ok ev_ex /\ sets_ok fops_ex /\ sets_ok cops_ex /\
  exists fapl fcpl c, run_sets fops_ex (mkpl FAPL []) = Ok fapl /\ run_sets cops_ex (mkpl FCPL []) = Ok fcpl /\
  cfg_create ev_ex fapl fcpl = Ok c /\ c_bits c = (M_DEFLATE + M_PASSTHRU + M_SUBFILING)%Z /\ c_ngroup c = 3%Z.
Proof. exact (conj numbers_ex (conj (proj1 sets_ex) (conj (proj2 sets_ex) create_ex))). Qed.
(** The settings a file was created with are the ones used when it is opened again. *)
Theorem C27_settings_kept : forall c c1 att ev fapl c2, post_create c = Ok (c1, att) -> cfg_open ev fapl att = Ok c2 -> c_bits c2 = c_bits c1 /\ c_bits c1 = c_bits c.
Proof. exact reopen_bits. Qed.
Print Assumptions C27_settings_kept.
(** The creation property list of a file with subfiles reports their number. *)
Theorem C27_subfiles_reported : forall c, fits P_subfiling (c_ngroup c) -> has (c_bits c) M_SUBFILING = true ->
  exists l, file_get_fcpl c = Ok l /\ get_prop P_subfiling l = Ok (c_ngroup c).
Proof. exact create_list_right. Qed.
Print Assumptions C27_subfiles_reported.

(** What does not hold.  The variable for the data layout means the opposite. *)
Theorem C27_layout_refuted : exists c1 c2, cfg_create (one_env "H5VL_LOG_DATA_LAYOUT" "align") (mkpl FAPL []) (mkpl FCPL []) = Ok c1 /\ has (c_bits c1) M_ALIGN = false /\
  cfg_create (one_env "H5VL_LOG_DATA_LAYOUT" "contig") (mkpl FAPL []) (mkpl FCPL []) = Ok c2 /\ has (c_bits c2) M_ALIGN = true.
Proof. exact layout_inverted. Qed.
Print Assumptions C27_layout_refuted.
(** The aligned layout asks for the striping of a file not opened yet. *)
Theorem C27_aligned_refuted : exists fcpl c, set_prop P_data_layout 1 (mkpl FCPL []) = Ok fcpl /\ cfg_create no_env (mkpl FAPL []) fcpl = Ok c /\ post_create c = UB.
Proof. exact aligned_undefined. Qed.
Print Assumptions C27_aligned_refuted.
(** Settings given when a file is opened are ignored. *)
Theorem C27_open_refuted : exists c c1 att c2, cfg_create no_env (mkpl FAPL []) (mkpl FCPL []) = Ok c /\ post_create c = Ok (c1, att) /\
  cfg_open (one_env "H5VL_LOG_PASSTHRU" "1") (mkpl FAPL []) att = Ok c2 /\ has (c_bits c2) M_PASSTHRU = false.
Proof. exact open_ignored. Qed.
Print Assumptions C27_open_refuted.
(** The property for reading single subfiles is accepted on one kind of list and looked for on
    another. *)
Theorem C27_single_read_refuted : exists fcpl c, set_prop P_single_subfile_read 1 (mkpl FCPL []) = Ok fcpl /\ cfg_create no_env (mkpl FAPL []) fcpl = Ok c /\ has (c_bits c) M_SINGLE = false.
Proof. exact single_read_ignored. Qed.
Print Assumptions C27_single_read_refuted.
(** The access property list of a file does not tell that sharing is off, and with the default
    settings cannot be made. *)
Theorem C27_access_list_refuted : exists fapl c l, run_sets [(P_meta_share, 0%Z)] (mkpl FAPL []) = Ok fapl /\
  cfg_create (one_env "H5VL_LOG_SEL_ENCODING" "canonical") fapl (mkpl FCPL []) = Ok c /\ has (c_bits c) M_SHARE = false /\
  file_get_fapl c = Ok l /\ get_prop P_meta_share l = Ok 1%Z.
Proof. exact access_list_wrong. Qed.
Print Assumptions C27_access_list_refuted.
Theorem C27_access_list_default_refuted : exists c, cfg_create no_env (mkpl FAPL []) (mkpl FCPL []) = Ok c /\ file_get_fapl c = UB.
Proof. exact access_list_undefined. Qed.
Print Assumptions C27_access_list_default_refuted.
