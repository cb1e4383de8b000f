(** Claims about property lists and settings. *)
From Verif Require Import Base BaseProofs CfgModel CfgSpec CfgProofs.
From Coq Require Import ZifyNat.

Lemma wants : forall ev l v m j, m = 2 ^ j -> 0 <= j -> Z.testbit l j = false -> forall k, 0 <= k -> Z.testbit (by_bool m v ev l) k = if k =? j then asked ev (is "1") v else Z.testbit l k.
Proof. intros ev l v m j -> Hj H k Hk. apply bit_by_bool; auto. Qed.

Lemma create_bits : forall ev f0 c0 fops cops fapl fcpl, none_of_ours f0 -> none_of_ours c0 -> pl_class f0 = FAPL -> pl_class c0 = FCPL ->
  sets_ok fops -> sets_ok cops -> run_sets fops f0 = Ok fapl -> run_sets cops c0 = Ok fcpl -> numbers_ok ev -> ev "H5VL_LOG_DATA_LAYOUT"%string = None ->
  exists c, cfg_create ev fapl fcpl = Ok c /\ (forall k, 0 <= k -> Z.testbit (c_bits c) k = wanted ev fops cops k) /\
    c_mbuf c = match ev "H5VL_LOG_IDX_BSIZE"%string with Some s => ato s | None => -1 end /\
    c_index c = match ev "H5VL_LOG_INDEX_TYPE"%string with Some s => if is "compact" s then IdxCompact else IdxList | None => IdxCompact end /\
    c_ngroup c = subfiles (ev "H5VL_LOG_NSUBFILES"%string) (expected P_subfiling FCPL cops).
Proof.
  intros ev f0 c0 fops cops fapl fcpl Hf Hc Cf Cc Of Oc Rf Rc [N1 N2] EL.
  destruct (get_after_sets f0 fops Hf Of) as (l1 & R & G1 & G2 & _). rewrite Rf in R. injection R as <-.
  destruct (get_after_sets c0 cops Hc Oc) as (l2 & R & K1 & K2 & _). rewrite Rc in R. injection R as <-. rewrite Cf in G1. rewrite Cc in K1.
  assert (W : forall p, In p working -> In p working) by auto.
  unfold cfg_create, parse_fapl.
  rewrite (G2 P_meta_merge), (G1 P_meta_share), (G1 P_meta_zip), (G2 P_sel_encoding), (G2 P_idx_buffer_size), (G1 P_single_subfile_read), (G1 P_passthru)
    by (cbn; auto 12; intros D; repeat destruct D as [D|D]; try discriminate D; auto). cbn [bind andb p_strict class_eqb p_class P_passthru P_meta_share P_meta_zip P_single_subfile_read negb].
  assert (M : exists mb, match ev "H5VL_LOG_IDX_BSIZE"%string with None => Ok (p_default P_idx_buffer_size) | Some s => in_bits 64 (ato s) end = Ok mb /\
    mb = match ev "H5VL_LOG_IDX_BSIZE"%string with Some s => ato s | None => -1 end).
  { destruct (ev "H5VL_LOG_IDX_BSIZE"%string) as [s|]; [|eexists; split; reflexivity]. specialize (N1 s eq_refl). unfold in_bits. replace ((- 2 ^ (64 - 1) <=? ato s) && (ato s <? 2 ^ (64 - 1))) with true; [eauto|]. symmetry. apply andb_true_intro. rewrite Z.leb_le, Z.ltb_lt. exact N1. }
  destruct M as (mb & M1 & M2). rewrite M1. cbn [bind].
  unfold parse_fcpl. rewrite (K1 P_data_layout), (K1 P_subfiling), EL by (cbn; auto 12). cbn [bind andb p_strict class_eqb p_class P_data_layout P_subfiling negb c_bits c_mbuf c_index].
  assert (NG : match ev "H5VL_LOG_NSUBFILES"%string with Some EmptyString => Ok (-1) | Some s => in_bits 32 (ato s) | None => Ok (expected P_subfiling FCPL cops) end
               = Ok (subfiles (ev "H5VL_LOG_NSUBFILES"%string) (expected P_subfiling FCPL cops))).
  { unfold subfiles. destruct (ev "H5VL_LOG_NSUBFILES"%string) as [s|] eqn:E; [|reflexivity]. specialize (N2 s eq_refl). destruct s as [|a s]; [reflexivity|].
    unfold in_bits. replace ((- 2 ^ (32 - 1) <=? ato (String a s)) && (ato (String a s) <? 2 ^ (32 - 1))) with true; [auto|]. symmetry. apply andb_true_intro. rewrite Z.leb_le, Z.ltb_lt. exact N2. }
  rewrite NG. cbn [bind]. eexists. split; [reflexivity|]. cbn [c_bits c_mbuf c_index c_ngroup]. split; [|split; [auto|split; [|auto]]].
  2:{ destruct (ev "H5VL_LOG_INDEX_TYPE"%string) as [s|]; [unfold is|]; auto. }
  clear M1 M2 NG EL N1 N2. intros k Hk. unfold wanted.
  set (sf := subfiles _ _). set (ex1 := expected P_meta_share FAPL fops). set (ex2 := expected P_meta_zip FAPL fops). set (ex3 := expected P_single_subfile_read FAPL fops). set (ex4 := expected P_passthru FAPL fops).
  set (ex5 := expected P_data_layout FCPL cops).
  change (p_default P_meta_merge) with 0. change (p_default P_sel_encoding) with 0. assert (E3 : ex3 = 0) by (unfold ex3, expected; reflexivity). rewrite E3.
  cbv zeta. change (0 =? 0) with true. cbv iota.
  change M_MERGE with (2 ^ 0). change M_ENCODE with (2 ^ 1). change M_DEFLATE with (2 ^ 2). change M_SHARE with (2 ^ 3). change M_PASSTHRU with (2 ^ 4). change M_ALIGN with (2 ^ 8). change M_SUBFILING with (2 ^ 9). change M_SINGLE with (2 ^ 10).
  (* bit by bit *)
  set (b1 := by_bool (2 ^ 0) 0 _ _). assert (B1 : forall k, 0 <= k -> Z.testbit b1 k = if k =? 0 then asked (ev "H5VL_LOG_METADATA_MERGE"%string) (is "1") 0 else false).
  { intros j Hj. unfold b1. rewrite bit_by_bool by (auto; lia). destruct (j =? 0); auto. apply Z.testbit_0_l. }
  set (b2 := by_bool (2 ^ 3) _ _ b1). assert (B2 : forall k, 0 <= k -> Z.testbit b2 k = if k =? 3 then asked (ev "H5VL_LOG_METADATA_SHARE"%string) (is "1") ex1 else Z.testbit b1 k).
  { intros j Hj. apply bit_by_bool; try lia. rewrite B1 by lia. reflexivity. }
  set (b3 := by_bool (2 ^ 2) _ _ b2). assert (B3 : forall k, 0 <= k -> Z.testbit b3 k = if k =? 2 then asked (ev "H5VL_LOG_METADATA_ZIP"%string) (is "1") ex2 else Z.testbit b2 k).
  { intros j Hj. apply bit_by_bool; try lia. rewrite B2, B1 by lia. reflexivity. }
  set (b4 := match ev "H5VL_LOG_SEL_ENCODING"%string with None => _ | Some _ => _ end).
  assert (B4 : forall k, 0 <= k -> Z.testbit b4 k = if k =? 1 then asked (ev "H5VL_LOG_SEL_ENCODING"%string) (fun s => negb (is "canonical" s)) 1 else Z.testbit b3 k).
  { intros j Hj. unfold b4, asked, is. destruct (ev "H5VL_LOG_SEL_ENCODING"%string) as [s|]; [destruct (String.eqb s "canonical")|]; rewrite ?bit_set, ?bit_clear, ?bit_set by lia; destruct (j =? 1); reflexivity. }
  set (b5 := by_bool (2 ^ 10) _ _ b4). assert (B5 : forall k, 0 <= k -> Z.testbit b5 k = if k =? 10 then asked (ev "H5VL_LOG_SINGLE_SUBFILE_READ"%string) (is "1") 0 else Z.testbit b4 k).
  { intros j Hj. apply bit_by_bool; try lia. rewrite B4, B3, B2, B1 by lia. reflexivity. }
  set (b6 := by_bool (2 ^ 4) _ _ b5). assert (B6 : forall k, 0 <= k -> Z.testbit b6 k = if k =? 4 then asked (ev "H5VL_LOG_PASSTHRU"%string) (is "1") ex4 else Z.testbit b5 k).
  { intros j Hj. apply bit_by_bool; try lia. rewrite B5, B4, B3, B2, B1 by lia. reflexivity. }
  assert (B7 : forall k, 0 <= k -> Z.testbit (if ex5 =? 1 then set_bit (2 ^ 8) b6 else b6) k = if k =? 8 then ex5 =? 1 else Z.testbit b6 k).
  { intros j Hj. destruct (ex5 =? 1); rewrite ?bit_set by lia; destruct (Z.eqb_spec j 8); subst; auto. rewrite B6, B5, B4, B3, B2, B1 by lia. reflexivity. }
  assert (B8 : Z.testbit (if sf =? 0 then if ex5 =? 1 then set_bit (2 ^ 8) b6 else b6 else set_bit (2 ^ 9) (if ex5 =? 1 then set_bit (2 ^ 8) b6 else b6)) k
    = if k =? 9 then negb (sf =? 0) else Z.testbit (if ex5 =? 1 then set_bit (2 ^ 8) b6 else b6) k).
  { destruct (sf =? 0); rewrite ?bit_set by lia; destruct (Z.eqb_spec k 9); subst; auto. rewrite B7, B6, B5, B4, B3, B2, B1 by lia. reflexivity. }
  rewrite B8, B7, B6, B5, B4, B3, B2, B1 by auto. clear.
  destruct (Z.eqb_spec k 9); [subst; reflexivity|]. destruct (Z.eqb_spec k 8); [subst; reflexivity|]. destruct (Z.eqb_spec k 4); [subst; reflexivity|]. destruct (Z.eqb_spec k 10); [subst; reflexivity|].
  destruct (Z.eqb_spec k 1); [subst; reflexivity|]. destruct (Z.eqb_spec k 2); [subst; reflexivity|]. destruct (Z.eqb_spec k 3); [subst; reflexivity|]. destruct (Z.eqb_spec k 0); reflexivity.
Qed.

(** The settings of a file survive closing and opening it, whatever the settings at opening. *)
Lemma reopen_bits : forall c c1 att ev fapl c2, post_create c = Ok (c1, att) -> cfg_open ev fapl att = Ok c2 -> c_bits c2 = c_bits c1 /\ c_bits c1 = c_bits c.
Proof.
  intros c c1 att ev fapl c2 H1 H2. unfold post_create in H1. destruct (has (c_bits c) M_ALIGN) eqn:E; [discriminate|]. injection H1 as <- <-. unfold cfg_open in H2.
  destruct (parse_fapl ev fapl cfg0); try discriminate. cbn in H2. injection H2 as <-. cbn [c_bits]. split; [reflexivity|]. destruct (has (c_bits c) M_SUBFILING); [|reflexivity].
  unfold has in E. apply negb_false_iff, Z.eqb_eq in E. unfold clear_bit. apply Z.bits_inj'. intros k Hk. rewrite Z.land_spec, Z.lnot_spec by auto.
  assert (Z.testbit (Z.land (c_bits c) M_ALIGN) k = false) by (rewrite E; apply Z.testbit_0_l). rewrite Z.land_spec in H. destruct (Z.testbit (c_bits c) k); cbn in *; [rewrite H; auto|auto].
Qed.

Local Open Scope string_scope.
(** ** Examples *)
Definition fops_ex : list (prop * Z) := [(P_meta_share, 1); (P_meta_zip, 1); (P_passthru, 1); (P_meta_share, 0); (P_buffered, 1); (P_passthru, 0)].
Definition cops_ex : list (prop * Z) := [(P_subfiling, 3); (P_meta_zip, 1)].
Lemma fresh_fapl : none_of_ours (mkpl FAPL []). Proof. intros p _. reflexivity. Qed.
Lemma fresh_fcpl : none_of_ours (mkpl FCPL []). Proof. intros p _. reflexivity. Qed.
Lemma sets_ex : sets_ok fops_ex /\ sets_ok cops_ex.
Proof. split; unfold sets_ok; repeat (apply Forall_cons; [split; [cbn; tauto|unfold fits; cbn; lia]|]); apply Forall_nil. Qed.
Definition ev_ex : env := fun m => if String.eqb m "H5VL_LOG_SEL_ENCODING" then Some "canonical" else if String.eqb m "H5VL_LOG_PASSTHRU" then Some "1" else None.
Lemma numbers_ex : numbers_ok ev_ex.
Proof. split; intros s H; discriminate H. Qed.
Lemma create_ex : exists fapl fcpl c, run_sets fops_ex (mkpl FAPL []) = Ok fapl /\ run_sets cops_ex (mkpl FCPL []) = Ok fcpl /\
  cfg_create ev_ex fapl fcpl = Ok c /\ c_bits c = (M_DEFLATE + M_PASSTHRU + M_SUBFILING)%Z /\ c_ngroup c = 3%Z.
Proof. do 3 eexists. repeat split; vm_compute; reflexivity. Qed.

(** ** What goes wrong *)
Lemma setters_without_effect : forall p, In p [P_nb_buffer_size; P_idx_buffer_size; P_meta_merge] -> forall v l, set_prop p v l = Ok l.
Proof. intros p H v l. repeat destruct H as [<-|H]; try reflexivity. destruct H. Qed.
Lemma setter_lost : exists l, set_prop P_meta_merge 1 (mkpl FAPL []) = Ok l /\ get_prop P_meta_merge l = Ok 0%Z.
Proof. eexists. split; reflexivity. Qed.
Lemma setter_lost2 : exists l, set_prop P_idx_buffer_size 1000 (mkpl FAPL []) = Ok l /\ get_prop P_idx_buffer_size l = Ok (-1)%Z.
Proof. eexists. split; reflexivity. Qed.
Lemma encoding_overruns : forall v, set_prop P_sel_encoding v (mkpl FAPL []) = UB.
Proof. reflexivity. Qed.
Lemma single_read_fapl : forall l, pl_class l = FAPL -> set_prop P_single_subfile_read 1 l = Err.
Proof. intros l H. unfold set_prop. cbn. rewrite H. reflexivity. Qed.
Lemma single_read_ignored : exists fcpl c, set_prop P_single_subfile_read 1 (mkpl FCPL []) = Ok fcpl /\ cfg_create no_env (mkpl FAPL []) fcpl = Ok c /\ has (c_bits c) M_SINGLE = false.
Proof. do 2 eexists. repeat split; vm_compute; reflexivity. Qed.
Lemma layout_inverted : exists c1 c2, cfg_create (one_env "H5VL_LOG_DATA_LAYOUT" "align") (mkpl FAPL []) (mkpl FCPL []) = Ok c1 /\ has (c_bits c1) M_ALIGN = false /\
  cfg_create (one_env "H5VL_LOG_DATA_LAYOUT" "contig") (mkpl FAPL []) (mkpl FCPL []) = Ok c2 /\ has (c_bits c2) M_ALIGN = true.
Proof. do 2 eexists. repeat split; vm_compute; reflexivity. Qed.
Lemma aligned_undefined : exists fcpl c, set_prop P_data_layout 1 (mkpl FCPL []) = Ok fcpl /\ cfg_create no_env (mkpl FAPL []) fcpl = Ok c /\ post_create c = UB.
Proof. do 2 eexists. repeat split; vm_compute; reflexivity. Qed.
(** Asking for pass-through when opening a file has no effect. *)
Lemma open_ignored : exists c c1 att c2, cfg_create no_env (mkpl FAPL []) (mkpl FCPL []) = Ok c /\ post_create c = Ok (c1, att) /\
  cfg_open (one_env "H5VL_LOG_PASSTHRU" "1") (mkpl FAPL []) att = Ok c2 /\ has (c_bits c2) M_PASSTHRU = false.
Proof. do 4 eexists. repeat split; vm_compute; reflexivity. Qed.
(** The access property list of a file with sharing off says it is on; that of a file with
    default settings cannot be obtained without an access out of bounds. *)
Lemma access_list_wrong : exists fapl c l, run_sets [(P_meta_share, 0%Z)] (mkpl FAPL []) = Ok fapl /\
  cfg_create (one_env "H5VL_LOG_SEL_ENCODING" "canonical") fapl (mkpl FCPL []) = Ok c /\ has (c_bits c) M_SHARE = false /\
  file_get_fapl c = Ok l /\ get_prop P_meta_share l = Ok 1%Z.
Proof. do 3 eexists. repeat split; vm_compute; reflexivity. Qed.
Lemma access_list_undefined : exists c, cfg_create no_env (mkpl FAPL []) (mkpl FCPL []) = Ok c /\ file_get_fapl c = UB.
Proof. eexists. split; vm_compute; reflexivity. Qed.
(** The creation property list reports the number of subfiles. *)
Lemma create_list_right : forall c, fits P_subfiling (c_ngroup c) -> has (c_bits c) M_SUBFILING = true ->
  exists l, file_get_fcpl c = Ok l /\ get_prop P_subfiling l = Ok (c_ngroup c).
Proof.
  intros c F H. unfold file_get_fcpl. rewrite H. pose proof (set_ok P_subfiling (c_ngroup c) (mkpl FCPL []) ltac:(cbn; tauto) F (fresh_ok _ fresh_fcpl)) as S. cbn [class_eqb pl_class p_class P_subfiling] in S.
  destruct S as (l & S1 & _ & S2 & S3 & _). exists l. split; [exact S1|]. unfold get_prop, pexist, pget. rewrite S2, S3. cbn [negb class_eqb pl_class p_class P_subfiling]. rewrite le_length, Nat.leb_refl. cbn [bind]. f_equal. apply sle_le_obj; auto. cbn. lia.
Qed.
