(** Theorems about API calls: refutations and examples. *)
From Verif Require Import Base BaseProofs Spec MetaModel QueueModel FlushModel IndexModel ReadModel SelModel SelSpec SysModel
  SysSpec History GeomProofs HistoryProofs ReadProofs HitProofs StoreProofs ReadOneProofs ClaimProofs SizedProofs SelProofs SelProofs2 SelProofs3 SelClaims SelClaims2 SelClaims3
  Examples SelExamples DefSpec DefProofs ApiModel ApiSpec ApiProofs ApiSim.
From Coq Require Import ZifyNat ZifyN Permutation.

(** ** Reading into a memory selection with a larger type *)
Lemma read_sels : forall order d a ps infos, is_order order -> info_at infos (ac_did a) = Some (Some d) ->
  fits_int (di_dims d) -> memory_fits a -> layout d a ps ->
  exists c sels, lower_read order infos a = Ok c /\ rc_sels c = sels /\ sel_size sels = Zlen ps /\
    mem_space (ac_ms a) (file_sel d (ac_fs a)) = mem_space (ac_ms a) (di_dims d, file_part a) /\
    spread a ps (mem_space (ac_ms a) (di_dims d, file_part a)).
Proof.
  intros order d a ps infos HO HI HF HM HL. destruct (layout_spread d d a ps HL HM HF eq_refl) as (L1 & L2 & L3).
  destruct (usable_blocks order _ _ _ HO L2) as (sels & N1 & N2 & N3).
  assert (ES : sel_size sels = Zlen ps) by (rewrite (sel_size_in d) by auto; rewrite N2; unfold Zlen; rewrite map_length; reflexivity).
  rewrite L1 in *. unfold lower_read. rewrite HI, L1. cbv zeta. cbn [fst snd]. rewrite N1. cbn [bind].
  destruct (mt_same (ac_type a)), (mem_space (ac_ms a) (di_dims d, file_part a)) as [|md msl]; eexists; exists sels; repeat (split; [reflexivity|]); split; auto.
Qed.

Lemma read_out : forall e s doff c s' out, step e s (ORead doff [c]) = Ok (s', out) -> exists b, out = [b].
Proof.
  intros e s doff c s' out H. cbn [step] in H. cbv zeta in H. cbn [read_each] in H.
  destruct (read_one e _ _ c) as [p| |]; try discriminate. cbn [bind fst snd] in H. exists (fst p). congruence.
Qed.

Lemma read_fails : forall e order s doff a ps d, is_order order -> info_at (g_infos (s_g s)) (ac_did a) = Some (Some d) ->
  fits_int (di_dims d) -> memory_fits a -> layout d a ps ->
  (forall b m, deliver order (di_esize d) (Zlen ps) (mem_space (ac_ms a) (di_dims d, file_part a)) a b <> Ok m) ->
  forall r, astep e order s (ARead doff [a]) <> Ok r.
Proof.
  intros e order s doff a ps d HO HI HF HM HL HD r. cbn [astep lower_reads].
  destruct (read_sels order d a ps _ HO HI HF HM HL) as (c & sels & R1 & R2 & R3 & R4 & R5). rewrite R1. cbn [bind].
  destruct (step e s (ORead doff [c])) as [[s' out]| |] eqn:ES; [|discriminate|discriminate]. cbn [bind fst snd].
  destruct (read_out _ _ _ _ _ _ ES) as [b ->]. cbn [finish_reads]. unfold finish_read. rewrite HI, R2, R3, R4.
  destruct (deliver order (di_esize d) (Zlen ps) _ a b) as [m| |] eqn:ED; [|discriminate|discriminate].
  exfalso. exact (HD b m ED).
Qed.

Lemma larger_fails : forall e order s doff a ps d, is_order order -> info_at (g_infos (s_g s)) (ac_did a) = Some (Some d) ->
  0 < di_esize d -> fits_int (di_dims d) -> memory_fits a -> layout d a ps -> ps <> [] -> NoDup (map snd ps) ->
  selective a = true -> mt_same (ac_type a) = false -> mt_comp (ac_type a) = false -> di_esize d < mt_size (ac_type a) ->
  forall r, astep e order s (ARead doff [a]) <> Ok r.
Proof.
  intros e order s doff a ps d HO HI He HF HM HL HN HND HS T1 T2 T3. apply (read_fails _ _ _ _ _ ps d); auto.
  intros b m. destruct (read_sels order d a ps _ HO HI HF HM HL) as (_ & _ & _ & _ & _ & _ & R5).
  unfold deliver. rewrite T1, T2. destruct (mt_in (ac_type a)) as [f|]; [|discriminate]. cbv zeta.
  assert (HX : exists dims s, mem_space (ac_ms a) (di_dims d, file_part a) = MSel dims s).
  { unfold selective in HS. unfold mem_space. cbn [fst snd]. destruct (ac_ms a) as [| |dims s0]; [|discriminate|].
    - destruct (file_part a); try discriminate; unfold as_mspace; eauto.
    - destruct s0; try discriminate; unfold as_mspace; eauto. }
  destruct HX as (dims & sl & HX). rewrite HX in *. destruct R5 as (mcs & M1 & M2 & M3 & M4).
  assert (Hm : 0 < mt_size (ac_type a)) by lia.
  destruct (deliver_sel order (mt_size (ac_type a)) dims sl mcs ps (map (fun _ => repeat 0 (Z.to_nat (mt_size (ac_type a)))) ps) (ac_mem a) (ac_buf a) HO Hm M1 M2 M3 M4 HN HND) as (sels & N1 & N2 & N3 & _).
  { apply Forall_forall. intros v Hv. apply in_map_iff in Hv. destruct Hv as (? & <- & _). unfold Zlen. rewrite repeat_length. lia. }
  { rewrite map_length. reflexivity. }
  rewrite N1. cbn [bind]. destruct sels as [|b0 sels]; [congruence|]. rewrite N3.
  assert (HP : 0 < Zlen ps) by (destruct ps; [congruence|unfold Zlen; cbn [length]; lia]).
  destruct (Z.leb_spec (Zlen ps * mt_size (ac_type a)) (Zlen ps * di_esize d)); [nia|discriminate].
Qed.

(** ** Compound types *)
Lemma compound_fails : forall e order s doff a ps d, is_order order -> info_at (g_infos (s_g s)) (ac_did a) = Some (Some d) ->
  fits_int (di_dims d) -> memory_fits a -> layout d a ps ->
  mt_same (ac_type a) = false -> mt_comp (ac_type a) = true ->
  forall r, astep e order s (ARead doff [a]) <> Ok r.
Proof.
  intros e order s doff a ps d HO HI HF HM HL T1 T2. apply (read_fails _ _ _ _ _ ps d); auto.
  intros b m. unfold deliver. rewrite T1, T2. destruct (mt_in (ac_type a)); discriminate.
Qed.

(** ** Conversions that do not exist *)
Definition raw (a : access) : access :=
  let t := ac_type a in
  mkac (ac_did a) (mkmt (mt_size t) true (mt_comp t) (mt_out t) (mt_in t)) (ac_ms a) (ac_fs a) (ac_buf a) (ac_mem a) (ac_x a) (ac_heap a).
Lemma no_conversion : forall e order s rk a ps d, is_order order -> info_at (g_infos (s_g s)) (ac_did a) = Some (Some d) ->
  0 < di_esize d -> fits_int (di_dims d) -> memory_fits a -> layout d a ps ->
  mt_same (ac_type a) = false -> mt_out (ac_type a) = None -> mt_size (ac_type a) = di_esize d ->
  astep e order s (AWrite rk a) = astep e order s (AWrite rk (raw a)).
Proof.
  intros e order s rk a ps d HO HI He HF HM HL T1 T2 T3. cbn [astep].
  assert (HH : lower_write order (g_infos (s_g s)) a = lower_write order (g_infos (s_g s)) (raw a)); [|rewrite HH; reflexivity].
  unfold lower_write. cbn [raw ac_did ac_fs ac_ms]. rewrite HI. cbv zeta.
  destruct (normalize order _ _) as [sels| |] eqn:N1; [|reflexivity|reflexivity]. cbn [bind]. destruct sels as [|b sels]; [reflexivity|].
  destruct (layout_spread d d a ps HL HM HF eq_refl) as (L1 & L2 & L3).
  destruct (usable_blocks order _ _ _ HO L2) as (sels' & U1 & U2 & U3).
  assert (sels' = b :: sels) by (rewrite L1 in N1; cbn [fst snd] in N1; congruence). subst sels'.
  assert (ES : sel_size (b :: sels) = Zlen ps) by (rewrite (sel_size_in d) by auto; rewrite U2; unfold Zlen; rewrite map_length; reflexivity).
  assert (HN : ps <> []). { intros ->. apply (coords_nil d) in U2; [discriminate|auto]. }
  rewrite ES. destruct (pack_spread order a ps _ HO ltac:(lia) L3 HN) as (rw & P1 & P2 & P3).
  unfold write_data. cbn [raw ac_type ac_mem ac_buf mt_size mt_same]. rewrite P1. cbn [bind]. rewrite T1, T2.
  assert (EZ : firstn (Z.to_nat (Zlen ps * di_esize d)) (rw ++ get (ac_heap a) (ac_x a + Zlen rw)
    (Z.to_nat (Zlen ps * Z.max (mt_size (ac_type a)) (di_esize d) - Zlen rw))) = rw).
  { rewrite P3, T3. rewrite Z.max_id. replace (Zlen ps * di_esize d - di_esize d * Zlen ps) with 0 by lia. cbn [Z.to_nat get]. 
    unfold get. cbn [seq map]. rewrite app_nil_r. apply firstn_all2. unfold Zlen in P3 |- *. rewrite T3 in P3. lia. }
  rewrite EZ. reflexivity.
Qed.

(** ** Examples *)
(** Four-byte integers (little endian) in memory, two bytes in the file. *)
Definition t_wide : mtype := mkmt 4 false false (Some (fun _ v => firstn 2 v)) (Some (fun _ v => v ++ [0; 0])).
Definition t_eq (n : Z) : mtype := mkmt n true false None None.
Definition dI : dinfo := mkdinfo 2 [6; 4] [6; 4] [] (Some [9; 9]).
Definition um : bytemap := fun a => (3 * a + 1) mod 256.
(** Fifteen elements of an irregular selection, from every other element of an array of thirty
    wide integers. *)
Definition w_wide : access := mkac 0 t_wide (SSel [30] (HPoints mem_pts)) (FSel [6; 4] s_irr) 1000 um 5000 junk.
Definition w_wide_ps : pairs := combine irr_cs (map (elem_addr 1000 4 [30]) mem_pts).
(** The whole dataset, read into a contiguous array of wide integers, ... *)
Definition all_cs : list (list Z) := coords (B [0;0] [6;4]).
Definition r_wide : access := mkac 0 t_wide SAll FAll 2000 um 5000 junk.
Definition r_wide_ps : pairs := combine all_cs (map (elem_addr 2000 4 [6;4]) all_cs).
(** ... and the selection, into every other element of an array of two-byte integers. *)
Definition r_pts : access := mkac 0 (t_eq 2) (SSel [30] (HPoints mem_pts)) (FSel [6; 4] s_irr) 3000 um 5000 junk.
Definition r_pts_ps : pairs := combine irr_cs (map (elem_addr 3000 2 [30]) mem_pts).
Definition u_ex : list ucall :=
  [UCreate dI; UWrite 1 w_wide w_wide_ps; UFlush 100; URead 200 [(r_wide, r_wide_ps); (r_pts, r_pts_ps)];
   UReopen 300 1; URead 400 [(r_pts, r_pts_ps)]].

Lemma all_usable : usable [6; 4] HAll all_cs.
Proof.
  assert (HA : forall c, In c all_cs <-> Forall2 (fun d x => 0 <= x < d) [6; 4] c) by (intros c; apply (coords_all [6; 4])).
  split; [repeat constructor; lia|]. split; [|split; [|exact I]].
  - split; [apply sorted_b_ok; vm_compute; reflexivity|]. exact HA.
  - intros c Hc. apply HA. exact Hc.
Qed.
Lemma row_major_nodup : forall l, row_major l -> NoDup l.
Proof.
  induction 1; constructor; auto. intros Hi. rewrite Forall_forall in H0. specialize (H0 _ Hi). clear - H0.
  induction a; cbn in H0; [tauto|]. destruct H0 as [H|[_ H]]; [lia|auto].
Qed.
Lemma irr_pts_layout : forall t b mem x h did d, di_dims d = [6; 4] ->
  layout d (mkac did t (SSel [30] (HPoints mem_pts)) (FSel [6; 4] s_irr) b mem x h) (combine irr_cs (map (elem_addr b (mt_size t) [30]) mem_pts)).
Proof.
  intros t b mem x h did d E. unfold layout, file_part. cbn [ac_fs ac_ms ac_buf ac_type]. rewrite E.
  assert (E1 : forall g : list Z -> Z, map fst (combine irr_cs (map g mem_pts)) = irr_cs) by (intros; reflexivity).
  assert (E2 : forall g : list Z -> Z, map snd (combine irr_cs (map g mem_pts)) = map g mem_pts) by (intros; reflexivity).
  rewrite E1, E2. split; auto. split; [exact irr_usable|]. exists mem_pts. split; [exact mem_usable|reflexivity].
Qed.
Lemma irr_nodup : NoDup irr_cs.
Proof. apply row_major_nodup, sorted_b_ok. vm_compute. reflexivity. Qed.
Fixpoint rising (l : list Z) : bool :=
  match l with a :: ((b :: _) as r) => (a <? b) && rising r | _ => true end.
Lemma rising_nodup : forall l, rising l = true -> NoDup l.
Proof.
  assert (G : forall l a, rising (a :: l) = true -> Forall (fun x => a < x) l /\ NoDup (a :: l)).
  { induction l as [|b l IH]; intros a H; [split; [constructor|constructor; [auto|constructor]]|].
    cbn [rising] in H. apply andb_prop in H. destruct H as [H1 H2]. apply Z.ltb_lt in H1. destruct (IH b H2) as [I1 I2].
    assert (HF : Forall (fun x => a < x) (b :: l)) by (constructor; auto; eapply Forall_impl; [|exact I1]; cbn; lia).
    split; auto. constructor; auto. intros HI. rewrite Forall_forall in HF. specialize (HF _ HI). lia. }
  intros [|a l] H; [constructor|apply G; auto].
Qed.

Lemma wide_write : forall d, di_esize d = 2 -> can_write d t_wide.
Proof.
  intros d E. split; [cbn; lia|]. split; [discriminate|]. intros _. eexists. split; [reflexivity|]. intros b v. split; auto. change (mt_size t_wide) with 4. rewrite E.
  unfold Zlen. intros H. rewrite firstn_length. lia.
Qed.
Lemma r_wide_can : can_read dI r_wide.
Proof.
  split; [cbn; lia|]. split; [discriminate|]. intros _. split; auto. split; [discriminate|]. eexists. split; [reflexivity|].
  intros v. change (mt_size (ac_type r_wide)) with 4. change (di_esize dI) with 2. unfold Zlen. rewrite app_length. cbn [length]. lia.
Qed.
Lemma r_pts_can : can_read dI r_pts.
Proof. split; [cbn; lia|]. split; [reflexivity|discriminate]. Qed.
Lemma r_wide_layout : layout dI r_wide r_wide_ps.
Proof.
  assert (E1 : map fst r_wide_ps = all_cs) by (vm_compute; reflexivity).
  split; [exact I|]. rewrite E1. split; [exact all_usable|]. vm_compute. reflexivity.
Qed.

Lemma u_ex_legal : legal_program iorder 2 u_ex.
Proof.
  assert (RP : forall t, dataset_of t 0 dI ->
    snd (r_pts, r_pts_ps) <> [] /\ memory_fits (fst (r_pts, r_pts_ps)) /\ NoDup (map fst (snd (r_pts, r_pts_ps))) /\
    NoDup (map snd (snd (r_pts, r_pts_ps))) /\
    (exists d, dataset_of t (ac_did (fst (r_pts, r_pts_ps))) d /\ layout d (fst (r_pts, r_pts_ps)) (snd (r_pts, r_pts_ps)) /\ can_read d (fst (r_pts, r_pts_ps)))).
  { intros t HD. split; [discriminate|]. split; [repeat constructor; lia|]. split; [exact irr_nodup|].
    split; [apply rising_nodup; vm_compute; reflexivity|]. exists dI. split; auto. split; [apply (irr_pts_layout (t_eq 2)); reflexivity|exact r_pts_can]. }
  assert (PL : forall t hi doff, (hi <=? doff) && (doff + pending_bytes t <? 2 ^ 63) = true -> placed_after t hi doff).
  { intros t hi doff H. apply andb_prop in H. destruct H. split; [apply Z.leb_le; auto|apply Z.ltb_lt; auto]. }
  split; [lia|]. split; [lia|]. split; [cbn; lia|]. split.
  - split. { split; [cbn; lia|]. split; [repeat constructor; cbn; lia|reflexivity]. }
    split. { split; [cbn; lia|]. split; [repeat constructor; lia|]. exists dI. split; [split; [cbn; lia|reflexivity]|].
      split; [apply (irr_pts_layout t_wide); reflexivity|apply wide_write; reflexivity]. }
    split. { apply PL. vm_compute. reflexivity. }
    split. { split; [apply PL; vm_compute; reflexivity|]. split; [discriminate|]. constructor; [|constructor; [|constructor]].
      - split; [discriminate|]. split; [exact I|]. split; [|split; [apply rising_nodup; vm_compute; reflexivity|]].
        + cbn [fst snd]. assert (E : map fst r_wide_ps = all_cs) by (vm_compute; reflexivity). rewrite E. apply row_major_nodup, all_usable.
        + exists dI. split; [split; [cbn; lia|reflexivity]|]. split; [exact r_wide_layout|exact r_wide_can].
      - apply RP. split; [cbn; lia|reflexivity]. }
    split. { split; [lia|]. split; [lia|]. apply PL. vm_compute. reflexivity. }
    split; [|exact I]. split; [apply PL; vm_compute; reflexivity|]. split; [discriminate|]. constructor; [|constructor].
    apply RP. split; [cbn; lia|reflexivity].
  - assert (S1 : Forall sized_set [dI]) by (repeat constructor; cbn; lia).
    split; [constructor|]. split; [exact I|]. split; [exact S1|]. split.
    { intros d sels [_ HD] HS. cbn in HD. injection HD as <-.
      assert (E : normalize iorder [6; 4] s_irr = Ok sels) by exact HS. clear HS.
      assert (E2 : match normalize iorder [6; 4] s_irr with Ok l => Zlen l <=? 4000000 | _ => true end = true) by (vm_compute; reflexivity).
      rewrite E in E2. apply Z.leb_le in E2. exact E2. }
    split; [exact S1|]. split; [exact I|]. split; [exact S1|]. split; [exact I|]. split; [exact S1|]. split; [exact I|].
    split; [exact S1|]. split; [exact I|]. split; [exact S1|exact I].
Qed.

(** What the example reads: element [4;3] was written with the wide integer at 1000 + 4 * 28, element
    [5;3] never. *)
Lemma u_ex_says : forall f0, exists s mems m1 m2 m3, arun e_dflt iorder (init 0 2 f0) (map call_of u_ex) = Ok (s, mems) /\
  nth_error mems 3 = Some [m1; m2] /\ nth_error mems 5 = Some [m3] /\
  get m1 (2000 + 4 * 19) 4 = get um (1000 + 4 * 28) 2 ++ [0; 0] /\ get m1 (2000 + 4 * 23) 4 = [9; 9; 0; 0] /\
  get m2 (3000 + 2 * 28) 2 = get um (1000 + 4 * 28) 2 /\ get m3 (3000 + 2 * 28) 2 = get um (1000 + 4 * 28) 2 /\
  m3 (3000 + 2 * 27) = um (3000 + 2 * 27).
Proof.
  intros f0. destruct (api_reads e_dflt iorder 0 2 f0 u_ex eq_refl eq_refl isort_is_sort iorder_is_order ltac:(split; [lia|reflexivity]) eq_refl eq_refl u_ex_legal)
    as (s & mems & R1 & R2 & R3).
  destruct (R3 3%nat 200 [(r_wide, r_wide_ps); (r_pts, r_pts_ps)] eq_refl) as (ms & M1 & M2).
  destruct (R3 5%nat 400 [(r_pts, r_pts_ps)] eq_refl) as (ms' & N1 & N2). cbv zeta in M2, N2.
  inversion M2 as [|x1 m1 l1 l2 A1 A2]; subst. inversion A2 as [|x2 m2 l3 l4 A3 A4]; subst. inversion A4; subst.
  inversion N2 as [|x3 m3 l5 l6 A5 A6]; subst. inversion A6; subst.
  destruct A1 as (d1 & D1 & D2 & D3). destruct A3 as (d2 & D4 & D5 & D6). destruct A5 as (d3 & D7 & D8 & D9).
  cbn [fst snd] in *.
  assert (d1 = dI) by (vm_compute in D1; injection D1 as <-; reflexivity). assert (d2 = dI) by (vm_compute in D4; injection D4 as <-; reflexivity).
  assert (d3 = dI) by (vm_compute in D7; injection D7 as <-; reflexivity). subst d1 d2 d3.
  exists s, mems, m1, m2, m3. split; auto. split; auto. split; auto.
  split; [apply (D2 [4;3] (2000 + 4 * 19) (get um (1000 + 4 * 28) 2)); [apply (nth_error_In _ 19); vm_compute; reflexivity|vm_compute; reflexivity]|].
  split; [apply (D2 [5;3] (2000 + 4 * 23) [9; 9]); [apply (nth_error_In _ 23); vm_compute; reflexivity|vm_compute; reflexivity]|].
  split; [apply (D5 [4;3] (3000 + 2 * 28) (get um (1000 + 4 * 28) 2)); [apply (nth_error_In _ 14); vm_compute; reflexivity|vm_compute; reflexivity]|].
  split; [apply (D8 [4;3] (3000 + 2 * 28) (get um (1000 + 4 * 28) 2)); [apply (nth_error_In _ 14); vm_compute; reflexivity|vm_compute; reflexivity]|].
  apply D9. intros x p HI HP. apply (in_map snd) in HI. cbn [snd] in HI.
  assert (Q : forallb (fun p => negb ((p <=? 3000 + 2 * 27) && (3000 + 2 * 27 <? p + 2))) (map snd r_pts_ps) = true) by (vm_compute; reflexivity).
  rewrite forallb_forall in Q. specialize (Q _ HI). change (mt_size (ac_type r_pts)) with 2 in HP. clear - HP Q.
  destruct (Z.leb_spec p (3000 + 2 * 27)), (Z.ltb_spec (3000 + 2 * 27) (p + 2)); cbn in Q; try discriminate; lia.
Qed.

(** The example is within the restrictions of the default configuration. *)
Lemma u_ex_default : exists ops, operations iorder 2 u_ex = Ok ops /\ ok_history e_dflt cfg_dflt (mkconv (fun _ _ => false) (fun _ => 2)) 2 ops.
Proof.
  eexists. split; [vm_compute; reflexivity|]. hist.
Qed.

Lemma u_ex_default2 : exists ops, operations iorder 2 u_ex = Ok ops /\ default_history 2 ops.
Proof.
  eexists. split; [vm_compute; reflexivity|]. apply default_b_ok. vm_compute. reflexivity.
Qed.

(** ** Writes *)
Lemma write_converts : forall e order s rk a ps d, is_order order -> info_at (g_infos (s_g s)) (ac_did a) = Some (Some d) ->
  0 < di_esize d -> fits_int (di_dims d) -> memory_fits a -> layout d a ps -> can_write d (ac_type a) ->
  exists sels data, sel_coords sels = map fst ps /\
    elems (di_esize d) data = map (fun p => out_of (ac_type a) (get (ac_mem a) (snd p) (Z.to_nat (mt_size (ac_type a))))) ps /\
    astep e order s (AWrite rk a) = do p <- step e s (OWrite rk (ac_did a) sels data); Ok (fst p, []).
Proof.
  intros e order s rk a ps d HO HI He HF HM HL HC.
  destruct (layout_spread d d a ps HL HM HF eq_refl) as (L1 & L2 & L3).
  destruct (usable_blocks order _ _ _ HO L2) as (sels & N1 & N2 & N3).
  assert (ES : sel_size sels = Zlen ps) by (rewrite (sel_size_in d) by auto; rewrite N2; unfold Zlen; rewrite map_length; reflexivity).
  destruct ps as [|p ps].
  - apply (coords_nil d) in N2 as E; [|exact N3]. subst sels. exists [], []. split; auto. split; [reflexivity|].
    cbn [astep]. unfold lower_write. rewrite HI. cbv zeta. rewrite L1. cbn [fst snd]. rewrite N1. reflexivity.
  - destruct sels as [|b sels]; [cbn in N2; discriminate|]. set (sl := b :: sels) in *. set (pl := p :: ps) in *.
    destruct (write_data_ok order d a pl _ HO He HC L3 ltac:(discriminate)) as (data & W1 & W2 & W3).
    exists sl, data. split; auto. split; auto. cbn [astep]. unfold lower_write. rewrite HI. cbv zeta. rewrite L1. cbn [fst snd]. rewrite N1. cbn [bind]. unfold sl at 1. rewrite ES.
    rewrite L1 in W1. rewrite W1. reflexivity.
Qed.

(** A dataset of pairs of bytes; the second write names the first member only. *)
Definition dC : dinfo := mkdinfo 2 [3] [3] [] None.
Definition t_first : mtype := mkmt 1 false true (Some (fun bg v => v ++ skipn 1 bg)) (Some (fun _ v => firstn 1 v)).
Definition m_pairs : bytemap := put f_zero 0 [1;2;3;4;5;6].
Definition m_firsts : bytemap := put f_zero 0 [7;8;9].
Definition c_calls : list acall :=
  [ACreate dC; AWrite 0 (mkac 0 (t_eq 2) SAll FAll 0 m_pairs 5000 junk); AFlush 100;
   AWrite 0 (mkac 0 t_first SAll FAll 0 m_firsts 5000 junk);
   ARead 200 [mkac 0 (t_eq 2) SAll FAll 0 f_zero 5000 junk]].
Definition first_memory (r : res (sys * list (list bytemap))) (i n : nat) : option (list Z) :=
  match r with
  | Ok (_, mems) => match nth_error mems i with Some (m :: _) => Some (get m 0 n) | _ => None end
  | _ => None
  end.
Lemma compound_junk : first_memory (arun e_dflt iorder (init cfg_dflt 1 f_zero) c_calls) 4 6 = Some [7;77;8;77;9;77].
Proof. vm_compute. reflexivity. Qed.

(** A write of text to an integer dataset succeeds and stores the characters. *)
Definition t_text : mtype := mkmt 2 false false None None.
Definition x_calls : list acall :=
  [ACreate dC; AWrite 0 (mkac 0 t_text SAll FAll 0 m_pairs 5000 junk);
   ARead 200 [mkac 0 (t_eq 2) SAll FAll 0 f_zero 5000 junk]].
Lemma text_stored : first_memory (arun e_dflt iorder (init cfg_dflt 1 f_zero) x_calls) 2 6 = Some [1;2;3;4;5;6].
Proof. vm_compute. reflexivity. Qed.

(** States in which the failing reads are issued. *)
Definition r_wide_pts : access := mkac 0 t_wide (SSel [30] (HPoints mem_pts)) (FSel [6; 4] s_irr) 3000 um 5000 junk.
Definition r_wide_pts_ps : pairs := combine irr_cs (map (elem_addr 3000 4 [30]) mem_pts).
Lemma wide_pts_applies : exists s outs, arun e_dflt iorder (init 0 2 f_zero) (map call_of (firstn 3 u_ex)) = Ok (s, outs) /\
  info_at (g_infos (s_g s)) 0 = Some (Some dI) /\ layout dI r_wide_pts r_wide_pts_ps /\ NoDup (map snd r_wide_pts_ps) /\
  memory_fits r_wide_pts /\ fits_int (di_dims dI) /\
  selective r_wide_pts = true /\ mt_comp t_wide = false /\ mt_same t_wide = false /\ di_esize dI < mt_size t_wide /\ r_wide_pts_ps <> [].
Proof.
  destruct (arun e_dflt iorder (init 0 2 f_zero) (map call_of (firstn 3 u_ex))) as [[s outs]| |] eqn:E.
  - exists s, outs. split; auto. split.
    { assert (H : match arun e_dflt iorder (init 0 2 f_zero) (map call_of (firstn 3 u_ex)) with Ok (s, _) => info_at (g_infos (s_g s)) 0 | _ => None end = Some (Some dI)) by (vm_compute; reflexivity).
      rewrite E in H. exact H. }
    split; [apply (irr_pts_layout t_wide); reflexivity|]. split; [apply rising_nodup; vm_compute; reflexivity|].
    split; [repeat constructor; lia|]. split; [repeat constructor; cbn; lia|].
    repeat (split; [reflexivity|]). discriminate.
  - exfalso. assert (H : match arun e_dflt iorder (init 0 2 f_zero) (map call_of (firstn 3 u_ex)) with Ok _ => true | _ => false end = true) by (vm_compute; reflexivity). rewrite E in H. discriminate.
  - exfalso. assert (H : match arun e_dflt iorder (init 0 2 f_zero) (map call_of (firstn 3 u_ex)) with Ok _ => true | _ => false end = true) by (vm_compute; reflexivity). rewrite E in H. discriminate.
Qed.

Lemma first_layout : mt_same t_first = false /\ mt_comp t_first = true /\ fits_int (di_dims dC) /\
  layout dC (mkac 0 t_first SAll FAll 0 f_zero 5000 junk) [([0], 0); ([1], 1); ([2], 2)].
Proof.
  split; auto. split; auto. split; [repeat constructor; cbn; lia|]. split; [exact I|].
  assert (HA : forall c, In c [[0];[1];[2]] <-> Forall2 (fun d x => 0 <= x < d) [3] c) by (intros c; apply (coords_all [3])).
  split; [|reflexivity]. cbn [map fst]. split; [repeat constructor; cbn; lia|]. split; [|split; [|exact I]].
  - split; [apply sorted_b_ok; vm_compute; reflexivity|]. exact HA.
  - intros c Hc. apply HA. exact Hc.
Qed.

Lemma read_converts : forall e order cfg np f0 us doff a ps d x p v,
  e_coll e = true -> e_limit e = None -> is_sort (e_sort e) -> is_order order -> plain_cfg cfg ->
  has cfg CFG_SEL_ENCODE = false -> has cfg CFG_METADATA_SHARE = false ->
  legal_program order np (us ++ [URead doff [(a, ps)]]) ->
  let t := utrace np us in
  dataset_of t (ac_did a) d -> In (x, p) ps ->
  match last_assigned (ac_did a) x (publish t) with Some w => Some w | None => di_fill d end = Some v ->
  exists s mems m, arun e order (init cfg np f0) (map call_of (us ++ [URead doff [(a, ps)]])) = Ok (s, mems ++ [[m]]) /\
    get m p (Z.to_nat (mt_size (ac_type a))) = in_of (ac_type a) v.
Proof.
  intros e order cfg np f0 us doff a ps d x p v H1 H2 H3 H4 H5 H6 H7 HP t [_ HD] HI HV.
  destruct (api_reads e order cfg np f0 _ H1 H2 H3 H4 H5 H6 H7 HP) as (s & mems & R1 & R2 & R3).
  destruct (R3 (length us) doff [(a, ps)]) as (ms & M1 & M2). { rewrite nth_error_app2, Nat.sub_diag by lia. reflexivity. }
  cbv zeta in M2. rewrite firstn_app, Nat.sub_diag, firstn_all in M2. cbn [firstn] in M2. rewrite app_nil_r in M2.
  inversion M2 as [|ap m l1 l2 A1 A2]; subst. inversion A2; subst. destruct A1 as (d' & D1 & D2 & _). cbn [fst snd] in *.
  rewrite app_length in R2. cbn [length] in R2.
  assert (HE : exists mems', mems = mems' ++ [[m]]).
  { destruct (exists_last (l := mems)) as (l & y & ->). { intros ->. cbn in R2. lia. }
    rewrite app_length in R2. cbn [length] in R2. rewrite nth_error_app2 in M1 by lia. replace (length us - length l)%nat with O in M1 by lia.
    cbn in M1. exists l. congruence. }
  destruct HE as [mems' ->]. exists s, mems', m. split; auto. apply (D2 x p v); auto.
  assert (d' = d) by (unfold t in HD; congruence). subst d'. exact HV.
Qed.
