(** Facts about pass-through reads. *)
From Verif Require Import Base BaseProofs Spec MetaModel QueueModel FlushModel IndexModel ReadModel PendSpec
  PassModel PassSpec GeomProofs MetaProofs SortProofs ReadProofs HitProofs ViewProofs.
From Coq Require Import ZifyNat Permutation.

Definition in_box (n : Z) (p : Z * Z) : Prop := 0 <= fst p /\ 0 < snd p /\ fst p + snd p <= n.

Lemma box_bytes_sub : forall b es st sz ct, box_bytes b es st sz ct = subarray b es sz ct st.
Proof.
  intros. unfold box_bytes, subarray. apply flat_map_ext. intros c. unfold byte_range, lin. apply map_ext. intros. lia.
Qed.

(** ** foff2logidx *)
Lemma foff_none : forall lds x, (forall d, In d lds -> x < fst d) -> foff2logidx x lds = None.
Proof.
  induction lds as [|d lds IH]; intros x H; [reflexivity|]. cbn [foff2logidx].
  rewrite IH by (intros; apply H; right; auto). specialize (H d (or_introl eq_refl)).
  destruct (Z.leb_spec (fst d) x); [lia|reflexivity].
Qed.

Lemma foff_inside : forall lds d x, laid_out lds -> In d lds -> fst d <= x < fst d + snd d ->
  foff2logidx x lds = Some d.
Proof.
  induction lds as [|d0 lds IH]; intros d x L Hin Hx; [destruct Hin|]. destruct L as (L1 & L2 & L3).
  cbn [foff2logidx]. destruct Hin as [->|Hin].
  - rewrite foff_none.
    + destruct (Z.leb_spec (fst d) x); [reflexivity|lia].
    + intros d' Hd. rewrite Forall_forall in L2. specialize (L2 d' Hd). lia.
  - rewrite (IH d x); auto.
Qed.

Lemma foff_found : forall lds d x, In d lds -> fst d <= x -> exists d', foff2logidx x lds = Some d'.
Proof.
  induction lds as [|d0 lds IH]; intros d x Hin Hx; [destruct Hin|]. cbn [foff2logidx].
  destruct (foff2logidx x lds) eqn:E; [eauto|]. destruct Hin as [->|Hin].
  - destruct (Z.leb_spec (fst d) x); [eauto|lia].
  - destruct (IH d x Hin Hx). congruence.
Qed.

Lemma foff_sound : forall lds x d, foff2logidx x lds = Some d -> In d lds /\ fst d <= x.
Proof.
  induction lds as [|d0 lds IH]; intros x d H; [discriminate|]. cbn [foff2logidx] in H.
  destruct (foff2logidx x lds) eqn:E.
  - inversion H; subst. destruct (IH x d E). split; [right|]; auto.
  - destruct (Z.leb_spec (fst d0) x); [|discriminate]. inversion H; subst. split; [left|]; auto.
Qed.

(** ** sel_space *)
Lemma Zprod_ones : forall l, Forall (fun c => c = 1) l -> Zprod l = 1.
Proof. induction 1; [reflexivity|]. rewrite Zprod_cons. subst. lia. Qed.
Lemma Zprod_snoc : forall l x, Zprod (l ++ [x]) = Zprod l * x.
Proof.
  induction l; intros; cbn [app]; rewrite ?Zprod_cons; [change (Zprod []) with 1; lia|]. rewrite IHl. lia.
Qed.

Lemma boxes_len : forall sz st ct, Forall2 in_box sz (combine st ct) -> length st = length ct -> length sz = length ct.
Proof.
  intros sz st ct H L. assert (HL : length sz = length (combine st ct)) by (induction H; cbn; auto).
  rewrite HL, combine_length. lia.
Qed.
Lemma boxes_pos : forall sz st ct, Forall2 in_box sz (combine st ct) -> length st = length ct ->
  Forall (fun x => 0 < x) ct /\ Forall (fun x => 0 < x) sz.
Proof.
  induction sz as [|n sz IH]; intros st ct H L.
  - destruct st, ct; try discriminate L; [|inversion H]. split; constructor.
  - destruct st, ct; try discriminate L; cbn in H; inversion H; subst. cbn in L. injection L as L.
    destruct (IH _ _ H5 L). unfold in_box in H3. cbn in H3. split; constructor; auto; lia.
Qed.

Lemma ones_coords : forall l, Forall (fun c => c = 1) l -> coords_of (zeros l) l = [zeros l].
Proof.
  induction 1; [reflexivity|]. subst. cbn [zeros map coords_of].
  change (map (fun _ : Z => 0) l) with (zeros l). rewrite IHForall. reflexivity.
Qed.

Lemma thin_coords : forall c0 ones, Forall (fun c => c = 1) ones ->
  coords_of (zeros (c0 :: ones)) (c0 :: ones) = map (fun i => i :: zeros ones) (zseq c0).
Proof.
  intros c0 ones H. cbn [zeros map coords_of]. change (map (fun _ : Z => 0) ones) with (zeros ones).
  rewrite ones_coords by auto. generalize (zseq c0). induction l as [|x l IH]; [reflexivity|].
  cbn [flat_map]. rewrite IH. reflexivity.
Qed.

Lemma last_le_prod : forall sz st ct, Forall2 in_box sz (combine st ct) -> length st = length ct -> ct <> [] ->
  0 < last ct 1 <= Zprod sz.
Proof.
  induction sz as [|n sz IH]; intros st ct H L Hne.
  - destruct st, ct; try discriminate L; [congruence|inversion H].
  - destruct st, ct as [|c ct]; try discriminate L; [congruence|]. cbn in H. inversion H; subst. cbn in L. injection L as L.
    unfold in_box in H3. cbn in H3. rewrite Zprod_cons. destruct (boxes_pos _ _ _ H5 L) as [_ P]. apply Zprod_pos in P.
    destruct ct as [|c' ct].
    + cbn. nia.
    + change (last (c :: c' :: ct) 1) with (last (c' :: ct) 1).
      destruct (IH _ _ H5 L ltac:(discriminate)). nia.
Qed.

Lemma sel_space_eq : forall b es st sz ct c0 lead n, ct = (c0 :: lead) ++ [n] -> 
  Forall2 in_box sz (combine st ct) -> length st = length ct -> 0 < es ->
  1 < c0 * Zprod lead ->
  sel_space b es st sz ct = Ok (mkhyper (b + es * rm sz st) (Zprod (tl sz) * es) (c0 * Zprod lead) (n * es)).
Proof.
  intros b es st sz ct c0 lead n E HB L He H1. unfold sel_space.
  pose proof (boxes_pos _ _ _ HB L) as [P1 P2]. pose proof (boxes_len _ _ _ HB L) as L2.
  assert (HL : last ct 1 = n) by (rewrite E; apply last_last). rewrite HL.
  assert (Pn : 0 < n). { rewrite E in P1. apply Forall_app in P1. destruct P1 as [_ P1]. apply Forall_inv in P1. auto. }
  destruct (Z.eqb_spec n 0); [lia|].
  assert (HC : Zprod ct / n = c0 * Zprod lead).
  { rewrite E, Zprod_snoc, Zprod_cons. apply Z.div_mul. lia. }
  rewrite HC. destruct (Z.ltb_spec 1 (c0 * Zprod lead)); [|lia].
  destruct sz as [|d0 sz]; [rewrite E in L2; cbn in L2; lia|]. cbn [hd tl].
  apply Forall_inv in P2. destruct (Z.eqb_spec d0 0); [lia|].
  rewrite Zprod_cons, (Z.mul_comm d0), Z.div_mul by lia. rewrite lin_rm.
  do 2 f_equal. lia.
Qed.

Lemma hsel_ok : forall ext h lo, h_count h > 0 -> h_block h > 0 -> (h_count h > 1 -> h_block h <= h_stride h) ->
  0 <= lo -> (forall z, In z (hs_bytes h) -> lo <= z < ext) -> hsel ext h = Ok (hs_bytes h).
Proof.
  intros ext [s t c k] lo H1 H2 H3 H0 H4. unfold hsel. cbn [h_start h_stride h_count h_block] in *.
  destruct (Z.eqb_spec c 0); [lia|]. destruct (Z.eqb_spec k 0); [lia|]. cbn [orb].
  assert (HF : In s (hs_bytes (mkhyper s t c k))).
  { unfold hs_bytes. cbn. apply in_flat_map. exists 0. split; [apply zseq_In; lia|]. apply In_byte_range. lia. }
  assert (HE : In (s + (c - 1) * t + k - 1) (hs_bytes (mkhyper s t c k))).
  { unfold hs_bytes. cbn. apply in_flat_map. exists (c - 1). split; [apply zseq_In; lia|]. apply In_byte_range. lia. }
  apply H4 in HF, HE.
  destruct (Z.ltb_spec 1 c); cbn [andb].
  - destruct (Z.ltb_spec t k); [lia|]. destruct (Z.ltb_spec s 0); [lia|]. cbn [orb].
    destruct (Z.ltb_spec ext (s + (c - 1) * t + k)); [lia|reflexivity].
  - destruct (Z.ltb_spec s 0); [lia|]. cbn [orb].
    destruct (Z.ltb_spec ext (s + (c - 1) * t + k)); [lia|reflexivity].
Qed.

Lemma sel_space_thin_bytes : forall b es st sz ct, Forall2 in_box sz (combine st ct) -> length st = length ct ->
  0 < es -> ct <> [] -> thin ct ->
  exists h, sel_space b es st sz ct = Ok h /\ hs_bytes h = subarray b es sz ct st /\
            h_count h > 0 /\ h_block h > 0 /\ (h_count h > 1 -> h_block h <= h_stride h).
Proof.
  intros b es st sz ct HB L He Hne HT. pose proof (app_removelast_last 1 Hne) as HA.
  set (n := last ct 1) in *. set (lead := removelast ct) in *.
  pose proof (boxes_pos _ _ _ HB L) as [P1 P2]. pose proof (boxes_len _ _ _ HB L) as L2.
  assert (Pn : 0 < n /\ Forall (fun x => 0 < x) lead).
  { rewrite HA in P1. apply Forall_app in P1. destruct P1 as [P0 P1]. apply Forall_inv in P1. auto. }
  destruct Pn as [Pn P0].
  rewrite (subarray_rows _ _ _ _ _ _ _ HA) by (auto; lia).
  assert (HR : forall h, h_count h = 1 -> h_start h = b + es * rm sz st -> h_block h = n * es ->
     hs_bytes h = byte_range (b + es * rm sz st) (n * es)).
  { intros [s t c k]. cbn. intros -> -> ->. unfold hs_bytes. cbn [h_count h_start h_stride h_block].
    change (zseq 1) with [0]. cbn [flat_map]. rewrite app_nil_r. f_equal. lia. }
  unfold thin in HT. fold lead in HT.
  destruct lead as [|c0 ones] eqn:EL.
  - assert (Ec : ct = [n]) by (rewrite HA; reflexivity).
    exists (mkhyper (b + es * rm sz st) 1 1 (n * es)).
    split; [|split; [|cbn; nia]].
    + unfold sel_space. fold n. destruct (Z.eqb_spec n 0); [lia|].
      rewrite Ec at 1. rewrite Zprod_cons. change (Zprod []) with 1. rewrite Z.mul_1_r, Z.div_same by lia.
      change (1 <? 1) with false. rewrite lin_rm. replace (b + 1 * rm sz st * es) with (b + es * rm sz st) by lia.
      do 2 f_equal. rewrite Ec, Zprod_cons. change (Zprod []) with 1. rewrite Z.mul_1_r. apply Z.div_same. lia.
    + rewrite HR by reflexivity. cbn [zeros map coords_of flat_map]. rewrite app_nil_r, lin_rm.
      f_equal. f_equal. f_equal. destruct st as [|x st]; [rewrite Ec in L; discriminate|]. reflexivity.
  - cbn [tl] in HT. rewrite thin_coords by auto.
    rewrite flat_map_concat_map, map_map, <- flat_map_concat_map.
    pose proof (Zprod_ones _ HT) as HO.
    assert (Lst : length ones = pred (pred (length st))).
    { rewrite L, HA, app_length. cbn. lia. }
    assert (HX : forall i, rm sz (addv st (i :: zeros ones)) = rm sz st + i * Zprod (tl sz)).
    { intros i. clear - HA L L2.
      destruct st as [|s st]; [rewrite HA in L; discriminate|]. destruct sz as [|d sz]; [rewrite HA in L2; discriminate|].
      cbn [addv rm tl]. replace (addv st (zeros ones)) with st; [lia|].
      assert (HL : (length ones <= length st)%nat) by (rewrite HA in L; cbn in L; rewrite app_length in L; cbn in L; lia).
      clear - HL. revert ones HL. induction st as [|a st IH]; intros [|o ones] HL; try (cbn in HL; lia); try reflexivity.
      cbn [zeros map addv]. cbn in HL. f_equal; [lia|]. apply (IH ones). lia. }
    apply Forall_inv in P0.
    destruct (Z_le_gt_dec c0 1) as [H1|H1].
    + assert (c0 = 1) by lia. subst c0.
      exists (mkhyper (b + es * rm sz st) 1 1 (n * es)). split; [|split; [|cbn; nia]].
      * unfold sel_space. fold n. destruct (Z.eqb_spec n 0); [lia|].
        assert (Zprod ct / n = 1). { rewrite HA, Zprod_snoc, Zprod_cons, HO. rewrite Z.mul_1_r, Z.mul_1_l. apply Z.div_same. lia. }
        rewrite H. change (1 <? 1) with false. rewrite lin_rm. do 2 f_equal. lia.
      * rewrite HR by reflexivity. change (zseq 1) with [0]. cbn [flat_map]. rewrite app_nil_r, lin_rm, HX. f_equal. lia.
    + rewrite (sel_space_eq b es st sz ct c0 ones n HA HB L He) by (rewrite HO; lia). rewrite HO, Z.mul_1_r.
      eexists. split; [reflexivity|]. split; [|split; [cbn; lia|split; [cbn; nia|]]].
      * unfold hs_bytes. cbn [h_count h_start h_stride h_block]. apply flat_map_ext. intros i. rewrite lin_rm, HX. f_equal. lia.
      * cbn [h_count h_block h_stride]. intros _.
        destruct st as [|s st]; [rewrite HA in L; discriminate|]. destruct sz as [|d sz]; [rewrite HA in L2; discriminate|].
        rewrite HA in HB, L. cbn in HB, L. inversion HB as [|? ? ? ? B1 B2]; subst x y l l'. injection L as L.
        destruct (last_le_prod _ _ _ B2 L ltac:(destruct ones; discriminate)) as [_ Q]. rewrite last_last in Q. cbn [tl]. nia.
Qed.

(** A piece with a larger middle dimension. *)
Lemma far_coord : forall sz st ct, Forall2 in_box sz (combine st ct) -> length st = length ct ->
  ~ Forall (fun c => c = 1) (removelast ct) ->
  exists c, In c (coords_of st ct) /\ last ct 1 <= rm sz c - rm sz st < Zprod sz.
Proof.
  induction sz as [|n sz IH]; intros st ct H L Hn.
  - destruct st, ct; try discriminate L; [|inversion H]. exfalso. apply Hn. constructor.
  - destruct st as [|s st], ct as [|c ct]; try discriminate L; [exfalso; apply Hn; constructor|].
    cbn in H. inversion H as [|? ? ? ? B1 B2]; subst. cbn in L. injection L as L. unfold in_box in B1. cbn in B1.
    destruct ct as [|c' ct]; [exfalso; apply Hn; constructor|].
    change (last (c :: c' :: ct) 1) with (last (c' :: ct) 1). change (removelast (c :: c' :: ct)) with (c :: removelast (c' :: ct)) in Hn.
    pose proof (last_le_prod _ _ _ B2 L ltac:(discriminate)) as Q. destruct (boxes_pos _ _ _ B2 L) as [_ P]. apply Zprod_pos in P.
    rewrite Zprod_cons. destruct (Z_le_gt_dec c 1).
    + assert (c = 1) by lia. subst c. destruct (IH st (c' :: ct) B2 L) as (d & D1 & D2).
      { intros F. apply Hn. constructor; auto. }
      exists ((s + 0) :: d). split.
      * cbn [coords_of]. apply in_flat_map. exists 0. split; [apply zseq_In; lia|]. apply in_map. exact D1.
      * cbn [rm]. nia.
    + exists ((s + 1) :: st). split.
      * cbn [coords_of]. apply in_flat_map. exists 1. split; [apply zseq_In; lia|]. apply in_map.
        apply In_coords_of; [exact L|]. clear - B2 L.
        revert st L B2. generalize (c' :: ct). clear c' ct. induction sz as [|n sz IH]; intros ct st L H.
        -- destruct st, ct; try discriminate L; [exact I|inversion H].
        -- destruct st, ct; try discriminate L; cbn in H; inversion H; subst. cbn in L. injection L as L.
           unfold in_box in H3. cbn in H3. specialize (IH _ _ L H5). cbn. split; [lia|exact IH].
      * cbn [rm]. nia.
Qed.

Lemma sel_space_not_thin : forall b es st sz ct h, Forall2 in_box sz (combine st ct) -> length st = length ct ->
  0 < es -> ct <> [] -> ~ thin ct -> sel_space b es st sz ct = Ok h ->
  exists z, In z (subarray b es sz ct st) /\ ~ In z (hs_bytes h).
Proof.
  intros b es st sz ct h HB L He Hne HT Hh. pose proof (app_removelast_last 1 Hne) as HA.
  remember (last ct 1) as n eqn:En. clear En. unfold thin in HT. destruct (removelast ct) as [|c0 mid] eqn:EL; [exfalso; apply HT; constructor|].
  cbn [tl] in HT. 
  pose proof (boxes_pos _ _ _ HB L) as [P1 P2]. pose proof (boxes_len _ _ _ HB L) as L2.
  assert (P0 : 0 < n /\ 0 < c0 /\ Forall (fun x => 0 < x) mid).
  { clear - HA P1. rewrite HA in P1. cbn in P1. inversion P1; subst. apply Forall_app in H2. destruct H2 as [H2 H3]. apply Forall_inv in H3. auto. }
  destruct P0 as (Pn & Pc & Pm).
  assert (Hm : 1 < Zprod mid).
  { clear - HT Pm. induction Pm as [|x l Hx Hl IH]; [exfalso; apply HT; constructor|]. rewrite Zprod_cons.
    pose proof (Zprod_pos _ Hl). destruct (Z_le_gt_dec x 1).
    - assert (x = 1) by lia. subst. assert (1 < Zprod l); [|lia]. apply IH. intros F. apply HT. constructor; auto.
    - nia. }
  rewrite (sel_space_eq b es st sz ct c0 mid n HA HB L He) in Hh by nia. inversion Hh; subst h; clear Hh.
  destruct st as [|s st]; [rewrite HA in L; discriminate|]. destruct sz as [|d sz]; [rewrite HA in L2; discriminate|].
  rewrite HA in HB, L. cbn in HB, L. inversion HB as [|? ? ? ? B1 B2]; subst x y l l'. injection L as L.
  unfold in_box in B1. cbn in B1.
  destruct (far_coord _ _ _ B2 L) as (c & C1 & C2).
  { rewrite removelast_last. exact HT. }
  rewrite last_last in C2.
  exists (b + es * rm (d :: sz) ((s + 0) :: c)). split.
  - rewrite HA. unfold subarray. apply in_flat_map. exists ((s + 0) :: c). split.
    + cbn [app coords_of]. apply in_flat_map. exists 0. split; [apply zseq_In; lia|]. apply in_map. exact C1.
    + apply In_byte_range. rewrite lin_rm. lia.
  - unfold hs_bytes. cbn [h_count h_start h_stride h_block tl]. intros Hi. apply in_flat_map in Hi.
    destruct Hi as (i & I1 & I2). apply zseq_In in I1. apply In_byte_range in I2. cbn [rm] in I2.
    assert (0 < Zprod sz) by (apply Zprod_pos; apply Forall_inv_tail in P2; exact P2).
    set (x := rm sz c) in *. set (y := rm sz st) in *. set (P := Zprod sz) in *.
    assert (E : i * P * es <= es * (x - y) < i * P * es + n * es) by lia.
    destruct (Z_le_gt_dec i 0).
    + assert (i = 0) by lia. subst i. nia.
    + assert (P <= i * P) by nia. nia.
Qed.

(** ** One selection *)
Lemma hsel_thin : forall b ext es st sz ct, Forall2 in_box sz (combine st ct) -> length st = length ct ->
  0 < es -> ct <> [] -> thin ct -> 0 <= b -> b + es * Zprod sz <= ext ->
  exists h, sel_space b es st sz ct = Ok h /\ hsel ext h = Ok (subarray b es sz ct st).
Proof.
  intros b ext es st sz ct HB L He Hne HT Hb Hx.
  destruct (sel_space_thin_bytes b es st sz ct HB L He Hne HT) as (h & E1 & E2 & E3 & E4 & E5).
  exists h. split; auto. rewrite <- E2. apply (hsel_ok ext h b); auto. rewrite E2. intros z Hz.
  assert (Forall (fun z => b <= z < b + es * Zprod sz) (subarray b es sz ct st)) as HF.
  { apply subarray_sorted; auto. apply (boxes_len _ _ _ HB L). }
  rewrite Forall_forall in HF. specialize (HF z Hz). cbn beta in HF. lia.
Qed.

Lemma subarray_shift : forall d b es sz ct st, map (fun x => d + x) (subarray b es sz ct st) = subarray (d + b) es sz ct st.
Proof.
  intros. unfold subarray. rewrite flat_map_concat_map, concat_map, map_map, <- flat_map_concat_map.
  apply flat_map_ext. intros c. unfold byte_range. rewrite map_map. apply map_ext. intros. lia.
Qed.

Lemma pt_single_ok : forall lds file mem s, laid_out lds -> piece_ok s -> fits_buffer s -> thin (sr_count s) -> stored_in lds s ->
  pt_single lds file mem s = Ok (mpi_read file mem (single_pairs s)).
Proof.
  intros lds file mem s HL HP HF HT ([doff len] & D1 & D2 & D3). cbn [fst snd] in *.
  pose proof (block_nonempty _ HP) as HN.
  unfold pt_single. fold (block_from s). change (sr_key s) with (block_from s).
  rewrite (foff_inside lds (doff, len)) by (cbn [fst snd]; auto; lia).
  pose proof HP as (P1 & P2 & P3 & P4 & P5 & P6 & P7 & P8).
  destruct (sr_count s) as [|c0 cs] eqn:Ec; [congruence|]. rewrite <- Ec in *.
  assert (Hne : sr_count s <> []) by congruence.
  destruct (hsel_thin (block_from s - doff) len (sr_esize s) (sr_dstart s) (sr_dsize s) (sr_count s) P6 P7 P1 Hne HT) as (fh & F1 & F2); [lia|unfold block_to in D3; lia|].
  destruct (hsel_thin 0 (sr_esize s * Zprod (sr_msize s)) (sr_esize s) (sr_mstart s) (sr_msize s) (sr_count s) HF P4 P1 Hne HT) as (mh & M1 & M2); [lia|lia|].
  rewrite F1. cbn [bind]. rewrite F2. cbn [bind]. rewrite M1. cbn [bind]. rewrite M2. cbn [bind].
  unfold under_read.
  rewrite (subarray_length (block_from s - doff) 0 (sr_esize s) (sr_dsize s) (sr_msize s) (sr_count s) (sr_dstart s) (sr_mstart s)) by auto.
  rewrite Nat.eqb_refl, !subarray_shift. unfold single_pairs. change (sr_key s) with (block_from s).
  do 3 f_equal; f_equal; lia.
Qed.

(** ** Rows *)
Definition row_fits (B E : Z) (r : row) : Prop :=
  B <= ro_f r /\ 0 <= ro_len r /\ (0 < ro_len r -> ro_f r + ro_len r <= E).

Lemma trimmed_fits : forall B E k l, row_fits B E l -> row_fits B E (trimmed k l).
Proof.
  intros B E k l (H1 & H2 & H3). unfold trimmed. destruct (Z.ltb_spec (ro_f l) (ro_f k + ro_len k)); [|split; auto].
  unfold row_fits. cbn [ro_f ro_len]. destruct (Z.min_spec (ro_len l) (ro_f k - ro_f l + ro_len k)) as [[M1 ->]|[M1 ->]]; lia.
Qed.

Lemma trim_fits : forall B E n rs, Forall (row_fits B E) rs -> Forall (row_fits B E) (fst (trim n rs)).
Proof.
  induction n as [|n IH]; intros rs H; [destruct rs; exact H|]. destruct rs as [|k rest]; [exact H|]. cbn [trim].
  pose proof (trim_later_fst k rest) as HT. destruct (trim_later k rest) as [rest' cs]. cbn [fst] in HT. subst rest'.
  inversion H; subst. specialize (IH (map (trimmed k) rest)).
  destruct (trim n (map (trimmed k) rest)). cbn [fst] in *. constructor; auto. apply IH.
  apply Forall_forall. intros r Hr. apply in_map_iff in Hr. destruct Hr as (rr & <- & Hl). apply trimmed_fits.
  rewrite Forall_forall in H3. auto.
Qed.

Lemma map_zseq_range : forall b n, map (fun x => b + x) (zseq n) = byte_range b n.
Proof. reflexivity. Qed.

Lemma pt_row_ok : forall lds file mem r d, laid_out lds -> In d lds -> row_fits (fst d) (fst d + snd d) r ->
  pt_row lds file mem r = Ok (mpi_read file mem (row_pairs r)).
Proof.
  intros lds file mem r d HL Hd (R1 & R2 & R3). unfold pt_row.
  destruct (Z.eq_dec (ro_len r) 0) as [Hz|Hz].
  - destruct (foff_found lds d (ro_f r) Hd R1) as ([doff len] & ->).
    unfold hsel, sel_space0. cbn [h_count h_block]. rewrite Hz. cbn [Z.mul Z.eqb orb bind].
    unfold row_pairs. rewrite Hz. reflexivity.
  - destruct d as [doff len]. cbn [fst snd] in *. assert (0 < ro_len r) by lia. specialize (R3 H).
    rewrite (foff_inside lds (doff, len)) by (cbn [fst snd]; auto; lia).
    unfold hsel, sel_space0. cbn [h_count h_block h_start h_stride].
    rewrite Z.mul_1_r. destruct (Z.eqb_spec (ro_len r) 0); [lia|]. change (1 =? 0) with false. change (1 <? 1) with false. cbn [orb andb].
    destruct (Z.ltb_spec (ro_f r - doff) 0); [lia|]. cbn [orb].
    destruct (Z.ltb_spec len (ro_f r - doff + (1 - 1) * 1 + ro_len r)); [lia|]. cbn [bind].
    unfold hs_bytes. cbn [h_count h_block h_start h_stride]. change (zseq 1) with [0]. cbn [flat_map]. rewrite app_nil_r.
    unfold under_read, byte_range. rewrite map_length, Nat.eqb_refl. unfold row_pairs, byte_range. rewrite map_map.
    do 3 f_equal. apply map_ext. intros. lia.
Qed.

Lemma mpi_read_app : forall file mem a b, mpi_read file mem (a ++ b) = mpi_read file (mpi_read file mem a) b.
Proof. intros. unfold mpi_read. apply fold_left_app. Qed.

Lemma pt_rows_ok : forall lds file d rs mem, laid_out lds -> In d lds -> Forall (row_fits (fst d) (fst d + snd d)) rs ->
  pt_rows lds file mem rs = Ok (mpi_read file mem (flat_map row_pairs rs)).
Proof.
  intros lds file d. induction rs as [|r rs IH]; intros mem HL Hd H; [reflexivity|]. inversion H; subst.
  cbn [pt_rows flat_map]. rewrite (pt_row_ok lds file mem r d) by auto. cbn [bind]. rewrite IH by auto.
  rewrite mpi_read_app. reflexivity.
Qed.

Lemma rows_fit : forall s r, piece_ok s -> In r (rows_of s) -> row_fits (block_from s) (block_to s) r.
Proof.
  intros s r HP Hr. pose proof (rows_len_pos s r (piece_sr_ok _ HP) Hr) as HPos.
  destruct (pbytes_sorted s HP) as [_ HB]. rewrite Forall_forall in HB.
  assert (HI : forall z, In z (rbytes r) -> block_from s <= z < block_to s).
  { intros z Hz. apply HB. unfold pbytes. rewrite <- (rows_pairs s (piece_sr_ok _ HP)).
    rewrite flat_map_concat_map, concat_map, map_map, <- flat_map_concat_map. apply in_flat_map. exists r. split; auto.
    rewrite rbytes_pairs. exact Hz. }
  pose proof (HI (ro_f r)) as H1. pose proof (HI (ro_f r + ro_len r - 1)) as H2. unfold rbytes in H1, H2.
  rewrite In_byte_range in H1, H2. split; lia.
Qed.

Lemma pt_group_ok : forall lds file mem g, g <> [] -> laid_out lds -> Forall piece_ok g -> Forall fits_buffer g ->
  Forall (fun s => thin (sr_count s)) g -> Forall (stored_in lds) g -> (forall x y, In x g -> In y g -> same_ext x y) ->
  pt_group lds file mem g = Ok (mpi_read file mem (fst (group_rtype g)), snd (group_rtype g)).
Proof.
  intros lds file mem g Hne HL HP HF HT HS HX.
  destruct g as [|s [|s2 g]]; [congruence| |].
  - cbn [pt_group group_rtype fst snd]. rewrite (pt_single_ok lds file mem s HL (Forall_inv HP) (Forall_inv HF) (Forall_inv HT) (Forall_inv HS)). reflexivity.
  - unfold pt_group, group_rtype. set (gg := s :: s2 :: g) in *.
    replace (existsb _ gg) with false.
    2: { symmetry. apply not_true_is_false. intros H. apply existsb_exists in H. destruct H as (x & Hx & E).
         rewrite Forall_forall in HP. destruct (HP x Hx) as (_ & Q & _). destruct (sr_count x); congruence. }
    set (rs := flat_map rows_of gg).
    destruct (Forall_inv HS) as (d & D1 & D2 & D3).
    assert (HR : Forall (row_fits (fst d) (fst d + snd d)) rs).
    { apply Forall_forall. intros r Hr. unfold rs in Hr. apply in_flat_map in Hr. destruct Hr as (x & Hx & Hr).
      rewrite Forall_forall in HP, HS. pose proof (HP x Hx) as Px. destruct (HS x Hx) as (d' & E1 & E2 & E3).
      assert (block_from x = block_from s).
      { destruct (HX x s Hx (or_introl eq_refl)). unfold block_from. congruence. }
      pose proof (block_nonempty _ Px). pose proof (block_nonempty _ (HP s (or_introl eq_refl))).
      assert (d' = d).
      { pose proof (foff_inside lds d (block_from s) HL D1 ltac:(lia)).
        pose proof (foff_inside lds d' (block_from x) HL E1 ltac:(lia)). congruence. }
      subst d'. destruct (rows_fit x r Px Hr) as (A1 & A2 & A3). split; lia. }
    destruct (sortoffsets_ok (S (length rs)) rs ltac:(lia)) as [_ S2].
    assert (HR2 : Forall (row_fits (fst d) (fst d + snd d)) (sortoffsets (S (length rs)) rs)).
    { eapply Permutation_Forall; eauto. }
    apply (trim_fits _ _ (length rs)) in HR2.
    destruct (trim (length rs) (sortoffsets (S (length rs)) rs)) as [rs' cs]. cbn [fst snd] in *.
    rewrite (pt_rows_ok lds file d) by auto. reflexivity.
Qed.

Lemma groups_from_nonempty : forall rest cur j g, cur <> [] -> In g (groups_from cur j rest) -> g <> [].
Proof.
  assert (HR : forall l : list sret, l <> [] -> rev l <> []).
  { intros l H E. apply H. rewrite <- (rev_involutive l), E. reflexivity. }
  induction rest as [|b rest IH]; intros cur j g Hc Hg; cbn [groups_from] in Hg.
  - destruct Hg as [<-|[]]. auto.
  - destruct (_ && _ && _).
    + eapply IH; [|exact Hg]. discriminate.
    + destruct Hg as [<-|Hg]; [auto|]. eapply IH; [|exact Hg]. discriminate.
Qed.

Lemma pt_read_ok : forall sort lds file mem blocks, is_sort sort -> laid_out lds ->
  Forall piece_ok blocks -> Forall fits_buffer blocks -> Forall (fun s => thin (sr_count s)) blocks ->
  Forall (stored_in lds) blocks ->
  pt_read sort lds file mem blocks = Ok (perform_read sort file mem blocks).
Proof.
  intros sort lds file mem blocks Hs HL HP HF HT HS. unfold pt_read, perform_read, gen_rtypes.
  pose proof (proj1 (Hs blocks)) as HPm.
  assert (HG : forall P, Forall P blocks -> forall g, In g (groups (sort blocks)) -> Forall P g).
  { intros P H g Hg. apply Forall_forall. intros x Hx. rewrite Forall_forall in H. apply H.
    apply (Permutation_in _ (Permutation_sym HPm)).
    assert (Hc : In x (concat (groups (sort blocks)))) by (apply in_concat; eauto). rewrite groups_concat in Hc. exact Hc. }
  assert (HN : forall g, In g (groups (sort blocks)) -> g <> []).
  { intros g Hg. destruct (sort blocks) as [|b rest]; [destruct Hg|]. cbn [groups] in Hg.
    eapply groups_from_nonempty; [|exact Hg]. discriminate. }
  pose proof (groups_same (sort blocks)) as HX.
  assert (HAll : forall gs mem, (forall g, In g gs -> In g (groups (sort blocks))) ->
    pt_groups lds file mem gs = Ok (mpi_read file mem (flat_map fst (map group_rtype gs)), flat_map snd (map group_rtype gs))).
  { induction gs as [|g gs IH]; intros mem0 Hin; [reflexivity|]. cbn [pt_groups map flat_map].
    assert (Hg : In g (groups (sort blocks))) by (apply Hin; left; auto).
    rewrite (pt_group_ok lds file mem0 g) by eauto. cbn [bind fst snd].
    rewrite IH by (intros; apply Hin; right; auto). cbn [bind fst snd]. rewrite mpi_read_app. reflexivity. }
  rewrite HAll by auto. reflexivity.
Qed.
