(** Lemmas behind P_Int.v. *)
From Coq Require Import ZifyNat ZifyN.
From Verif Require Import Base BaseProofs Spec MetaModel QueueModel FlushModel IndexModel ReadModel SysModel
  IntModel IntSpec.

(** ** The stored length of a buffer *)
Lemma i32_small : forall z, 0 <= z < 2 ^ 31 -> i32 z = z.
Proof. intros z H. unfold i32, to_signed. change (2 ^ (8 * Z.of_nat 4)) with (2 ^ 32). rewrite Z.mod_small by lia. change (8 * Z.of_nat 4 - 1) with 31. replace (z <? 2 ^ 31) with true by (symmetry; apply Z.ltb_lt; lia). reflexivity. Qed.
Lemma i32_low : forall z, z mod 2 ^ 32 < 2 ^ 31 -> i32 z = z mod 2 ^ 32.
Proof. intros z H. unfold i32, to_signed. change (8 * Z.of_nat 4 - 1) with 31. replace (_ <? 2 ^ 31) with true by (symmetry; apply Z.ltb_lt; lia). reflexivity. Qed.
Lemma i32_high : forall z, 2 ^ 31 <= z mod 2 ^ 32 -> i32 z < 0.
Proof. intros z H. unfold i32, to_signed. change (8 * Z.of_nat 4 - 1) with 31. replace (_ <? 2 ^ 31) with false by (symmetry; apply Z.ltb_ge; lia). change (2 ^ (8 * Z.of_nat 4)) with (2 ^ 32). pose proof (Z.mod_pos_bound z (2 ^ 32)). lia. Qed.

Lemma Zlen_nonneg' : forall A (l : list A), 0 <= Zlen l.
Proof. intros. unfold Zlen. lia. Qed.

Definition light (w : wreq) : Prop := Zlen (w_data w) < 2 ^ 31.
Lemma light_cut : forall ws, Forall light ws ->
  existsb (fun w => blk_len w <? 0) ws = false /\ flat_map (fun w => firstn (Z.to_nat (blk_len w)) (w_data w)) ws = flat_map w_data ws.
Proof.
  induction 1 as [|w ws H _ (IH1 & IH2)]; [split; reflexivity|]. unfold light in H. cbn [existsb flat_map].
  pose proof (Zlen_nonneg' _ (w_data w)). unfold blk_len. rewrite i32_small by lia.
  replace (Zlen (w_data w) <? 0) with false by (symmetry; apply Z.ltb_ge; lia). split; [exact IH1|].
  f_equal; [|exact IH2]. unfold Zlen. rewrite Nat2Z.id. apply firstn_all.
Qed.

(** ** Invariant of a moderate history *)
Definition lens (ws : list wreq) : Z := Zlen (flat_map w_data ws).
Lemma lens_app : forall a b, lens (a ++ b) = lens a + lens b.
Proof. intros. unfold lens. rewrite flat_map_app. unfold Zlen. rewrite app_length. lia. Qed.
Lemma skipn_app_le : forall A n (a b : list A), (n <= length a)%nat -> skipn n (a ++ b) = skipn n a ++ b.
Proof. intros. rewrite skipn_app. replace (n - length a)%nat with 0%nat by lia. reflexivity. Qed.

Definition info_ok (o : option dinfo) : Prop := match o with Some d => (length (di_dims d) <= 32)%nat | None => True end.
Definition rank_ok (n D B : Z) (st : rank) : Prop :=
  Forall light (unflushed st) /\ (k_nflushed st <= length (k_wreqs st))%nat /\ Zlen (k_wreqs st) <= n /\ lens (unflushed st) <= D /\ meta_len st <= 64 * n + 512 * B.
Definition inv (n D B : Z) (s : sys) : Prop :=
  0 <= n /\ 0 <= D /\ 0 <= B /\ Forall info_ok (g_infos (s_g s)) /\ Forall (rank_ok n D B) (g_ranks (s_g s)) /\ Zlen (g_ranks (s_g s)) < 2 ^ 20.

Lemma set_dims_len : forall dims mdims new, length (fst (set_dims dims mdims new)) = length dims.
Proof.
  induction dims as [|d dims IH]; intros [|m mdims] [|x new]; cbn [set_dims fst length]; auto.
  destruct (_ && _); cbn [fst length]; auto. specialize (IH mdims new). destruct (set_dims dims mdims new) as [r o]. cbn [fst length] in *. lia.
Qed.

Lemma mk_size : forall cfg did dip md sels, (length (di_dims dip) <= 32)%nat ->
  h_size (w_hdr (mk_wreq cfg did dip md sels)) <= 64 + 512 * Zlen sels.
Proof.
  intros cfg did dip md sels H. unfold mk_wreq. cbn [w_hdr h_size]. unfold Zlen.
  set (ed := if is_rec dip sels then (di_ndim dip - 1)%nat else di_ndim dip).
  assert (E : Z.of_nat ed <= 32) by (unfold ed, di_ndim; destruct (is_rec _ _); lia).
  assert (Hn : 0 <= Z.of_nat (length sels)) by lia. assert (Hh : Z.of_nat HDR = 28) by reflexivity. rewrite Hh.
  assert (M : Z.of_nat ed * Z.of_nat (length sels) <= 32 * Z.of_nat (length sels)) by (apply Z.mul_le_mono_nonneg_r; lia).
  destruct (is_rec dip sels); destruct (Nat.ltb_spec 1 (length sels)); cbn [andb]; try destruct (1 <? ed)%nat; try destruct (has cfg CFG_SEL_ENCODE); cbn [andb]; lia.
Qed.

Lemma finish_size : forall z cfg st r x tbl zb, finish_meta z cfg st r = Ok (x, tbl, zb) -> h_size (w_hdr x) <= h_size (w_hdr r).
Proof.
  intros z cfg st r x tbl zb H. unfold finish_meta in H. destruct (dedup cfg st r) as [[[r1 t1] sz1]| |] eqn:E; cbn [bind] in H; try discriminate.
  assert (E1 : h_size (w_hdr r1) = h_size (w_hdr r)).
  { unfold dedup in E. destruct (_ && _); [|injection E as <- <- <-; auto]. destruct (hash_find _ _) as [[t|]| |]; cbn [bind] in E; try discriminate; injection E as <- <- <-; reflexivity. }
  destruct (compress_sel z (k_zbsize st) r1 sz1) as [[r2 sz2] zb2] eqn:C. injection H as <- <- <-.
  assert (E2 : h_size (w_hdr r2) = h_size (w_hdr r1)).
  { unfold compress_sel in C. destruct (has (h_flag (w_hdr r1)) FLAG_SEL_DEFLATE); [|injection C as <- <- <-; auto].
    destruct (z_deflate z _ _) as [o out]. destruct (_ && _); injection C as <- <- <-; reflexivity. }
  unfold shrink. destruct (Z.ltb_spec (Z.of_nat HDR + Z.of_nat (w_selpos r2) + sz2) (h_size (w_hdr r2))); [|lia]. unfold w_resize. cbn [w_hdr h_size]. lia.
Qed.

Lemma ds_write_ok : forall z cfg infos st did sels data st' n D B, Forall info_ok infos -> rank_ok n D B st -> Zlen data < 2 ^ 31 ->
  ds_write z cfg infos st did sels data = Ok st' -> rank_ok (n + 1) (D + Zlen data) (B + Zlen sels) st'.
Proof.
  intros z cfg infos st did sels data st' n D B HI (R1 & R2 & R3 & R4 & R5) HD H.
  pose proof (Zlen_nonneg' _ data). pose proof (Zlen_nonneg' _ sels). unfold ds_write in H. destruct sels as [|b0 sels0].
  { injection H as <-. unfold rank_ok. repeat split; auto; lia. }
  destruct (nth_error infos (Z.to_nat did)) as [[dip|]|] eqn:EN; try discriminate.
  assert (HL : (length (di_dims dip) <= 32)%nat) by (rewrite Forall_forall in HI; apply nth_error_In in EN; apply (HI _ EN)).
  destruct (finish_meta _ _ _ _) as [[[r tbl] zb]| |] eqn:EF; cbn [bind] in H; try discriminate. injection H as <-. apply finish_size in EF.
  pose proof (mk_size cfg did dip (k_mdsize st) (b0 :: sels0) HL). unfold rank_ok, unflushed, meta_len in *. cbn [k_wreqs k_nflushed].
  rewrite skipn_app_le by lia. rewrite lens_app, map_app, Zsum_app, app_length. repeat split.
  - apply Forall_app. split; auto.
  - cbn. lia.
  - unfold Zlen in *. rewrite app_length. cbn [length]. lia.
  - unfold lens. cbn [flat_map]. rewrite app_nil_r. unfold lens in R4. cbn [set_data w_data]. lia.
  - cbn [map Zsum fold_right]. cbn [set_data w_hdr h_size]. lia.
Qed.

Lemma rank_ok_mono : forall n D B n' D' B' st, n <= n' -> D <= D' -> B <= B' -> rank_ok n D B st -> rank_ok n' D' B' st.
Proof. intros n D B n' D' B' st H1 H2 H3 (R1 & R2 & R3 & R4 & R5). unfold rank_ok. repeat split; auto; lia. Qed.

Lemma assign_keeps : forall ws o, map w_data (assign_foff o ws) = map w_data ws /\ map (fun w => h_size (w_hdr w)) (assign_foff o ws) = map (fun w => h_size (w_hdr w)) ws.
Proof. induction ws as [|w ws IH]; intros o; [split; reflexivity|]. cbn [assign_foff map]. destruct (IH (o + h_fsize (w_hdr w))) as (A & B). rewrite A, B. split; reflexivity. Qed.
Lemma light_data : forall a b, map w_data a = map w_data b -> Forall light a -> Forall light b.
Proof. intros a. induction a as [|x a IH]; intros [|y b] H HF; try discriminate; constructor; cbn in H; injection H as H1 H2; inversion HF; subst; [unfold light in *; rewrite <- H1; auto|apply IH; auto]. Qed.
Lemma lens_data : forall a, lens a = Zsum (map (@Zlen Z) (map w_data a)).
Proof. induction a as [|x a IH]; [reflexivity|]. unfold lens in *. cbn [flat_map map Zsum fold_right]. unfold Zlen in *. rewrite app_length. unfold Zsum in IH. lia. Qed.

Lemma rank_assign_ok : forall n D B st, rank_ok n D B st -> rank_ok n D B (rank_assign st).
Proof.
  intros n D B st (R1 & R2 & R3 & R4 & R5). destruct (assign_keeps (unflushed st) 0) as (A1 & A2).
  assert (HL : length (assign_foff 0 (unflushed st)) = length (unflushed st)) by (rewrite <- (map_length w_data), A1, map_length; auto).
  assert (HF : length (flushed st) = k_nflushed st) by (unfold flushed; rewrite firstn_length; lia).
  assert (HU : unflushed (rank_assign st) = assign_foff 0 (unflushed st)).
  { unfold unflushed at 1, rank_assign. cbn [k_wreqs k_nflushed]. rewrite skipn_app, HF, Nat.sub_diag, <- HF, skipn_all. reflexivity. }
  assert (HT : (length (flushed st) + length (unflushed st) = length (k_wreqs st))%nat) by (rewrite <- app_length; unfold flushed, unflushed; rewrite firstn_skipn; auto).
  unfold rank_ok. rewrite HU. repeat split.
  - eapply light_data; [symmetry; exact A1|exact R1].
  - unfold rank_assign. cbn [k_wreqs k_nflushed]. rewrite app_length. lia.
  - unfold rank_assign, Zlen in *. cbn [k_wreqs]. rewrite app_length. lia.
  - rewrite lens_data, A1, <- lens_data. exact R4.
  - unfold meta_len, rank_assign in *. cbn [k_wreqs]. rewrite map_app, A2, <- map_app. unfold flushed, unflushed. rewrite firstn_skipn. exact R5.
Qed.
Lemma rank_flushed_ok : forall n D B st b, 0 <= D -> rank_ok n D B st -> rank_ok n D B (rank_flushed b st).
Proof.
  intros n D B st b HD (R1 & R2 & R3 & R4 & R5). destruct (assign_keeps (unflushed st) 0) as (A1 & A2).
  assert (HL : length (assign_foff 0 (unflushed st)) = length (unflushed st)) by (rewrite <- (map_length w_data), A1, map_length; auto).
  assert (HT : (length (flushed st) + length (unflushed st) = length (k_wreqs st))%nat) by (rewrite <- app_length; unfold flushed, unflushed; rewrite firstn_skipn; auto).
  unfold rank_ok, unflushed at 1 2, rank_flushed. cbn [k_wreqs k_nflushed]. rewrite skipn_all. repeat split; auto.
  - unfold Zlen in *. rewrite app_length, map_length. lia.
  - unfold meta_len in *. cbn [k_wreqs]. rewrite map_app, map_map. cbn [set_foff w_hdr h_size]. rewrite A2, <- map_app. unfold flushed, unflushed. rewrite firstn_skipn. exact R5.
Qed.
Lemma rank_empty_ok : forall n D B z, 0 <= n -> 0 <= D -> 0 <= B -> rank_ok n D B (mkrank [] 0 0 [] z).
Proof. intros. unfold rank_ok, unflushed, meta_len, lens, Zlen. cbn [k_wreqs k_nflushed skipn flat_map length map Zsum fold_right Z.of_nat]. repeat split; auto; lia. Qed.

Lemma combine_snd_in : forall A B (a : list A) (b : list B) (P : B -> Prop), Forall P b -> Forall (fun p => P (snd p)) (combine a b).
Proof. intros A B a b P H. apply Forall_forall. intros [x y] Hin. apply in_combine_r in Hin. rewrite Forall_forall in H. apply (H _ Hin). Qed.
Lemma exscan_len : forall l a, length (exscan a l) = length l.
Proof. induction l; intros; cbn; auto. Qed.

Lemma flush_ranks_len : forall doff g, length (g_ranks (flush_writes doff g)) = length (g_ranks g).
Proof.
  intros. unfold flush_writes. destruct (_ =? 0); cbn [g_ranks]; rewrite map_length; auto. rewrite combine_length, map_length, exscan_len, map_length. lia.
Qed.
Lemma flush_ok : forall n D B doff g, 0 <= D -> Forall (rank_ok n D B) (g_ranks g) -> Forall (rank_ok n D B) (g_ranks (flush_writes doff g)).
Proof.
  intros n D B doff g HD H. unfold flush_writes. destruct (_ =? 0); cbn [g_ranks]; apply Forall_map.
  - revert H. apply Forall_impl. intros. apply rank_assign_ok. auto.
  - eapply Forall_impl; [|apply combine_snd_in, H]. intros [b st] Hs. cbn [fst snd] in *. apply rank_flushed_ok; auto.
Qed.

Lemma existsb_false : forall A (f : A -> bool) l, Forall (fun x => f x = false) l -> existsb f l = false.
Proof. induction 1; cbn; auto. rewrite H, IHForall. reflexivity. Qed.

Definition within (cfg n D B : Z) : Prop := n < 2 ^ 31 /\ (has cfg CFG_PASSTHRU = true -> n < 2 ^ 20 /\ B <= 2 ^ 20 /\ D < 2 ^ 31).

Lemma flush_int_same : forall n D B doff g, Forall (rank_ok n D B) (g_ranks g) -> within (g_cfg g) n D B -> flush_int doff g = Ok (flush_writes doff g).
Proof.
  intros n D B doff g H (W1 & W2). unfold flush_int.
  rewrite existsb_false by (eapply Forall_impl; [|exact H]; intros st (_ & _ & R3 & _); apply Z.leb_gt; lia).
  destruct (has (g_cfg g) CFG_PASSTHRU).
  - rewrite existsb_false; [reflexivity|]. eapply Forall_impl; [|exact H]. intros st (_ & _ & _ & R4 & _). destruct (W2 eq_refl) as (_ & _ & W). apply Z.leb_gt. unfold lens in R4. unfold local_bytes. lia.
  - rewrite existsb_false by (eapply Forall_impl; [|exact H]; intros st (R1 & _); apply (light_cut _ R1)).
    unfold flush_writes. destruct (_ =? 0); [reflexivity|]. do 2 f_equal.
    assert (HC : Forall (fun p : Z * rank => cut_bytes (snd p) = local_bytes (snd p)) (combine (map (fun o => o + doff) (exscan 0 (map (fun st => local_size (unflushed st)) (g_ranks g)))) (g_ranks g))).
    { apply (combine_snd_in _ _ _ _ (fun st => cut_bytes st = local_bytes st)). eapply Forall_impl; [|exact H]. intros st (R1 & _). apply (light_cut _ R1). }
    revert HC. generalize (g_file g). generalize (combine (map (fun o => o + doff) (exscan 0 (map (fun st => local_size (unflushed st)) (g_ranks g)))) (g_ranks g)).
    clear. intros l. induction l as [|p l IH]; intros f HC; [reflexivity|]. inversion HC; subst. cbn [fold_left]. rewrite H1. apply IH. auto.
Qed.

Lemma prefix_map_cons : forall rs, meta_sizes rs = match map meta_len rs with [] => [] | s0 :: rest => (8 * (Zlen rs + 1) + s0) :: rest end.
Proof. reflexivity. Qed.
Lemma metaflush_int_same : forall n D B g, 0 <= n -> 0 <= B -> Forall (rank_ok n D B) (g_ranks g) -> within (g_cfg g) n D B -> Zlen (g_ranks g) < 2 ^ 20 -> metaflush_int g = Ok (metaflush g).
Proof.
  intros n D B g Hn HB H (_ & W) HZ. unfold metaflush_int. destruct (has (g_cfg g) CFG_PASSTHRU); [|reflexivity]. cbn [andb]. destruct (W eq_refl) as (W1 & W2 & _).
  rewrite existsb_false; [reflexivity|]. unfold meta_sizes. destruct (g_ranks g) as [|r rs]; [constructor|]. inversion H; subst. cbn [map]. constructor.
  - destruct H2 as (_ & _ & _ & _ & R). apply Z.leb_gt. lia.
  - apply Forall_map. eapply Forall_impl; [|exact H3]. intros st (_ & _ & _ & _ & R). apply Z.leb_gt. lia.
Qed.

Lemma step_int_same : forall e s o n D B, inv n D B s -> moderate o -> within (g_cfg (s_g s)) (n + 1) (D + data_bytes o) (B + blocks_of o) -> step_int e s o = step e s o.
Proof.
  intros e s o n D B (I1 & I2 & I3 & I4 & I5 & I6) HM HW.
  destruct o as [d|did dims|rk did sels data|doff|doff calls|doff np]; cbn [step_int]; try reflexivity; cbn [data_bytes blocks_of moderate] in *.
  - cbn [step]. destruct (nth_error (g_ranks (s_g s)) rk) as [st|]; auto.
    replace (entry_fits (s_g s) st did sels) with true; [reflexivity|]. symmetry. unfold entry_fits. destruct sels as [|b0 sels0]; auto.
    destruct (nth_error (g_infos (s_g s)) (Z.to_nat did)) as [[dip|]|] eqn:EN; auto.
    assert (HL : (length (di_dims dip) <= 32)%nat) by (rewrite Forall_forall in I4; apply nth_error_In in EN; apply (I4 _ EN)).
    pose proof (mk_size (g_cfg (s_g s)) did dip (k_mdsize st) (b0 :: sels0) HL). apply Z.ltb_lt. change (2 ^ 31) with (1024 * 2 ^ 21). lia.
  - cbn [step]. destruct (any_pending (s_g s)); [|reflexivity]. rewrite (flush_int_same (n + 1) (D + 0) (B + 0)); auto.
    eapply Forall_impl; [|exact I5]. intros st. apply rank_ok_mono; lia.
  - cbn [step]. rewrite !Z.add_0_r in *.
    assert (W : within (g_cfg (s_g s)) n D B) by (destruct HW as (W1 & W2); split; [lia|intros Hp; destruct (W2 Hp); lia]).
    assert (F : (if e_coll e && any_pending (s_g s) then flush_int doff (s_g s) else Ok (s_g s)) = Ok (if e_coll e && any_pending (s_g s) then flush_writes doff (s_g s) else s_g s)).
    { destruct (_ && _); auto. apply (flush_int_same n D B); auto. }
    rewrite F. cbn [bind]. set (g1 := if _ : bool then flush_writes doff (s_g s) else s_g s).
    assert (G1 : Forall (rank_ok n D B) (g_ranks g1) /\ Zlen (g_ranks g1) < 2 ^ 20 /\ g_cfg g1 = g_cfg (s_g s)).
    { unfold g1. destruct (_ && _); auto. repeat split; [apply flush_ok; auto|unfold Zlen in *; rewrite flush_ranks_len; auto|unfold flush_writes; destruct (_ =? 0); auto]. }
    destruct G1 as (G1 & G2 & G3). destruct (g_metadirty g1); cbn [bind]; auto. rewrite (metaflush_int_same n D B); auto. rewrite G3. auto.
  - cbn [step]. rewrite !Z.add_0_r in *.
    assert (W : within (g_cfg (s_g s)) n D B) by (destruct HW as (W1 & W2); split; [lia|intros Hp; destruct (W2 Hp); lia]).
    rewrite (flush_int_same n D B) by auto. cbn [bind]. rewrite (metaflush_int_same n D B); auto.
    + apply flush_ok; auto.
    + replace (g_cfg (flush_writes doff (s_g s))) with (g_cfg (s_g s)); auto. unfold flush_writes. destruct (_ =? 0); auto.
    + unfold Zlen in *. rewrite flush_ranks_len. auto.
Qed.

Lemma upd_nth_len' : forall A i (a : A) l, length (upd_nth i a l) = length l.
Proof. induction i; intros a [|x l]; cbn; auto. Qed.
Lemma upd_nth_Forall : forall A (P : A -> Prop) i a l, P a -> Forall P l -> Forall P (upd_nth i a l).
Proof. intros A P i a l Ha H. revert i. induction H; intros [|i]; cbn; constructor; auto. Qed.
Lemma set_extent_len : forall cfg d new, length (di_dims (fst (set_extent cfg d new))) = length (di_dims d).
Proof. intros. unfold set_extent. pose proof (set_dims_len (di_dims d) (di_mdims d) new) as H. destruct (set_dims _ _ _) as [r [|]]; cbn [fst di_dims] in *; auto. Qed.
Lemma create_len : forall cfg d d', create_info cfg d = Ok d' -> di_dims d' = di_dims d.
Proof. intros cfg d d' H. unfold create_info in H. destruct (has _ _); [destruct (_ =? 0)%nat; [discriminate|]|]; injection H as <-; auto. Qed.
Lemma reopen_info_ok : forall cfg l l', reopen_infos cfg l = Ok l' -> Forall info_ok l -> Forall info_ok l'.
Proof.
  induction l as [|[d|] l IH]; intros l' H HF; cbn [reopen_infos] in H.
  - injection H as <-. constructor.
  - destruct (create_info cfg d) as [d'| |] eqn:E; try discriminate. cbn [bind] in H. destruct (reopen_infos cfg l) as [r| |]; try discriminate. injection H as <-.
    inversion HF; subst. constructor; [cbn; rewrite (create_len _ _ _ E); auto|apply IH; auto].
  - destruct (reopen_infos cfg l) as [r| |]; try discriminate. injection H as <-. inversion HF; subst. constructor; auto.
Qed.

Lemma inv_step : forall e s o s' out n D B, inv n D B s -> moderate o -> step e s o = Ok (s', out) ->
  inv (n + 1) (D + data_bytes o) (B + blocks_of o) s' /\ g_cfg (s_g s') = g_cfg (s_g s).
Proof.
  intros e s o s' out n D B (I1 & I2 & I3 & I4 & I5 & I6) HM H.
  assert (HB : 0 <= data_bytes o /\ 0 <= blocks_of o) by (destruct o; cbn [data_bytes blocks_of]; unfold Zlen; lia).
  assert (I5' : Forall (rank_ok (n + 1) (D + data_bytes o) (B + blocks_of o)) (g_ranks (s_g s))) by (eapply Forall_impl; [|exact I5]; intros st; apply rank_ok_mono; lia).
  unfold inv. destruct o as [d|did dims|rk did sels data|doff|doff calls|doff np]; cbn [step] in H; cbn [data_bytes blocks_of moderate] in *.
  - destruct (create_info _ d) as [i| |] eqn:E; try discriminate. injection H as <- <-. cbn [s_g set_infos g_infos g_ranks g_cfg]. repeat split; auto; try lia.
    apply Forall_app. split; auto. constructor; auto. cbn. rewrite (create_len _ _ _ E). auto.
  - destruct (info_at _ did) as [[i|]|] eqn:EI; try discriminate. destruct (set_extent _ i dims) as [i' [|]] eqn:E; try discriminate. injection H as <- <-. cbn [s_g set_infos g_infos g_ranks g_cfg]. repeat split; auto; try lia.
    apply upd_nth_Forall; auto. pose proof (set_extent_len (g_cfg (s_g s)) i dims) as L. rewrite E in L. cbn in *. rewrite L. unfold info_at in EI. destruct (did <? 0); try discriminate.
    rewrite Forall_forall in I4. apply nth_error_In in EI. apply (I4 _ EI).
  - destruct (nth_error (g_ranks (s_g s)) rk) as [st|] eqn:EN; try discriminate.
    destruct (ds_write _ _ _ st did sels data) as [st'| |] eqn:EW; try discriminate. injection H as <- <-. cbn [s_g set_ranks g_infos g_ranks g_cfg]. repeat split; auto; try lia.
    + apply upd_nth_Forall; auto. eapply ds_write_ok; eauto; [|apply HM]. rewrite Forall_forall in I5. apply I5. eapply nth_error_In; eauto.
    + unfold Zlen in *. rewrite upd_nth_len'. auto.
  - injection H as <- <-. cbn [s_g]. destruct (any_pending (s_g s)); [|repeat split; auto; lia]. 
    assert (EI : g_infos (flush_writes doff (s_g s)) = g_infos (s_g s) /\ g_cfg (flush_writes doff (s_g s)) = g_cfg (s_g s)) by (unfold flush_writes; destruct (_ =? 0); auto). destruct EI as (EI & EC).
    rewrite EI, EC. repeat split; auto; try lia. apply flush_ok; auto; lia. unfold Zlen in *; rewrite flush_ranks_len; auto.
  - destruct (read_each _ _ _ _) as [q| |]; try discriminate. injection H as <- <-. cbn [s_g]. set (g1 := if _ : bool then flush_writes doff (s_g s) else s_g s).
    assert (EI : g_infos g1 = g_infos (s_g s) /\ g_cfg g1 = g_cfg (s_g s) /\ Forall (rank_ok (n + 1) (D + 0) (B + 0)) (g_ranks g1) /\ length (g_ranks g1) = length (g_ranks (s_g s))).
    { unfold g1. destruct (_ && _); auto. repeat split; [unfold flush_writes; destruct (_ =? 0); auto|unfold flush_writes; destruct (_ =? 0); auto|apply flush_ok; auto; lia|apply flush_ranks_len]. }
    destruct EI as (EI & EC & ER & EL). destruct (g_metadirty g1); [|rewrite EI, EC; repeat split; auto; try lia; unfold Zlen in *; rewrite EL; auto].
    unfold metaflush. cbn [g_infos g_cfg g_ranks]. rewrite EI, EC. repeat split; auto; try lia; [|unfold Zlen in *; rewrite map_length, EL; auto].
    apply Forall_map, Forall_forall. intros. apply rank_empty_ok; lia.
  - destruct (reopen_infos _ _) as [r| |] eqn:E; try discriminate. injection H as <- <-. cbn [s_g g_infos g_cfg g_ranks]. repeat split; auto; try lia.
    + eapply reopen_info_ok; eauto.
    + apply Forall_forall. intros x Hx. apply repeat_spec in Hx. subst x. apply rank_empty_ok; lia.
    + unfold Zlen. rewrite repeat_length. auto.
Qed.

Lemma Zsum_nonneg' : forall l, Forall (fun x => 0 <= x) l -> 0 <= Zsum l.
Proof. induction 1; cbn [Zsum fold_right]; [lia|]. unfold Zsum in *. lia. Qed.
Lemma costs_nonneg : forall ops, 0 <= Zsum (map data_bytes ops) /\ 0 <= Zsum (map blocks_of ops).
Proof. intros. split; apply Zsum_nonneg', Forall_map, Forall_forall; intros o _; destruct o; cbn [data_bytes blocks_of]; unfold Zlen; lia. Qed.

Lemma within_less : forall cfg n D B n' D' B', within cfg n' D' B' -> n <= n' -> D <= D' -> B <= B' -> within cfg n D B.
Proof. intros cfg n D B n' D' B' (W1 & W2) H1 H2 H3. split; [lia|]. intros H. destruct (W2 H). lia. Qed.

Lemma run_int_from : forall e ops s n D B, inv n D B s -> Forall moderate ops ->
  within (g_cfg (s_g s)) (n + Zlen ops) (D + Zsum (map data_bytes ops)) (B + Zsum (map blocks_of ops)) -> run_int e s ops = run e s ops.
Proof.
  intros e. induction ops as [|o ops IH]; intros s n D B HI HM HW; [reflexivity|]. inversion HM; subst. cbn [run_int run].
  destruct (costs_nonneg ops) as (C1 & C2). assert (CO : 0 <= Zlen ops) by (unfold Zlen; lia).
  assert (EZ : Zlen (o :: ops) = 1 + Zlen ops) by (unfold Zlen; cbn [length]; lia).
  assert (ED : Zsum (map data_bytes (o :: ops)) = data_bytes o + Zsum (map data_bytes ops)) by reflexivity.
  assert (EB : Zsum (map blocks_of (o :: ops)) = blocks_of o + Zsum (map blocks_of ops)) by reflexivity.
  rewrite (step_int_same e s o n D B); auto; [|eapply within_less; [exact HW|lia..]].
  destruct (step e s o) as [[s' out]| |] eqn:E; cbn [bind fst snd]; auto. destruct (inv_step _ _ _ _ _ _ _ _ HI H1 E) as (HI' & EC).
  rewrite (IH s' (n + 1) (D + data_bytes o) (B + blocks_of o)); auto. rewrite EC. eapply within_less; [exact HW|lia..].
Qed.

Lemma inv_init : forall cfg np f0, Z.of_nat np < 2 ^ 20 -> inv 0 0 0 (init cfg np f0).
Proof.
  intros. unfold inv. cbn [init s_g g_infos g_ranks]. repeat split; auto; try lia.
  - apply Forall_forall. intros x Hx. apply repeat_spec in Hx. subst x. apply rank_empty_ok; lia.
  - unfold Zlen. rewrite repeat_length. auto.
Qed.

Lemma moderate_whole : forall e cfg np f0 ops, modest cfg np ops -> run_int e (init cfg np f0) ops = run e (init cfg np f0) ops.
Proof.
  intros e cfg np f0 ops (M1 & M2 & M3 & M4). apply (run_int_from e ops _ 0 0 0); auto; [apply inv_init; auto|].
  split; [lia|]. intros H. destruct (M4 H) as (A & B & C). lia.
Qed.
