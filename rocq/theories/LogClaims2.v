(** Lemmas behind P_Log.v, continued: metadata datasets of arbitrary queues and histories. *)
From Verif Require Import Base BaseProofs Spec MetaModel QueueModel FlushModel IndexModel SysModel History MergeModel
  SysSpec Examples LogSpec GeomProofs MetaProofs QueueProofs MdProofs FlushProofs LogClaims.
From Coq Require Import ZifyNat ZifyN Permutation.

Definition sizedw (w : wreq) : Prop := h_size (w_hdr w) = 28 + Zlen (w_body w) /\ (w_selpos w <= length (w_body w))%nat.
Lemma announced_body : forall w, announced w <-> h_size (w_hdr w) = 28 + Zlen (w_body w).
Proof.
  intros w. unfold announced, wreq_bytes. rewrite Zlen_app. replace (Zlen (enc_hdr (w_hdr w))) with 28; [tauto|]. unfold Zlen. rewrite enc_hdr_length. reflexivity.
Qed.

Lemma meta_len_any : forall st, Forall announced (k_wreqs st) -> meta_len st = Zlen (meta_bytes st).
Proof.
  intros st H. unfold meta_len, meta_bytes. induction H as [|w ws Hw H IH]; [reflexivity|].
  cbn [map flat_map Zsum fold_right]. unfold Zsum in IH. rewrite IH, Zlen_app. f_equal. exact Hw.
Qed.
Lemma md_layout_any : forall rs, rs <> [] -> Forall (fun st => Forall announced (k_wreqs st)) rs ->
  md_content rs = layout (map meta_bytes rs) /\
  Zsum (meta_sizes rs) = 8 * (Zlen rs + 1) + Zlen (concat (map meta_bytes rs)).
Proof.
  intros rs Hne HF.
  assert (HM : map meta_len rs = map (@Zlen Z) (map meta_bytes rs)).
  { rewrite map_map. apply map_ext_Forall. revert HF. apply Forall_impl. intros. apply meta_len_any. auto. }
  assert (HW : Zlen (words (md_map rs)) = 8 * (Zlen rs + 1)).
  { unfold Zlen at 1. rewrite words_length. unfold md_map. cbn [length]. rewrite prefix_ends_length. unfold meta_sizes, Zlen.
    destruct rs; [congruence|]. cbn [map length]. rewrite map_length. lia. }
  assert (HPz : map (@Zlen Z) (md_pieces rs) = meta_sizes rs).
  { unfold md_pieces, meta_sizes. destruct rs as [|r0 rest]; [congruence|]. cbn [map] in HM |- *. injection HM as HM0 HM1.
    rewrite Zlen_app, HW, HM0, HM1. reflexivity. }
  assert (HC : concat (md_pieces rs) = words (md_map rs) ++ concat (map meta_bytes rs)).
  { unfold md_pieces. destruct rs as [|r0 rest]; [congruence|]. cbn [concat map]. rewrite app_assoc. reflexivity. }
  assert (HT : Zsum (meta_sizes rs) = Zlen (concat (md_pieces rs))).
  { rewrite <- HPz. generalize (md_pieces rs). induction l; [reflexivity|]. cbn [map concat Zsum fold_right]. rewrite Zlen_app.
    unfold Zsum in IHl. rewrite IHl. reflexivity. }
  assert (HO : words (md_map rs) ++ concat (map meta_bytes rs) = layout (map meta_bytes rs)).
  { unfold layout. rewrite map_length. f_equal. f_equal. unfold md_map. rewrite (Zlen_map _ _ meta_bytes rs). f_equal.
    assert (ML : length rs = length (map meta_bytes rs)) by (rewrite map_length; auto). rewrite ML.
    rewrite <- layout_ends. unfold meta_sizes. rewrite HM. destruct rs as [|r0 rest]; [congruence|].
    cbn [map prefix_ends]. f_equal; try f_equal; lia. }
  split.
  - unfold md_content. rewrite HT. replace (Z.to_nat (Zlen (concat (md_pieces rs)))) with (length (concat (md_pieces rs))) by (unfold Zlen; lia).
    rewrite <- HPz. change (fold_left _ _ _) with (lay (fun _ => 0) 0 (md_pieces rs)). rewrite lay_get, HC. exact HO.
  - rewrite HT, HC, Zlen_app, HW. reflexivity.
Qed.
Lemma whole_any : forall st, Forall announced (k_wreqs st) -> whole_entries (meta_bytes st).
Proof.
  intros st H. exists (map (fun w => (w_hdr w, w_body w)) (k_wreqs st)). split.
  - unfold meta_bytes. induction H; cbn; auto. rewrite IHForall. reflexivity.
  - apply Forall_map. revert H. apply Forall_impl. intros w H. exact H.
Qed.

Lemma any_queue : forall g, Forall (fun st => Forall announced (k_wreqs st)) (g_ranks g) ->
  let secs := map meta_bytes (g_ranks g) in
  Forall whole_entries secs /\
  g_mdsets (metaflush g) = g_mdsets g ++ (if Zlen (concat secs) =? 0 then [] else [layout secs]).
Proof.
  intros g H secs. split; [apply Forall_map; revert H; apply Forall_impl; intros; apply whole_any; auto|].
  assert (D : g_ranks g = [] \/ g_ranks g <> []) by (destruct (g_ranks g); [left|right]; congruence).
  unfold metaflush. cbn [g_mdsets]. destruct D as [E|E]; [unfold secs; rewrite E; cbn; rewrite app_nil_r; reflexivity|].
  destruct (md_layout_any (g_ranks g) E H) as [M1 M2]. rewrite M1, M2. fold secs.
  pose proof (Zlen_nonneg _ (concat secs)) as HP. destruct (Z.eqb_spec (Zlen (concat secs)) 0) as [Q|Q];
  match goal with |- context [?a <? ?b] => destruct (Z.ltb_spec a b) as [L|L] end; try lia; auto. rewrite app_nil_r. auto.
Qed.
Lemma merged_announced : forall ms w, In w (fst (merge_drain ms)) -> announced w.
Proof.
  intros ms w H. unfold merge_drain in H. cbn [fst] in H. apply in_flat_map in H. destruct H as ([m|] & _ & H); [|contradiction]. destruct (0 <? m_nsel m); [|contradiction].
  destruct H as [<-|[]]. apply announced_body. unfold merge_entry. cbn [w_hdr h_size w_body]. rewrite Zlen_app. change (Zlen (le 4 (m_nsel m))) with 4. change (Z.of_nat HDR) with 28. lia.
Qed.

(** ** Writes of every size *)
Lemma mk_wreq_sized : forall cfg did dip d mdsize sels, sels <> [] -> shape_info cfg dip d ->
  Forall (fun b => length (b_start b) = di_ndim d /\ length (b_count b) = di_ndim d) sels ->
  sizedw (mk_wreq cfg did dip mdsize sels).
Proof.
  intros cfg did dip d mdsize sels Hne (S1 & S2 & S3) HB.
  assert (HN : di_ndim d = di_ndim dip) by (unfold di_ndim; auto). rewrite HN in *. clear S1 HN d.
  unfold mk_wreq. set (rec := is_rec dip sels). set (nd := di_ndim dip) in *.
  set (mul := (1 <? length sels)%nat).
  set (encdim := if rec then (nd - 1)%nat else nd).
  set (enc := mul && (1 <? encdim)%nat && has cfg CFG_SEL_ENCODE).
  assert (Hrec : rec = true -> (0 < nd)%nat).
  { intros R. unfold rec, is_rec in R. destruct (di_mdims dip) eqn:M; [discriminate|]. cbn in S2. unfold nd, di_ndim. lia. }
  assert (Hpos : (0 < length sels)%nat) by (destruct sels; [congruence|cbn; lia]).
  assert (LB : Zlen (w_body (mk_wreq cfg did dip mdsize sels)) =
     (if rec then 8 else 0) + (if mul then 4 else 0) +
     (if enc then 8 * (Z.of_nat encdim - 1 + Z.of_nat (length sels) * 2)
      else 8 * (Z.of_nat encdim * Z.of_nat (length sels) * 2))).
  { unfold mk_wreq. fold rec. fold nd. fold mul. fold encdim. fold enc. cbn [w_body].
    rewrite !Zlen_app.
    assert (A1 : Zlen (if rec then le 8 (match sels with b :: _ => hd 0 (b_start b) | [] => 0 end) else []) = (if rec then 8 else 0))
      by (destruct rec; unfold Zlen; rewrite ?le_length; reflexivity).
    assert (A2 : Zlen (if mul then le 4 (Z.of_nat (length sels)) else []) = (if mul then 4 else 0))
      by (destruct mul; unfold Zlen; rewrite ?le_length; reflexivity).
    rewrite A1, A2. destruct enc eqn:E.
    - assert (HE : has cfg CFG_SEL_ENCODE = true /\ (1 < encdim)%nat).
      { unfold enc in E. apply andb_prop in E. destruct E as [E1 E2]. apply andb_prop in E1. destruct E1 as [_ E1].
        apply Nat.ltb_lt in E1. auto. }
      destruct HE as [HE1 HE2]. specialize (S3 HE1). fold nd in S3.
      unfold encode_words, Zlen. rewrite !words_length, app_length, !map_length, firstn_length, skipn_length, S3.
      change (length (di_dims dip)) with nd.
      assert (encdim = nd \/ (encdim = nd - 1)%nat) by (unfold encdim; destruct rec; auto). clear - H HE2. lia.
    - unfold encode_words, Zlen. cbn [words flat_map length Nat.add]. rewrite !words_length, app_length.
      assert (F1 : Forall (fun b => length (skipn (if rec then 1 else 0) (b_start b)) = encdim) sels).
      { revert HB. apply Forall_impl. intros b [L1 _]. rewrite skipn_length, L1. unfold encdim. clear. destruct rec; lia. }
      assert (F2 : Forall (fun b => length (skipn (if rec then 1 else 0) (b_count b)) = encdim) sels).
      { revert HB. apply Forall_impl. intros b [_ L1]. rewrite skipn_length, L1. unfold encdim. clear. destruct rec; lia. }
      rewrite (flat_map_len _ _ _ _ _ F1), (flat_map_len _ _ _ _ _ F2). cbn [length]. clear. nia. }
  unfold mk_wreq in LB |- *. fold rec in LB |- *. fold nd in LB |- *. fold mul in LB |- *. fold encdim in LB |- *. fold enc in LB |- *.
  unfold sizedw. cbn [w_body w_hdr h_size w_selpos] in LB |- *. rewrite LB. change (Z.of_nat HDR) with 28.
  split; [destruct rec, mul, enc; lia|].
  unfold Zlen in LB. clear - LB Hpos. 
  assert (0 <= (if mul then 4 else 0) + (if enc then 8 * (Z.of_nat encdim - 1 + Z.of_nat (length sels) * 2) else 8 * (Z.of_nat encdim * Z.of_nat (length sels) * 2))).
  { destruct mul, enc; nia. }
  destruct rec; lia.
Qed.
Lemma ds_write_sized : forall z cfg infos st did sels data st' dip d,
  ds_write z cfg infos st did sels data = Ok st' -> sels <> [] ->
  nth_error infos (Z.to_nat did) = Some (Some dip) -> shape_info cfg dip d ->
  Forall (fun b => length (b_start b) = di_ndim d /\ length (b_count b) = di_ndim d) sels ->
  exists w, k_wreqs st' = k_wreqs st ++ [w] /\ announced w.
Proof.
  intros z cfg infos st did sels data st' dip d H Hne Hn HS HB.
  unfold ds_write in H. destruct sels as [|b0 sels0] eqn:Es; [congruence|]. rewrite <- Es in *. clear Es. rewrite Hn in H.
  set (r := mk_wreq cfg did dip (k_mdsize st) sels) in *.
  assert (Fr : sizedw r) by (eapply mk_wreq_sized; eauto).
  unfold finish_meta in H.
  destruct (dedup cfg st r) as [[[r1 tbl] sz1]| |] eqn:ED; cbn [bind] in H; try discriminate.
  assert (G : sizedw r1 /\ 0 <= sz1 /\ Z.of_nat HDR + Z.of_nat (w_selpos r1) + sz1 <= h_size (w_hdr r1)).
  { unfold dedup in ED. assert (S0 : 0 <= selsize_of r /\ Z.of_nat HDR + Z.of_nat (w_selpos r) + selsize_of r <= h_size (w_hdr r)).
    { destruct Fr as (F1 & F2). unfold selsize_of. change (Z.of_nat HDR) with 28. unfold Zlen in F1. lia. }
    destruct (has cfg CFG_METADATA_SHARE && (8 <? selsize_of r)) eqn:ES.
    - destruct (hash_find r (k_hash st)) as [[tgt|]| |]; cbn [bind] in ED; try discriminate.
      + injection ED as <- <- <-. apply andb_prop in ES. destruct ES as [_ ES]. apply Z.ltb_lt in ES.
        clear - Fr ES. destruct Fr as (F1 & F2). unfold selsize_of in ES. change (Z.of_nat HDR) with 28 in *. unfold make_ref. set (same := _ && _ && _). set (pos := if same then (w_selpos r - 8)%nat else w_selpos r).
        assert (Hp : (pos <= w_selpos r)%nat) by (unfold pos; clear; destruct same; lia).
        assert (HL : (pos + 8 < length (w_body r))%nat) by (unfold Zlen in F1; lia).
        unfold sizedw. cbn [w_body w_hdr h_size w_selpos].
        assert (LL : Zlen (firstn pos (w_body r) ++ le 8 (w_metaoff tgt - k_mdsize st) ++ skipn (pos + 8) (w_body r)) = Zlen (w_body r)).
        { unfold Zlen. rewrite !app_length, firstn_length, le_length, skipn_length. lia. }
        rewrite LL. split; [split; [auto|unfold Zlen in LL; lia]|]. split; lia.
      + injection ED as <- <- <-. split; auto.
    - injection ED as <- <- <-. split; auto. }
  destruct G as (G1 & G2 & G3).
  destruct (compress_sel_eq z (k_zbsize st) r1 sz1) as (f & zb' & EC & _). rewrite EC in H. cbn [bind] in H.
  injection H as <-. cbn [k_wreqs]. exists (set_data (shrink (set_flag r1 f) sz1) data). split; auto. apply announced_body.
  unfold set_data. cbn [w_hdr h_size w_body]. unfold shrink. change (Z.of_nat HDR) with 28 in *. destruct G1 as (F1 & F2). cbn [set_flag w_selpos w_hdr h_size] in *.
  destruct (Z.ltb_spec (28 + Z.of_nat (w_selpos r1) + sz1) (h_size (w_hdr r1))); [|exact F1].
  unfold w_resize. cbn [w_body w_hdr h_size set_flag]. change (Z.of_nat HDR) with 28. unfold Zlen in *. rewrite firstn_length. lia.
Qed.

Record tiled (cfg : Z) (g : gfile) (sets : list dinfo) : Prop := {
  td_cfg : g_cfg g = cfg;
  td_infos : Forall2 (fun inf d => exists i, inf = Some i /\ shape_info cfg i d) (g_infos g) sets;
  td_ranks : Forall (fun st => Forall announced (k_wreqs st)) (g_ranks g);
  td_md : Forall (fun md => exists secs, md = layout secs /\ Forall whole_entries secs) (g_mdsets g) }.

Lemma announced_assign : forall ws o, Forall announced ws -> Forall announced (assign_foff o ws).
Proof. intros ws o H. revert o. induction H as [|w ws Hw H IH]; intros o; cbn; constructor; auto. Qed.
Lemma announced_shift : forall ws b, Forall announced ws -> Forall announced (map (fun w => set_foff w (h_foff (w_hdr w) + b)) ws).
Proof. intros ws b H. apply Forall_map. revert H. apply Forall_impl. intros w Hw. apply announced_body. apply announced_body in Hw. exact Hw. Qed.
Lemma announced_split : forall st, Forall announced (k_wreqs st) -> Forall announced (flushed st) /\ Forall announced (unflushed st).
Proof. intros st H. apply Forall_app. unfold flushed, unflushed. rewrite firstn_skipn. exact H. Qed.
Lemma tiled_flush : forall cfg doff g sets, tiled cfg g sets -> tiled cfg (flush_writes doff g) sets.
Proof.
  intros cfg doff g sets [T1 T2 T3 T4]. unfold flush_writes. destruct (_ =? 0); constructor; cbn [g_cfg g_infos g_ranks g_mdsets]; auto.
  - apply Forall_map. revert T3. apply Forall_impl. intros st H. destruct (announced_split _ H). unfold rank_assign. cbn [k_wreqs]. apply Forall_app. split; auto. apply announced_assign. auto.
  - apply Forall_map. apply Forall_forall. intros [o st] Hin. apply in_combine_r in Hin. rewrite Forall_forall in T3. destruct (announced_split _ (T3 _ Hin)).
    unfold rank_flushed. cbn [k_wreqs fst snd]. apply Forall_app. split; auto. apply announced_shift, announced_assign. auto.
Qed.
Lemma tiled_meta : forall cfg g sets, tiled cfg g sets -> tiled cfg (metaflush g) sets.
Proof.
  intros cfg g sets [T1 T2 T3 T4]. destruct (any_queue g T3) as (Q1 & Q2). constructor; auto.
  - cbn. apply Forall_map. apply Forall_forall. intros. constructor.
  - rewrite Q2. apply Forall_app. split; auto. destruct (_ =? 0); constructor; auto. eauto.
Qed.
Lemma tiled_step : forall e cfg s s' o out sets, tiled cfg (s_g s) sets -> regular_op sets o -> step e s o = Ok (s', out) -> tiled cfg (s_g s') (sets_step sets o).
Proof.
  intros e cfg s s' o out sets HI HS H. pose proof HI as [T1 T2 T3 T4]. destruct o as [d|did dims|rk did sels data|doff|doff calls|doff np]; cbn [step sets_step regular_op] in *.
  - destruct (create_info (g_cfg (s_g s)) d) as [i| |] eqn:EC; try discriminate. injection H as <- <-. constructor; auto. cbn [s_g set_infos g_infos].
    apply Forall2_app; auto. constructor; [|constructor]. exists i. split; auto. rewrite T1 in EC. eapply create_shape; eauto.
  - destruct (info_at (g_infos (s_g s)) did) as [[i|]|] eqn:EI; try discriminate.
    destruct (set_extent (g_cfg (s_g s)) i dims) as [i' okk] eqn:EX. destruct okk; [|discriminate]. injection H as <- <-.
    constructor; auto. cbn [s_g set_infos g_infos].
    unfold info_at in EI. destruct (did <? 0); [discriminate|].
    destruct (Forall2_nth _ _ _ _ _ _ _ T2 EI) as (d & E1 & (i0 & E0 & S0)). injection E0 as <-.
    assert (SS : sets = upd_nth (Z.to_nat did) d sets).
    { clear - E1. revert E1. generalize (Z.to_nat did). induction sets as [|x l IH]; intros [|n] E; cbn in *; try discriminate.
      - injection E as ->. reflexivity.
      - f_equal. auto. }
    rewrite SS. apply Forall2_upd; auto. exists i'. split; auto. rewrite T1 in EX. eapply set_extent_shape; eauto.
  - destruct (nth_error (g_ranks (s_g s)) rk) as [st|] eqn:EN; try discriminate.
    destruct (ds_write (e_zlib e) (g_cfg (s_g s)) (g_infos (s_g s)) st did sels data) as [st'| |] eqn:EW; try discriminate.
    injection H as <- <-. constructor; auto. cbn [s_g set_ranks g_ranks].
    assert (A0 : Forall announced (k_wreqs st)) by (rewrite Forall_forall in T3; apply T3; eapply nth_error_In; eauto).
    assert (A : Forall announced (k_wreqs st')).
    { destruct sels as [|b0 sels0] eqn:Es; [cbn in EW; injection EW as <-; exact A0|]. rewrite <- Es in *. destruct HS as (d & Ed & HB); [rewrite Es; discriminate|].
      assert (EI : exists i, nth_error (g_infos (s_g s)) (Z.to_nat did) = Some (Some i) /\ shape_info cfg i d).
      { clear - T2 Ed. revert Ed. generalize (Z.to_nat did). induction T2 as [|inf d0 l l' (i & -> & HS) HF IH]; intros [|n] E; cbn in *; try discriminate; eauto.
        injection E as ->. eauto. }
      destruct EI as (i & EI & HSi). rewrite T1 in EW. destruct (ds_write_sized _ _ _ _ _ _ _ _ _ _ EW ltac:(rewrite Es; discriminate) EI HSi HB) as (w & W1 & W2).
      rewrite W1. apply Forall_app. split; auto. }
    clear - T3 A. revert T3. generalize (g_ranks (s_g s)). intros l T3. revert rk. induction T3; intros [|rk]; cbn; constructor; auto.
  - injection H as <- <-. cbn [s_g]. destruct (any_pending _); auto. apply tiled_flush. auto.
  - set (g1 := if e_coll e && any_pending (s_g s) then flush_writes doff (s_g s) else s_g s) in *.
    destruct (read_each _ _ _ _) as [q| |]; try discriminate. injection H as <- <-. cbn [s_g].
    assert (G1 : tiled cfg g1 sets) by (unfold g1; destruct (_ && _); auto; apply tiled_flush; auto). destruct (g_metadirty g1); auto. apply tiled_meta. auto.
  - destruct (reopen_infos (g_cfg (s_g s)) (g_infos (s_g s))) as [r| |] eqn:ER; try discriminate. injection H as <- <-.
    destruct (tiled_meta _ _ _ (tiled_flush _ doff _ _ HI)) as [J1 J2 J3 J4]. constructor; cbn [s_g g_cfg g_infos g_ranks g_mdsets]; auto.
    + rewrite T1 in ER. exact (reopen_shape _ _ _ _ T2 ER).
    + clear. induction np; cbn; constructor; auto. constructor.
Qed.
Lemma regular_tiled : forall e cfg np f0 ops s outs, regular [] ops -> run e (init cfg np f0) ops = Ok (s, outs) ->
  exists sets, tiled cfg (s_g s) sets.
Proof.
  intros e cfg np f0 ops s outs HR H.
  assert (T0 : tiled cfg (s_g (init cfg np f0)) []) by (constructor; cbn; auto; clear; induction np; cbn; constructor; auto; constructor).
  revert HR H T0. generalize (init cfg np f0), (@nil dinfo). revert outs. induction ops as [|o ops IH]; intros outs s0 sets HR H T0; [injection H as <- <-; eauto|].
  cbn [run] in H. destruct HR as [HR1 HR2]. destruct (step e s0 o) as [[s1 o1]| |] eqn:E; cbn [bind fst snd] in H; try discriminate. destruct (run e s1 ops) as [[s2 o2]| |] eqn:R; cbn [bind fst snd] in H; try discriminate.
  injection H as <- <-. eapply IH; eauto. eapply tiled_step; eauto.
Qed.
Lemma sections_any : forall e cfg np f0 ops s outs, regular [] ops -> run e (init cfg np f0) ops = Ok (s, outs) ->
  Forall (fun md => exists secs, md = layout secs /\ Forall whole_entries secs) (g_mdsets (s_g s)) /\
  let secs := map meta_bytes (g_ranks (s_g s)) in
  Forall whole_entries secs /\
  g_mdsets (metaflush (s_g s)) = g_mdsets (s_g s) ++ (if Zlen (concat secs) =? 0 then [] else [layout secs]).
Proof.
  intros e cfg np f0 ops s outs HR H. destruct (regular_tiled _ _ _ _ _ _ _ HR H) as (sets & [T1 T2 T3 T4]). split; auto. apply any_queue. exact T3.
Qed.
Definition h_odd : list op := [OCreate dA; OWrite 0 0 [B [0;0] [1;2]] [1;1;2;2]; OFlush 100; OWrite 0 0 [B [1;0] [0;2]] [];
  OWrite 0 0 [B [2;0] [1;2]; B [3;0] [1;2]] [5;5;6;6;7;7;8;8]; ORead 0 [mkrcall 0 [B [0;0] [1;2]] 0 junk]; OWrite 0 0 [B [1;0] [1;2]] [3;3;4;4]].
Lemma h_odd_regular : regular [] h_odd /\ exists outs, match run e_indep (init cfg_dflt 1 f_zero) h_odd with Ok (s, o) => o = outs /\ length (g_mdsets (s_g s)) = 1%nat /\ map (fun st => length (k_wreqs st)) (g_ranks (s_g s)) = [1%nat] | _ => False end.
Proof.
  split.
  - unfold h_odd. cbn [regular regular_op sets_step app]. repeat split; try exact Logic.I; try (intros _; eexists; split; [reflexivity|]; repeat constructor).
  - eexists. vm_compute. repeat split.
Qed.

(** An independent read stores the metadata of writes that are not in the log yet. *)
Lemma indep_extents : exists s outs,
  run e_indep (init cfg_dflt 1 f_zero) [OCreate dA; OWrite 0 0 [B [0;0] [1;2]] [1;1;2;2]; OFlush 100; OWrite 0 0 [B [1;0] [1;2]] [3;3;4;4];
    OWrite 0 0 [B [2;0] [1;2]] [5;5;6;6]; ORead 0 [mkrcall 0 [B [0;0] [1;2]] 0 junk]] = Ok (s, outs) /\ recorded (s_g s) = [(100, 4); (0, 4); (0, 4)].
Proof. do 2 eexists. split; [vm_compute; reflexivity|vm_compute; reflexivity]. Qed.
