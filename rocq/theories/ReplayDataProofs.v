(** What the processes of h5lreplay write: entries, sections, metadata datasets. *)
From Verif Require Import Base BaseProofs Spec MetaModel QueueModel FlushModel IndexModel ReadModel SysModel
  SysSpec LogSpec History GeomProofs MetaProofs QueueProofs IndexProofs SearchProofs SortProofs ReadProofs HitProofs MdProofs StoreProofs
  FlushProofs ReadOneProofs SysProofs HistoryProofs ClaimProofs DumpSpec DumpProofs LogClaims ReplayModel ReplaySpec ReplayProofs ReplayDataModel ReplayDataSpec.
From Coq Require Import ZifyNat ZifyN.

(** ** Parsing *)
Definition ematch (infos : list (option dinfo)) (e : mentry) (p : pwr) : Prop :=
  h_did (me_hdr e) = a_did (snd p) /\ h_foff (me_hdr e) = fst p /\ h_fsize (me_hdr e) = Zlen (a_data (snd p)) /\
  exists dip, info_at infos (a_did (snd p)) = Some (Some dip) /\ me_sels e = add_doffs (di_esize dip) 0 (a_sels (snd p)).

Section Parse.
Context (z : zlib) (cfg : Z) (infos : list (option dinfo)) (soff : Z).
Let G := geom infos.
Let share := has cfg CFG_METADATA_SHARE.

Lemma parse_section : forall ws ps off ctx base buf pre post bc fuel j,
  qrep KArray cfg G off ctx ws (map snd ps) -> Forall2 placed ws ps ->
  buf = pre ++ flat_map wreq_bytes ws ++ post -> Zlen pre = base + off -> actx_ok G base off ctx bc ->
  exists es bc', Forall2 (ematch infos) es ps /\
    parse_entries share z infos (length ws + fuel) buf soff 1 (base + off) j bc =
    bind (parse_entries share z infos fuel buf soff 1 (base + off + Zlen (flat_map wreq_bytes ws)) (j + Zlen ws) bc') (fun r => Ok (es ++ r)).
Proof.
  induction ws as [|w ws IH]; intros ps off ctx base buf pre post bc fuel j HQ HP Hbuf Hpre Hctx.
  - destruct ps; [|cbn in HQ; tauto]. exists [], bc. split; [constructor|]. cbn [length Nat.add flat_map]. rewrite !Zlen_nil, !Z.add_0_r.
    destruct (parse_entries share z infos fuel buf soff 1 (base + off) j bc); reflexivity.
  - destruct ps as [|p ps]; [inversion HP|]. cbn [map qrep] in HQ. destruct HQ as (Q1 & Q2 & Q3).
    inversion HP as [|? ? ? ? HP1 HP2]; subst x y l l'.
    cbn [flat_map] in Hbuf. rewrite <- app_assoc in Hbuf.
    destruct (DumpProofs.entry_ok z cfg infos w p off ctx base buf pre (flat_map wreq_bytes ws ++ post) bc Q1 Q2 HP1 Hbuf Hpre Hctx)
      as (dip & e & roff & bc1 & I1 & I2 & I3 & I4 & I5 & I6 & I7 & I8 & I9 & I10).
    pose proof (IndexProofs.wreq_bytes_len _ _ _ _ _ _ Q2) as Hlen.
    destruct (IH ps (off + h_size (w_hdr w)) (ctx_add off w (snd p) ctx) base buf (pre ++ wreq_bytes w) post bc1 fuel (j + 1)) as (es & bc2 & E1 & E2); auto.
    { rewrite <- app_assoc. exact Hbuf. }
    { rewrite Zlen_app, Hlen. lia. }
    assert (Href : share && has (h_flag (w_hdr w)) FLAG_SEL_REF = has (h_flag (w_hdr w)) FLAG_SEL_REF).
    { destruct (has (h_flag (w_hdr w)) FLAG_SEL_REF) eqn:HR; [|apply andb_false_r].
      destruct Q2 as (_ & _ & _ & _ & _ & _ & _ & _ & nd & es0 & u & _ & _ & _ & _ & E12). rewrite HR in E12. destruct E12 as (SH & _).
      unfold share. rewrite SH. reflexivity. }
    exists (e :: es), bc2. split.
    + constructor; auto. unfold ematch. rewrite I6. assert (Hd : h_did (w_hdr w) = a_did (snd p)) by apply Q2. rewrite Hd in I1.
      split; [exact Hd|]. split; [apply HP1|]. split; [apply Q2|]. exists dip. auto.
    + cbn [length Nat.add parse_entries]. assert (Hlt : (base + off <? Zlen buf) = true) by (apply Z.leb_gt in I4; apply Z.ltb_lt; lia).
      rewrite Hlt, I3. cbn [or_ub bind]. change (1 =? 0) with false. rewrite Z.rem_1_r. change (0 =? 0) with true. cbn [negb andb]. rewrite andb_false_r.
      rewrite I1. cbn [or_ub bind]. cbn zeta. cbn [SlotModel.table_slot]. rewrite Href, I5. cbn [bind]. rewrite I8.
      replace (base + off + h_size (w_hdr w)) with (base + (off + h_size (w_hdr w))) by lia. rewrite E2.
      cbn [flat_map]. rewrite Zlen_app, Hlen. replace (base + (off + h_size (w_hdr w)) + Zlen (flat_map wreq_bytes ws)) with (base + off + (h_size (w_hdr w) + Zlen (flat_map wreq_bytes ws))) by lia.
      replace (j + 1 + Zlen ws) with (j + Zlen (w :: ws)) by (unfold Zlen; cbn [length]; lia).
      match goal with |- context [bind (bind ?t _) _] => destruct t; reflexivity end.
Qed.

Lemma parse_sections : forall secs buf pre bc fuel j,
  Forall (sec_ok KArray cfg G) secs -> buf = pre ++ flat_map IndexProofs.sec_bytes secs -> (length (flat_map fst secs) < fuel)%nat ->
  exists es, Forall2 (ematch infos) es (flat_map snd secs) /\ parse_entries share z infos fuel buf soff 1 (Zlen pre) j bc = Ok es.
Proof.
  induction secs as [|s secs IH]; intros buf pre bc fuel j HS Hbuf Hf.
  - exists []. split; [constructor|]. cbn [flat_map] in *. rewrite app_nil_r in Hbuf. subst buf. destruct fuel; [lia|]. cbn [parse_entries].
    destruct (Z.ltb_spec (Zlen pre) (Zlen pre)); [lia|reflexivity].
  - inversion HS as [|? ? [S1 S2] S3]; subst x l. cbn [flat_map] in *. rewrite app_length in Hf.
    destruct (parse_section (fst s) (snd s) 0 [] (Zlen pre) buf pre (flat_map IndexProofs.sec_bytes secs) bc (fuel - length (fst s)) j S1 S2) as (es & bc' & E1 & E2); auto.
    { lia. }
    { intros ? ? ? []. }
    replace (length (fst s) + (fuel - length (fst s)))%nat with fuel in E2 by lia. rewrite Z.add_0_r in E2.
    destruct (IH buf (pre ++ IndexProofs.sec_bytes s) bc' (fuel - length (fst s))%nat (j + Zlen (fst s)) S3) as (es2 & F1 & F2).
    { rewrite <- app_assoc. exact Hbuf. }
    { lia. }
    exists (es ++ es2). split; [apply Forall2_app; auto|]. rewrite E2. rewrite Zlen_app in F2. unfold IndexProofs.sec_bytes in F2 at 1. rewrite F2. reflexivity.
Qed.

(** ** One metadata dataset *)
Definition ent (w : wreq) : entry := (w_hdr w, w_body w).
Definition ents (secs : list (list wreq * list pwr)) : list (list entry) := map (fun s => map ent (fst s)) secs.

Lemma ent_bytes : forall ws, flat_map entry_bytes (map ent ws) = flat_map wreq_bytes ws.
Proof. induction ws as [|w ws IH]; [reflexivity|]. cbn [map flat_map]. rewrite IH. reflexivity. Qed.
Lemma ents_bytes : forall secs, ReplayProofs.sec_bytes (ents secs) = map IndexProofs.sec_bytes secs.
Proof. intros. unfold ReplayProofs.sec_bytes, ents. rewrite map_map. apply map_ext. intros s. apply ent_bytes. Qed.

Lemma md_layout : forall secs, md_bytes secs = meta_dataset (ents secs).
Proof.
  intros secs. change (meta_dataset (ents secs)) with (layout (ReplayProofs.sec_bytes (ents secs))). rewrite ents_bytes. unfold md_bytes, layout. cbv zeta.
  rewrite flat_map_concat_map. f_equal. f_equal. rewrite Zlen_map. f_equal. unfold md_offs. rewrite map_length. rewrite <- (map_length IndexProofs.sec_bytes secs).
  rewrite <- layout_ends. rewrite map_map. reflexivity.
Qed.

Definition slice {A} (r np : Z) (l : list A) : list A :=
  firstn (Z.to_nat ((r + 1) * Zlen l / np) - Z.to_nat (r * Zlen l / np)) (skipn (Z.to_nat (r * Zlen l / np)) l).

Lemma part_slice : forall secs a b, flat_map entry_bytes (part a b (ents secs)) = flat_map IndexProofs.sec_bytes (firstn (b - a) (skipn a secs)).
Proof.
  intros secs a b. unfold part. rewrite <- concat_sec_bytes, <- firstn_sec_bytes, <- skipn_sec_bytes, ents_bytes.
  rewrite skipn_map, firstn_map, <- flat_map_concat_map. reflexivity.
Qed.

Lemma Forall_slice : forall A (P : A -> Prop) r np l, Forall P l -> Forall P (slice r np l).
Proof.
  intros A P r np l H. unfold slice. rewrite Forall_forall in *. intros x Hx. apply H.
  rewrite <- (firstn_skipn (Z.to_nat (r * Zlen l / np)) l). apply in_or_app. right.
  rewrite <- (firstn_skipn (Z.to_nat ((r + 1) * Zlen l / np) - Z.to_nat (r * Zlen l / np)) (skipn (Z.to_nat (r * Zlen l / np)) l)). apply in_or_app. auto.
Qed.

Lemma wreqs_short : forall secs, Forall (sec_ok KArray cfg G) secs -> (length (flat_map fst secs) <= length (flat_map IndexProofs.sec_bytes secs))%nat.
Proof.
  induction 1 as [|s secs [S1 S2] _ IH]; [auto|]. cbn [flat_map]. rewrite !app_length.
  destruct (qrep_bytes_len _ _ _ _ _ _ _ S1) as [_ L2]. unfold IndexProofs.sec_bytes at 1. unfold Zlen in L2. lia.
Qed.

Lemma parse_mdset : forall secs r np, Forall (sec_ok KArray cfg G) secs -> Zlen (md_bytes secs) < 2 ^ 31 ->
  1 <= np <= Zlen secs -> 0 <= r < np ->
  exists pos off stride buf es, replay_window r np (md_bytes secs) = Ok (Some (pos, off, stride, buf)) /\
    (off = soff -> parse_entries share z infos (take_fuel stride buf) buf off stride 0 0 [] = Ok es) /\ off = 0 /\
    Forall2 (ematch infos) es (flat_map snd (slice r np secs)).
Proof.
  intros secs r np HS HL Hnp Hr. rewrite md_layout in *.
  assert (ZL : Zlen (ents secs) = Zlen secs) by (unfold ents; apply Zlen_map).
  destruct (window_many (ents secs) np r HL ltac:(lia) Hr) as (W & Hab & Hb). rewrite ZL in *. rewrite part_slice in W.
  fold (slice r np secs) in W. pose proof (Forall_slice _ _ r np _ HS) as HS'.
  destruct (parse_sections (slice r np secs) (flat_map IndexProofs.sec_bytes (slice r np secs)) [] [] (take_fuel 1 (flat_map IndexProofs.sec_bytes (slice r np secs))) 0 HS' eq_refl) as (es & E1 & E2).
  { pose proof (wreqs_short _ HS'). unfold take_fuel, Zlen. lia. }
  do 4 eexists. exists es. split; [exact W|]. split; [intros <-; exact E2|]. split; auto.
Qed.
End Parse.

Lemma parse_mdsets : forall z cfg infos r np ms, Forall (Forall (sec_ok KArray cfg (geom infos))) ms ->
  Forall (fun m => Zlen (md_bytes m) < 2 ^ 31 /\ 1 <= np <= Zlen m) ms -> 0 <= r < np ->
  exists es, replay_parse (has cfg CFG_METADATA_SHARE) z infos r np (map md_bytes ms) = Ok es /\
    Forall2 (ematch infos) es (flat_map (fun m => flat_map snd (slice r np m)) ms).
Proof.
  intros z cfg infos r np ms HS HL Hr. induction ms as [|m ms IH]; [exists []; split; [reflexivity|constructor]|].
  inversion HS; subst. inversion HL as [|? ? [L1 L2] L3]; subst. destruct IH as (es & E1 & E2); auto.
  destruct (parse_mdset z cfg infos 0 m r np) as (pos & off & stride & buf & es1 & W1 & W2 & -> & W3); auto.
  cbn [map replay_parse flat_map]. rewrite W1. cbn [bind]. rewrite W2 by reflexivity. cbn [bind]. rewrite E1. cbn [bind]. eexists. split; [reflexivity|].
  apply Forall2_app; auto.
Qed.

(** ** The H5Dwrites of an entry *)
Lemma in_extent_ok : forall dims s n, fits_in dims s n -> in_extent dims s n = true.
Proof.
  induction dims as [|d dims IH]; intros [|s0 s] [|n0 n] H; cbn in *; try tauto. destruct H as (H1 & H2 & H3 & H4).
  rewrite (IH _ _ H4). destruct (Z.leb_spec 0 s0); [|lia]. destruct (Z.leb_spec (s0 + n0) d); [reflexivity|lia].
Qed.

Lemma replay_blocks_ok : forall did dip sels pre data doff,
  0 < di_esize dip -> Forall (fun b => blk_small (di_ndim dip) (b_start b) (b_count b)) sels -> Forall (block_in dip) sels ->
  Zlen data = di_esize dip * sel_size sels -> Zlen data < 2 ^ 31 ->
  exists ws, replay_blocks did dip (pre ++ data) (Zlen pre) (add_doffs (di_esize dip) doff sels) = Ok ws /\
    flat_map stored ws = assigns_of (di_esize dip) did sels data /\ Forall (fun w => rw_did w = did) ws.
Proof.
  intros did dip sels. induction sels as [|b sels IH]; intros pre data doff He HF HB HL H31.
  - exists []. split; [reflexivity|]. split; [reflexivity|constructor].
  - inversion HF as [|? ? H1 H2]; subst. inversion HB as [|? ? B1 B2]; subst.
    cbn [add_doffs replay_blocks ms_start ms_count]. pose proof H1 as (L1 & L2 & _).
    destruct (Nat.ltb_spec (length (b_start b)) (di_ndim dip)); [lia|]. destruct (Nat.ltb_spec (length (b_count b)) (di_ndim dip)); [lia|]. cbn [orb].
    rewrite !firstn_len by auto.
    pose proof (coords_length_size _ _ H1) as [HC HC2]. pose proof (sel_size_nonneg _ _ H2) as HN. pose proof HL as HL'. rewrite sel_size_cons in HL'. unfold block_size in *.
    assert (Hz : Zlen (coords b) = Zprod (b_count b)) by (unfold Zlen; exact HC).
    assert (Hs : Zlen (sel_coords (b :: sels)) = sel_size (b :: sels)).
    { unfold Zlen. apply (sel_coords_length (di_ndim dip)). exact HF. }
    assert (HL2 : Zlen data = di_esize dip * Zlen (sel_coords (b :: sels))) by (rewrite Hs; exact HL).
    destruct (assigns_split (di_esize dip) did b sels data He HL2) as (A1 & A2 & A3).
    set (n := di_esize dip * Zprod (b_count b)) in *. rewrite Hz in A1, A2, A3. fold n in A1, A2, A3.
    assert (Hn0 : 0 <= n) by (unfold n; nia).
    assert (Hl : (Z.to_nat n <= length data)%nat) by (unfold Zlen in HL'; unfold n; nia).
    destruct (Z.ltb_spec (2 ^ 31 - 1) (Zprod (b_count b))). { exfalso. assert (Zprod (b_count b) <= n) by (unfold n; nia). unfold Zlen in *. lia. }
    rewrite (in_extent_ok _ _ _ B1). cbn [negb].
    assert (Hr : rd (pre ++ data) (Zlen pre) (Z.to_nat n) = Some (firstn (Z.to_nat n) data)).
    { eapply rd_at with (pre := pre) (post := skipn (Z.to_nat n) data); auto.
      - rewrite firstn_skipn. reflexivity.
      - rewrite firstn_length. lia. }
    rewrite Hr. cbn [or_ub bind].
    destruct (IH (pre ++ firstn (Z.to_nat n) data) (skipn (Z.to_nat n) data) (n + doff) He H2 B2) as (ws & E1 & E2 & E3).
    { unfold Zlen in *. rewrite skipn_length. unfold n in *. nia. }
    { unfold Zlen in *. rewrite skipn_length. lia. }
    rewrite <- app_assoc, firstn_skipn in E1.
    assert (HE : Zlen (pre ++ firstn (Z.to_nat n) data) = Zlen pre + n).
    { rewrite Zlen_app. unfold Zlen at 2. rewrite firstn_length. lia. }
    rewrite HE in E1. rewrite E1. cbn [bind]. eexists. split; [reflexivity|].
    cbn [flat_map]. unfold stored at 1. cbn [rw_esize rw_did rw_block rw_bytes]. rewrite E2, A1. split; [destruct b; reflexivity|]. constructor; auto.
Qed.

(** What is asked of a write in the log: its data is in the file, smaller than 2 GiB, its blocks are
    inside the extent. *)
Definition replayable (infos : list (option dinfo)) (f : bytemap) (p : pwr) : Prop :=
  apok KArray (geom infos) (snd p) /\ DumpProofs.in_file f p /\ Zlen (a_data (snd p)) < 2 ^ 31 /\
  exists dip, info_at infos (a_did (snd p)) = Some (Some dip) /\ Forall (block_in dip) (a_sels (snd p)).
Definition pwr_assigns (infos : list (option dinfo)) (p : pwr) : list assignment :=
  assigns_of (esize_of (geom infos) (a_did (snd p))) (a_did (snd p)) (a_sels (snd p)) (a_data (snd p)).

Lemma geom_at : forall infos did dip, info_at infos did = Some (Some dip) -> geom infos did = Some (di_ndim dip, di_esize dip, unlim dip).
Proof. unfold info_at, geom. intros infos did dip H. destruct (did <? 0); [discriminate|]. rewrite H. reflexivity. Qed.

Lemma replay_entry_ok : forall infos f e p, ematch infos e p -> replayable infos f p ->
  exists ws, replay_entry infos f e = Ok ws /\ flat_map stored ws = pwr_assigns infos p /\ Forall (fun w => rw_did w = a_did (snd p)) ws.
Proof.
  intros infos f e p (M1 & M2 & M3 & dip & M4 & M5) (((W1 & W2) & W3 & W4 & _) & F1 & F2 & dip' & I1 & I2).
  assert (dip' = dip) by congruence. subst dip'. pose proof (geom_at _ _ _ M4) as HG.
  unfold wbytes, esize_of, ndim_of in *. cbn [snd] in *. rewrite HG in *.
  unfold replay_entry. rewrite M1, M4. cbn [or_ub bind]. rewrite M2, M3.
  assert (Hi : i32 (Zlen (a_data (snd p))) = Zlen (a_data (snd p))) by (apply i32_id; pose proof (Zlen_nonneg _ (a_data (snd p))); lia).
  rewrite Hi. destruct (Z.ltb_spec (Zlen (a_data (snd p))) 0); [pose proof (Zlen_nonneg _ (a_data (snd p))); lia|].
  rewrite M5. unfold Zlen at 1. rewrite Nat2Z.id. rewrite F1.
  destruct (replay_blocks_ok (a_did (snd p)) dip (a_sels (snd p)) [] (a_data (snd p)) 0) as (ws & E1 & E2 & E3); auto.
  rewrite Zlen_nil in E1. cbn [app] in E1. exists ws. split; [exact E1|]. split; [|exact E3]. rewrite E2. unfold pwr_assigns, esize_of. rewrite HG. reflexivity.
Qed.

Lemma only_stored : forall did ws, Forall (fun w => rw_did w = did) ws -> only did (flat_map stored ws) = flat_map stored ws.
Proof.
  intros did ws H. unfold only. rewrite <- (map_id (flat_map stored ws)) at 2. rewrite map_id.
  assert (K : Forall (fun a => fst (fst a) = did) (flat_map stored ws)).
  { apply Forall_flat_map. eapply Forall_impl; [|exact H]. cbn beta. intros w <-. unfold stored, assigns_of. rewrite Forall_map. apply Forall_forall. auto. }
  clear H. induction K as [|a l Ha _ IH]; [reflexivity|]. cbn [filter]. rewrite Ha, Z.eqb_refl, IH. reflexivity.
Qed.
Lemma only_other : forall did i ws, Forall (fun w => rw_did w = i) ws -> i <> did -> only did (flat_map stored ws) = [].
Proof.
  intros did i ws H Hne. unfold only.
  assert (K : Forall (fun a => fst (fst a) = i) (flat_map stored ws)).
  { apply Forall_flat_map. eapply Forall_impl; [|exact H]. cbn beta. intros w <-. unfold stored, assigns_of. rewrite Forall_map. apply Forall_forall. auto. }
  clear H. induction K as [|a l Ha _ IH]; [reflexivity|]. cbn [filter]. rewrite Ha. destruct (Z.eqb_spec i did); [congruence|]. exact IH.
Qed.

Lemma each_entry_ok : forall infos f i es ps, Forall2 (ematch infos) es ps -> Forall (replayable infos f) ps ->
  exists ws, each_entry infos f (filter (fun e => h_did (me_hdr e) =? i) es) = Ok ws /\
    flat_map stored ws = only i (flat_map (pwr_assigns infos) ps) /\ Forall (fun w => rw_did w = i) ws.
Proof.
  intros infos f i es ps H. induction H as [|e p es ps H1 H2 IH]; intros HR.
  - exists []. split; [reflexivity|]. split; [reflexivity|constructor].
  - inversion HR; subst. destruct IH as (ws & E1 & E2 & E3); auto. cbn [filter flat_map]. rewrite only_app.
    destruct (replay_entry_ok infos f e p H1 H3) as (w1 & A1 & A2 & A3). rewrite (proj1 H1).
    destruct (Z.eqb_spec (a_did (snd p)) i) as [Heq|Hne].
    + rewrite Heq in A3. cbn [each_entry]. rewrite A1. cbn [bind]. rewrite E1. cbn [bind]. eexists. split; [reflexivity|].
      rewrite flat_map_app, E2, <- A2, (only_stored _ _ A3). split; [reflexivity|]. apply Forall_app. auto.
    + exists ws. split; [exact E1|]. rewrite E2, <- A2, (only_other _ _ _ A3 Hne). auto.
Qed.

Lemma each_dataset_ok : forall infos f es ps ids, Forall2 (ematch infos) es ps -> Forall (replayable infos f) ps -> NoDup ids ->
  exists ws, each_dataset infos f es ids = Ok ws /\
    forall did, only did (flat_map stored ws) = if in_dec Z.eq_dec did ids then only did (flat_map (pwr_assigns infos) ps) else [].
Proof.
  intros infos f es ps ids HM HR. induction ids as [|i ids IH]; intros HD.
  - exists []. split; reflexivity.
  - inversion HD; subst. destruct IH as (ws & E1 & E2); auto. destruct (each_entry_ok infos f i es ps HM HR) as (w1 & A1 & A2 & A3).
    cbn [each_dataset]. rewrite A1. cbn [bind]. rewrite E1. cbn [bind]. eexists. split; [reflexivity|]. intros did.
    rewrite flat_map_app, only_app, E2. destruct (Z.eq_dec i did) as [->|Hne].
    + rewrite (only_stored _ _ A3), A2. destruct (in_dec Z.eq_dec did (did :: ids)) as [_|N]; [|exfalso; apply N; left; reflexivity].
      destruct (in_dec Z.eq_dec did ids); [contradiction|]. apply app_nil_r.
    + rewrite (only_other _ _ _ A3 Hne). cbn [app]. destruct (in_dec Z.eq_dec did (i :: ids)) as [[Q|Q]|N], (in_dec Z.eq_dec did ids) as [Q'|N']; try reflexivity; try contradiction; try congruence.
      exfalso. apply N. right. exact Q'.
Qed.

Lemma only_absent : forall infos f did ps, Forall (replayable infos f) ps -> ~ (0 <= did < Zlen infos) -> only did (flat_map (pwr_assigns infos) ps) = [].
Proof.
  intros infos f did ps H Hn. induction H as [|p ps H1 _ IH]; [reflexivity|]. cbn [flat_map]. rewrite only_app, IH, app_nil_r.
  destruct H1 as (_ & _ & _ & dip & I1 & _). assert (K : a_did (snd p) <> did).
  { intros E. rewrite E in I1. unfold info_at in I1. destruct (Z.ltb_spec did 0); [discriminate|].
    assert (nth_error infos (Z.to_nat did) <> None) by congruence. apply nth_error_Some in H0. apply Hn. unfold Zlen. lia. }
  unfold pwr_assigns, assigns_of, only. clear - K. induction (combine _ _) as [|a l IH]; [reflexivity|]. cbn [map filter fst]. destruct (Z.eqb_spec (a_did (snd p)) did); [contradiction|]. exact IH.
Qed.

Lemma replay_proc_ok : forall z cfg g r np ms, g_cfg g = cfg -> g_mdsets g = map md_bytes ms ->
  Forall (Forall (sec_ok KArray cfg (geom (g_infos g)))) ms ->
  Forall (fun m => Zlen (md_bytes m) < 2 ^ 31 /\ 1 <= np <= Zlen m) ms -> 0 <= r < np ->
  Forall (Forall (Forall (replayable (g_infos g) (g_file g)))) (map (map snd) ms) ->
  exists ws, replay_proc z r np g = Ok ws /\
    forall did x, content ws did x = last_assigned did x (flat_map (pwr_assigns (g_infos g)) (flat_map (fun m => flat_map snd (slice r np m)) ms)).
Proof.
  intros z cfg g r np ms <- Hmd HS HL Hr HR. unfold replay_proc. rewrite Hmd.
  destruct (parse_mdsets z (g_cfg g) (g_infos g) r np ms HS HL Hr) as (es & E1 & E2). rewrite E1. cbn [bind].
  assert (HP : Forall (replayable (g_infos g) (g_file g)) (flat_map (fun m => flat_map snd (slice r np m)) ms)).
  { clear - HR. induction ms as [|m ms IH]; [constructor|]. cbn [map flat_map] in *. inversion HR as [|? ? R1 R2]; subst. apply Forall_app. split; auto.
    apply Forall_flat_map. rewrite Forall_map in R1. apply Forall_slice. exact R1. }
  destruct (each_dataset_ok (g_infos g) (g_file g) es _ (zseq (Zlen (g_infos g))) E2 HP (zseq_NoDup _)) as (ws & A1 & A2).
  exists ws. split; [exact A1|]. intros did x. unfold content. rewrite last_assigned_only, A2.
  destruct (in_dec Z.eq_dec did (zseq (Zlen (g_infos g)))) as [Hi|Hi]; [symmetry; apply last_assigned_only|].
  rewrite (last_assigned_only did x (flat_map (pwr_assigns (g_infos g)) _)). rewrite (only_absent (g_infos g) (g_file g)); auto. intros K. apply Hi. apply zseq_In. exact K.
Qed.
