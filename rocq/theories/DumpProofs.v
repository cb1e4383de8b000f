(** The listing of the log: sections, metadata datasets, files. *)
From Verif Require Import Base BaseProofs Spec MetaModel QueueModel FlushModel IndexModel ReadModel SysModel
  SysSpec History GeomProofs MetaProofs QueueProofs IndexProofs SearchProofs SortProofs ReadProofs HitProofs MdProofs StoreProofs
  FlushProofs ReadOneProofs SysProofs DumpModel DumpSpec.
From Coq Require Import ZifyNat ZifyN.

(** ** One entry *)
Section Entry.
Context (z : zlib) (cfg : Z) (infos : list (option dinfo)).

Lemma entry_ok : forall w p off ctx base buf pre post bc,
  w_metaoff w = off -> ereq KArray cfg (geom infos) ctx w (snd p) -> placed w p ->
  buf = pre ++ wreq_bytes w ++ post -> Zlen pre = base + off ->
  actx_ok (geom infos) base off ctx bc ->
  exists dip e roff bc', info_at infos (h_did (w_hdr w)) = Some (Some dip) /\
    geom infos (a_did (snd p)) = Some (di_ndim dip, di_esize dip, unlim dip) /\
    rd_hdr buf (base + off) = Some (w_hdr w) /\ (Zlen buf <=? base + off) = false /\
    (if has (h_flag (w_hdr w)) FLAG_SEL_REF then ref_decode dip buf (base + off) bc else decode z dip buf (base + off)) = Ok e /\
    me_hdr e = w_hdr w /\ me_sels e = add_doffs (di_esize dip) 0 (a_sels (snd p)) /\
    (if has (h_flag (w_hdr w)) FLAG_SEL_REF then bc else (base + off, me_sels e) :: bc) = bc' /\
    (has (h_flag (w_hdr w)) FLAG_SEL_REF = true ->
       rd_i64 buf (base + off + Z.of_nat HDR + (if has (h_flag (w_hdr w)) FLAG_REC then 8 else 0)) = Some roff) /\
    actx_ok (geom infos) base (off + h_size (w_hdr w)) (ctx_add off w (snd p) ctx) bc'.
Proof.
  intros w p off ctx base buf pre post bc Q1 Q2 HP1 Hbuf Hpre Hctx.
  pose proof (wreq_bytes_len _ _ _ _ _ _ Q2) as Hlen.
  pose proof (ereq_hdr_ok _ _ _ _ _ _ _ Q2 HP1 eq_refl) as HH.
  assert (Hrd : rd_hdr buf (base + off) = Some (w_hdr w)).
  { rewrite <- Hpre. eapply rd_hdr_at; eauto. rewrite Hbuf. unfold wreq_bytes. rewrite <- app_assoc. reflexivity. }
  assert (Q2' := Q2).
  destruct Q2' as (E1 & E2 & E3 & E4 & E5 & E6 & E7 & E8 & nd & es & u & E9 & EU & E10 & E11 & E12).
  destruct (info_at_geom _ _ _ _ _ (proj1 E2) E9) as (dip & I1 & I2 & I3 & I4).
  assert (Hlt : (Zlen buf <=? base + off) = false).
  { apply Z.leb_gt. rewrite Hbuf, !Zlen_app, Hlen, Hpre. unfold hdr_ok in HH. unfold Zlen. lia. }
  assert (Hb' : buf = (pre ++ enc_hdr (w_hdr w)) ++ w_body w ++ post).
  { rewrite Hbuf. unfold wreq_bytes. rewrite <- !app_assoc. reflexivity. }
  assert (Hp' : base + off + Z.of_nat HDR = Zlen (pre ++ enc_hdr (w_hdr w))).
  { rewrite Zlen_app, Hpre. unfold Zlen. rewrite enc_hdr_length. reflexivity. }
  exists dip.
  destruct (has (h_flag (w_hdr w)) FLAG_SEL_REF) eqn:HR.
  - destruct E12 as (SH & m & t & rt & es' & u' & R1 & R2 & R3 & R4 & R5 & R6 & R7).
    destruct (Hctx m t rt R1) as (C1 & C2 & C3).
    assert (Hroff : rd_i64 buf (base + off + Z.of_nat HDR + (if has (h_flag (w_hdr w)) FLAG_REC then 8 else 0)) = Some (m - w_metaoff w)).
    { eapply rd_i64_at with (pre := (pre ++ enc_hdr (w_hdr w)) ++
           (if has (h_flag (w_hdr w)) FLAG_REC then le 8 (recnum_of (a_sels (snd p))) else []))
           (post := post).
      - rewrite Hb', R6, <- !app_assoc. reflexivity.
      - rewrite Zlen_app, <- Hp'. destruct (has _ FLAG_REC); unfold Zlen; rewrite ?le_length; cbn [length]; lia.
      - lia. }
    assert (Hsel : exists dsz, ref_decode dip buf (base + off) bc =
      Ok (mkmentry (w_hdr w) (add_doffs es 0 (a_sels (snd p))) dsz)).
    { unfold ref_decode. rewrite Hrd. cbn [or_ub bind].
      destruct (Z.leb_spec (h_size (w_hdr w)) 0); [destruct HH; lia|].
      assert (Hrec : (if has (h_flag (w_hdr w)) FLAG_REC then or_ub (rd_u64 buf (base + off + Z.of_nat HDR)) else Ok 0)
              = Ok (if has (h_flag (w_hdr w)) FLAG_REC then recnum_of (a_sels (snd p)) else 0)).
      { destruct (has (h_flag (w_hdr w)) FLAG_REC) eqn:FR; [|reflexivity].
        erewrite rd_u64_at; [reflexivity| |exact Hp'|].
        - rewrite Hb', R6, <- !app_assoc. reflexivity.
        - destruct R7 as [R7 R8]. destruct (a_sels (snd p)) as [|b s] eqn:Es; [cbn in E10; lia|].
          cbn [recnum_of]. pose proof (Forall_inv E11) as (L & _ & W & _).
          destruct (b_start b); cbn; [lia|]. apply word_u64. inversion W; auto. }
      rewrite Hrec. cbn [bind].
      assert (Hroff2 : rd_i64 buf (if has (h_flag (w_hdr w)) FLAG_REC then base + off + Z.of_nat HDR + 8
                                    else base + off + Z.of_nat HDR) = Some (m - w_metaoff w)).
      { rewrite <- Hroff. f_equal. destruct (has _ FLAG_REC); lia. }
      rewrite Hroff2. cbn [or_ub bind]. rewrite Q1.
      replace (base + off + (m - off)) with (base + m) by lia. rewrite C2. cbn [or_ub bind].
      assert (HG' : esize_of (geom infos) (a_did t) = es') by (unfold esize_of; rewrite R2; auto).
      rewrite HG'.
      assert (Hd : add_doffs es' 0 (a_sels t) = add_doffs es 0 (a_sels t)).
      { destruct (R5 eq_refl) as [R5'|R5']; [apply add_doffs_single; auto|congruence]. }
      rewrite Hd.
      assert (Hs : (if has (h_flag (w_hdr w)) FLAG_REC
               then map (fun s => mkmsel (set_first (if has (h_flag (w_hdr w)) FLAG_REC then recnum_of (a_sels (snd p)) else 0) (ms_start s))
                                       (set_first 1 (ms_count s)) (ms_doff s)) (add_doffs es 0 (a_sels t))
               else add_doffs es 0 (a_sels t)) = add_doffs es 0 (a_sels (snd p))).
      { destruct (has (h_flag (w_hdr w)) FLAG_REC).
        - destruct R7 as [R7 R8]. rewrite add_doffs_re_record by (apply C3; auto). rewrite <- R8. reflexivity.
        - destruct R7 as [R7 _]. rewrite R7. reflexivity. }
      rewrite Hs. destruct (add_doffs es 0 (a_sels (snd p))) eqn:EA.
      { apply add_doffs_nil in EA. rewrite EA in E10. cbn in E10. lia. }
      eexists. reflexivity. }
    destruct Hsel as [dsz Hsel]. eexists. exists (m - w_metaoff w), bc. rewrite E1. split; [exact I1|].
    split; [rewrite E9; congruence|]. split; [exact Hrd|]. split; [exact Hlt|]. split; [exact Hsel|]. split; [reflexivity|].
    split; [cbn [me_sels]; congruence|]. split; [reflexivity|]. split; [intros _; exact Hroff|].
    unfold ctx_add. rewrite HR. intros m' t' rt' Hin. destruct (Hctx m' t' rt' Hin) as (D1 & D2 & D3).
    split; [unfold hdr_ok in HH; lia|]. auto.
  - edestruct eplain_decode with (z := z) (buf := buf) as (e & D1 & D2 & D3 & D4); eauto.
    rewrite Hpre in D1. exists e, 0. eexists. rewrite E1. split; [exact I1|].
    split; [rewrite E9; congruence|]. split; [exact Hrd|]. split; [exact Hlt|]. split; [exact D1|]. split; [exact D2|].
    split; [congruence|]. split; [reflexivity|]. split; [discriminate|].
    assert (HG : esize_of (geom infos) (a_did (snd p)) = es) by (unfold esize_of; rewrite E9; auto).
    unfold ctx_add. rewrite HR. intros m' t' rt' [Hin|Hin].
    + injection Hin as <- <- <-. split; [unfold hdr_ok in HH; lia|].
      rewrite cache_get_cons_eq. split; [congruence|].
      intros R. destruct (D4 R) as [RB Hnd]. unfold rec_blocks in RB.
      clear - RB E11 Hnd. rewrite Forall_forall in *. intros b Hb. split; [apply RB; auto|].
      destruct (E11 b Hb) as (_ & L & _). lia.
    + destruct (Hctx m' t' rt' Hin) as (B1 & B2 & B3).
      split; [unfold hdr_ok in HH; lia|].
      rewrite cache_get_cons_ne by lia. auto.
Qed.
End Entry.

(** ** The blocks of an entry *)
Definition rendered (b : dblock) : Z * block * option (list Z) := (db_doff b, mkblock (db_start b) (db_count b), db_bytes b).

Lemma firstn_len : forall A n (l : list A), length l = n -> firstn n l = l.
Proof. intros. subst. apply firstn_all. Qed.

Lemma blocks_nodata : forall nd es sels off data,
  Forall (fun b => blk_small nd (b_start b) (b_count b)) sels ->
  exists bs, dump_blocks nd es None (add_doffs es off sels) = Ok bs /\ map rendered bs = cut_blocks false es off sels data.
Proof.
  induction sels as [|b sels IH]; intros off data HF; [exists []; auto|]. inversion HF as [|? ? H1 H2]; subst.
  cbn [add_doffs dump_blocks ms_start ms_count ms_doff]. pose proof H1 as (L1 & L2 & _).
  destruct (Nat.ltb_spec (length (b_start b)) nd); [lia|]. destruct (Nat.ltb_spec (length (b_count b)) nd); [lia|]. cbn [orb bind].
  pose proof (coords_length_size _ _ H1) as [HC _]. unfold block_size in HC.
  assert (Hz : Zlen (coords b) = Zprod (b_count b)) by (unfold Zlen; exact HC).
  destruct (IH (es * Zprod (b_count b) + off) (skipn (Z.to_nat (es * Zlen (coords b))) data) H2) as (bs & E1 & E2).
  rewrite E1. cbn [bind]. eexists. split; [reflexivity|]. cbn [map cut_blocks rendered db_doff db_start db_count db_bytes].
  unfold rendered at 1. cbn [db_doff db_start db_count db_bytes].
  rewrite E2, !firstn_len by auto. rewrite Hz, (Z.add_comm off). destruct b; reflexivity.
Qed.

Lemma blocks_data : forall nd es sels pre data,
  0 < es -> Forall (fun b => blk_small nd (b_start b) (b_count b)) sels -> Zlen data = es * sel_size sels ->
  exists bs, dump_blocks nd es (Some (pre ++ data)) (add_doffs es (Zlen pre) sels) = Ok bs /\
    map rendered bs = cut_blocks true es (Zlen pre) sels data.
Proof.
  induction sels as [|b sels IH]; intros pre data He HF HL; [exists []; auto|]. inversion HF as [|? ? H1 H2]; subst.
  cbn [add_doffs dump_blocks ms_start ms_count ms_doff]. pose proof H1 as (L1 & L2 & _).
  destruct (Nat.ltb_spec (length (b_start b)) nd); [lia|]. destruct (Nat.ltb_spec (length (b_count b)) nd); [lia|]. cbn [orb].
  pose proof (coords_length_size _ _ H1) as [HC HC2]. rewrite sel_size_cons in HL.
  pose proof (sel_size_nonneg _ _ H2). unfold block_size in *.
  assert (Hz : Zlen (coords b) = Zprod (b_count b)) by (unfold Zlen; exact HC).
  set (n := es * Zlen (coords b)) in *. assert (Hn : n = es * Zprod (b_count b)) by (unfold n; rewrite Hz; reflexivity).
  assert (Hn0 : 0 <= n) by (unfold n; unfold Zlen; nia).
  assert (Hl : (Z.to_nat n <= length data)%nat) by (unfold Zlen in HL; nia).
  rewrite !firstn_len by auto. rewrite <- Hn.
  assert (Hr : rd (pre ++ data) (Zlen pre) (Z.to_nat n) = Some (firstn (Z.to_nat n) data)).
  { eapply rd_at with (pre := pre) (post := skipn (Z.to_nat n) data); auto.
    - rewrite firstn_skipn. reflexivity.
    - rewrite firstn_length. lia. }
  rewrite Hr. cbn [or_ub bind].
  destruct (IH (pre ++ firstn (Z.to_nat n) data) (skipn (Z.to_nat n) data) He H2) as (bs & E1 & E2).
  { unfold Zlen in *. rewrite skipn_length. nia. }
  rewrite <- app_assoc, firstn_skipn in E1.
  assert (HE : Zlen (pre ++ firstn (Z.to_nat n) data) = Zlen pre + n).
  { rewrite Zlen_app. unfold Zlen at 2. rewrite firstn_length. lia. }
  rewrite HE in E1, E2. rewrite (Z.add_comm n). rewrite E1. cbn [bind]. eexists. split; [reflexivity|].
  cbn [map cut_blocks rendered db_doff db_start db_count db_bytes]. fold n. rewrite E2. destruct b; reflexivity.
Qed.

Lemma bsize_ok : forall nd es sels off, 0 < es -> 0 <= off -> sels <> [] ->
  Forall (fun b => blk_small nd (b_start b) (b_count b)) sels ->
  off + es * sel_size sels <= dump_bsize nd es (add_doffs es off sels).
Proof.
  intros nd es sels off He H0 Hne HF. unfold dump_bsize.
  destruct (add_doffs es off sels) eqn:E; [apply add_doffs_nil in E; congruence|]. rewrite <- E. clear E m l.
  revert off H0. induction HF as [|b sels H1 HF IH]; intros off H0; [congruence|].
  pose proof (coords_length_size _ _ H1) as [HC HC2]. unfold block_size in *. pose proof H1 as (L1 & L2 & _).
  rewrite sel_size_cons. unfold block_size. destruct sels as [|b2 sels].
  - cbn [add_doffs last ms_count ms_doff]. rewrite firstn_len by auto. unfold sel_size. cbn [map Zsum fold_right]. nia.
  - cbn [add_doffs]. cbn [add_doffs] in IH. change (last (?a :: ?b :: ?c) ?d) with (last (b :: c) d).
    specialize (IH ltac:(discriminate) (es * Zprod (b_count b) + off) ltac:(nia)). cbn [add_doffs] in IH.
    eapply Z.le_trans; [|exact IH]. nia.
Qed.

(** ** One section *)
Definition lg_of (p : pwr) : logged := mklg (a_did (snd p)) (fst p) (a_sels (snd p)) (a_data (snd p)).
Definition in_file (f : bytemap) (p : pwr) : Prop := get f (fst p) (length (a_data (snd p))) = a_data (snd p).
Definition dumpable (k : kind) (G : Z -> option (nat * Z * bool)) (p : pwr) : Prop := apok k G (snd p).
Definition show_es (wd : bool) (G : Z -> option (nat * Z * bool)) (p : pwr) : shown :=
  mksh (a_did (snd p)) (fst p) (Zlen (a_data (snd p)))
    (cut_blocks wd (esize_of G (a_did (snd p))) 0 (a_sels (snd p)) (a_data (snd p))).

Section Dump.
Context (z : zlib) (cfg : Z) (infos : list (option dinfo)) (wd : bool) (f : bytemap).
Let file := if wd then Some f else None.
Let G := geom infos.

Lemma dump_section : forall ws ps off ctx buf pre bc fuel,
  qrep KArray cfg G off ctx ws (map snd ps) -> Forall2 placed ws ps ->
  buf = pre ++ flat_map wreq_bytes ws -> Zlen pre = off -> actx_ok G 0 off ctx bc ->
  Forall (dumpable KArray G) ps -> Forall (in_file f) ps -> (length ws < fuel)%nat ->
  exists ds, dump_sec fuel z infos file buf off bc = Ok ds /\ map listed ds = map (show_es wd G) ps.
Proof.
  induction ws as [|w ws IH]; intros ps off ctx buf pre bc fuel HQ HP Hbuf Hpre Hctx HD HI Hfuel.
  - destruct ps; [|cbn in HQ; tauto]. exists []. split; auto. destruct fuel; [cbn in Hfuel; lia|]. cbn [dump_sec].
    cbn [flat_map] in Hbuf. rewrite app_nil_r in Hbuf. subst buf. rewrite Hpre, Z.leb_refl. reflexivity.
  - destruct ps as [|p ps]; [inversion HP|]. cbn [map qrep] in HQ. destruct HQ as (Q1 & Q2 & Q3).
    inversion HP as [|? ? ? ? HP1 HP2]; subst x y l l'. inversion HD as [|? ? HD1 HD2]; subst x l. inversion HI as [|? ? HI1 HI2]; subst x l.
    destruct fuel as [|fuel]; [lia|]. cbn [length] in Hfuel.
    destruct (entry_ok z cfg infos w p off ctx 0 buf pre (flat_map wreq_bytes ws) bc Q1 Q2 HP1 Hbuf ltac:(lia) Hctx)
      as (dip & e & roff & bc' & I1 & I2 & I3 & I4 & I5 & I6 & I7 & I8 & I9 & I10).
    cbn [Z.add] in *. pose proof (wreq_bytes_len _ _ _ _ _ _ Q2) as Hlen.
    destruct (IH ps (off + h_size (w_hdr w)) (ctx_add off w (snd p) ctx) buf (pre ++ wreq_bytes w) bc' fuel) as (ds & D1 & D2); auto.
    { rewrite Hbuf. cbn [flat_map]. rewrite <- app_assoc. reflexivity. }
    { rewrite Zlen_app, Hlen. lia. }
    { lia. }
    cbn [dump_sec]. rewrite I4, I3. cbn [or_ub bind]. rewrite I1. cbn [or_ub bind]. cbn zeta. cbn [SlotModel.table_slot]. rewrite I5. cbn [bind].
    destruct HD1 as ((W1 & W2) & W3 & W4 & _).
    assert (HE : esize_of G (a_did (snd p)) = di_esize dip) by (unfold esize_of, G; rewrite I2; reflexivity).
    assert (HN : ndim_of G (a_did (snd p)) = di_ndim dip) by (unfold ndim_of, G; rewrite I2; reflexivity).
    unfold wbytes in W4. cbn [snd] in *. rewrite HE in *. rewrite HN in *.
    assert (Hfs : h_fsize (w_hdr w) = Zlen (a_data (snd p))) by apply Q2.
    assert (Hfo : h_foff (w_hdr w) = fst p) by apply HP1.
    assert (Hdid : h_did (w_hdr w) = a_did (snd p)) by apply Q2.
    assert (Hdd : dump_data (di_ndim dip) (di_esize dip) file e = Ok (if wd then Some (a_data (snd p)) else None)).
    { unfold dump_data, file. destruct wd; [|reflexivity]. rewrite I6, I7, Hfs, Hfo.
      pose proof (bsize_ok (di_ndim dip) (di_esize dip) (a_sels (snd p)) 0 W2 ltac:(lia) W3 W1).
      destruct (Z.ltb_spec (dump_bsize (di_ndim dip) (di_esize dip) (add_doffs (di_esize dip) 0 (a_sels (snd p)))) (Zlen (a_data (snd p)))); [lia|].
      unfold Zlen. rewrite Nat2Z.id. rewrite HI1. reflexivity. }
    rewrite Hdd. cbn [bind].
    assert (Hro : exists o, (if has (h_flag (w_hdr w)) FLAG_SEL_REF
       then do r <- or_ub (rd_i64 buf (off + Z.of_nat HDR + (if has (h_flag (w_hdr w)) FLAG_REC then 8 else 0))); Ok (Some (off + r))
       else Ok None) = Ok o).
    { destruct (has (h_flag (w_hdr w)) FLAG_SEL_REF); [|eauto]. rewrite I9 by auto. cbn [or_ub bind]. eauto. }
    destruct Hro as [o Hro]. rewrite Hro. cbn [bind].
    assert (Hbl : exists bs, dump_blocks (di_ndim dip) (di_esize dip) (if wd then Some (a_data (snd p)) else None) (me_sels e) = Ok bs /\
      map rendered bs = cut_blocks wd (di_esize dip) 0 (a_sels (snd p)) (a_data (snd p))).
    { rewrite I7. destruct wd; [|apply blocks_nodata; auto]. apply (blocks_data _ _ _ [] (a_data (snd p))); auto. }
    destruct Hbl as (bs & B1 & B2). rewrite B1. cbn [bind]. rewrite I8, D1. cbn [bind]. eexists. split; [reflexivity|].
    cbn [map]. rewrite D2. f_equal. unfold listed, show_es. cbn [de_hdr de_blocks]. rewrite Hfs, Hfo, Hdid, HE. unfold rendered in B2. rewrite B2. reflexivity.
Qed.

(** ** One metadata dataset *)
Lemma dump_sections : forall secs md pre lens off, 
  Forall (sec_ok KArray cfg G) secs -> Forall (Forall (dumpable KArray G)) (map snd secs) -> Forall (Forall (in_file f)) (map snd secs) ->
  md = pre ++ flat_map sec_bytes secs -> Zlen pre = off -> lens = map sec_len secs ->
  exists dss, dump_secs z infos file md off (prefix_ends off lens) = Ok dss /\
    map (map listed) dss = map (map (show_es wd G)) (map snd secs).
Proof.
  induction secs as [|s secs IH]; intros md pre lens off HS HD HF Hmd Hpre ->; [exists []; auto|].
  inversion HS as [|? ? [S1 S2] S3]; subst x l. cbn [map] in HD, HF. inversion HD as [|? ? D1 D2]; subst x l. inversion HF as [|? ? F1 F2]; subst x l.
  cbn [map prefix_ends dump_secs].
  assert (Hr : rd md off (Z.to_nat (off + sec_len s - off)) = Some (sec_bytes s)).
  { eapply rd_at with (pre := pre) (post := flat_map sec_bytes secs); auto. unfold sec_len, Zlen. lia. }
  rewrite Hr. destruct (qrep_bytes_len _ _ _ _ _ _ _ S1) as [_ L2].
  destruct (dump_section (fst s) (snd s) 0 [] (sec_bytes s) [] [] (S (length (sec_bytes s)))) as (ds & E1 & E2); auto.
  { intros ? ? ? []. }
  { unfold sec_bytes, Zlen in *. lia. }
  rewrite E1. cbn [bind].
  destruct (IH md (pre ++ sec_bytes s) (map sec_len secs) (off + sec_len s)) as (dss & G1 & G2); auto.
  { rewrite Hmd. cbn [flat_map]. rewrite app_assoc. reflexivity. }
  { rewrite Zlen_app. unfold sec_len. lia. }
  rewrite G1. cbn [bind]. eexists. split; [reflexivity|]. cbn [map]. rewrite E2, G2. reflexivity.
Qed.

Lemma map_signed : forall l, Forall (fun w => 0 <= w < 2 ^ 63) l -> map (to_signed 8) l = l.
Proof.
  induction 1 as [|w l H HF IH]; [reflexivity|]. cbn [map]. rewrite IH. f_equal. unfold to_signed.
  change (8 * Z.of_nat 8) with 64. change (2 ^ (64 - 1)) with (2 ^ 63). destruct (Z.ltb_spec w (2 ^ 63)); [reflexivity|lia].
Qed.

Lemma dump_mdset_ok : forall secs, md_ok secs ->
  Forall (sec_ok KArray cfg G) secs -> Forall (Forall (dumpable KArray G)) (map snd secs) -> Forall (Forall (in_file f)) (map snd secs) ->
  exists dss, dump_mdset z infos file (md_bytes secs) = Ok dss /\ map (map listed) dss = map (map (show_es wd G)) (map snd secs).
Proof.
  intros secs Hm HS HD HF. unfold dump_mdset. rewrite md_nsec by auto. cbn [or_ub bind].
  pose proof (Zlen_nonneg _ secs). destruct (Z.ltb_spec (Zlen secs) 0); [lia|].
  assert (HO : rd_words (md_bytes secs) 8 (Z.to_nat (Zlen secs)) = Some (md_offs secs)).
  { eapply rd_words_at with (pre := le 8 (Zlen secs)) (post := flat_map sec_bytes secs).
    - unfold md_bytes. cbn [words flat_map]. rewrite <- app_assoc. reflexivity.
    - unfold Zlen at 1. rewrite le_length. reflexivity.
    - unfold md_offs. rewrite prefix_ends_length, map_length. unfold Zlen. lia.
    - eapply Forall_impl; [|apply md_offs_words; auto]. cbn. intros. lia. }
  rewrite HO, map_signed by (apply md_offs_words; auto). unfold md_offs.
  replace (8 + 8 * Zlen secs) with (8 * (Zlen secs + 1)) by lia.
  eapply dump_sections; eauto.
  - unfold md_bytes. reflexivity.
  - apply md_hdr_len.
Qed.

Lemma dump_mdsets_ok : forall ms, Forall md_ok ms ->
  Forall (Forall (sec_ok KArray cfg G)) ms -> Forall (Forall (Forall (dumpable KArray G))) (map (map snd) ms) ->
  Forall (Forall (Forall (in_file f))) (map (map snd) ms) ->
  exists d, dump_mdsets z infos file (map md_bytes ms) = Ok d /\ map (map (map listed)) d = map (map (map (show_es wd G))) (map (map snd) ms).
Proof.
  induction ms as [|m ms IH]; intros H1 H2 H3 H4; [exists []; auto|]. cbn [map] in *. inversion H1; subst. inversion H2; subst. inversion H3; subst. inversion H4; subst.
  destruct (dump_mdset_ok m) as (a & A1 & A2); auto. destruct IH as (b & B1 & B2); auto.
  cbn [dump_mdsets]. rewrite A1. cbn [bind]. rewrite B1. cbn [bind]. eexists. split; [reflexivity|]. cbn [map]. rewrite A2, B2. reflexivity.
Qed.
End Dump.
