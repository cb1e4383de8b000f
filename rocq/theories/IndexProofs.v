(** Parsing a block of metadata entries and searching it. *)
From Verif Require Import Base BaseProofs Spec MetaModel QueueModel FlushModel IndexModel
  GeomProofs MetaProofs QueueProofs.
From Coq Require Import ZifyNat ZifyN.

(** A write placed in the log at a file offset. *)
Definition pwr : Type := Z * awr.

Definition esize_of (G : Z -> option (nat * Z * bool)) (did : Z) : Z :=
  match G did with Some (_, es, _) => es | None => 0 end.
Definition ndim_of (G : Z -> option (nat * Z * bool)) (did : Z) : nat :=
  match G did with Some (nd, _, _) => nd | None => 0%nat end.

Definition unlim_of (G : Z -> option (nat * Z * bool)) (did : Z) : bool :=
  match G did with Some (_, _, u) => u | None => false end.

(** ** What index entries stand for *)
Definition ment_rep (G : Z -> option (nat * Z * bool)) (e : mentry) (p : pwr) : Prop :=
  h_did (me_hdr e) = a_did (snd p) /\ h_foff (me_hdr e) = fst p /\
  me_sels e = add_doffs (esize_of G (a_did (snd p))) 0 (a_sels (snd p)).

Definition cwords (rec : bool) (sels : list block) : list Z :=
  flat_map (fun b => skipn (recd rec) (b_start b) ++ skipn (recd rec) (b_count b)) sels.

Definition rec_blocks (sels : list block) : Prop :=
  Forall (fun b => hd 0 (b_count b) = 1 /\ hd 0 (b_start b) = recnum_of sels) sels.

Definition cent_rep (G : Z -> option (nat * Z * bool)) (c : cent) (p : pwr) : Prop :=
  ce_did c = a_did (snd p) /\ ce_foff c = fst p /\
  Forall (blk_ok (ndim_of G (a_did (snd p)))) (a_sels (snd p)) /\
  exists rec, own_blocks c = Some (Zlen (a_sels (snd p)), cwords rec (a_sels (snd p))) /\
    if rec then ce_rec c = recnum_of (a_sels (snd p)) /\ 0 <= ce_rec c /\ rec_blocks (a_sels (snd p)) /\
                (0 < ndim_of G (a_did (snd p)))%nat /\ unlim_of G (a_did (snd p)) = true
    else ce_rec c = -1.

Definition idx_rep (G : Z -> option (nat * Z * bool)) (i : index) (l : list pwr) : Prop :=
  match i with
  | IArray es => Forall2 (ment_rep G) es l
  | ICompact cs => Forall2 (cent_rep G) cs l
  end.

(** Headers of placed requests. *)
Definition placed (w : wreq) (p : pwr) : Prop :=
  h_foff (w_hdr w) = fst p /\ 0 <= fst p < 2 ^ 63 /\ Zlen (a_data (snd p)) < 2 ^ 63.

Lemma add_doffs_nil : forall es d s, add_doffs es d s = [] -> s = [].
Proof. destruct s; cbn; intros; auto. discriminate. Qed.

Lemma cache_get_cons_ne : forall A (bc : cache A) k k' a, k <> k' -> cache_get ((k', a) :: bc) k = cache_get bc k.
Proof. intros. cbn. destruct (Z.eqb_spec k k'); congruence. Qed.
Lemma cache_get_cons_eq : forall A (bc : cache A) k a, cache_get ((k, a) :: bc) k = Some a.
Proof. intros. cbn. rewrite Z.eqb_refl. reflexivity. Qed.

Lemma add_doffs_re_record : forall es rn s d,
  Forall (fun b => hd 0 (b_count b) = 1 /\ (0 < length (b_count b))%nat) s ->
  map (fun m => mkmsel (set_first rn (ms_start m)) (set_first 1 (ms_count m)) (ms_doff m)) (add_doffs es d s) =
  add_doffs es d (map (re_record rn) s).
Proof.
  induction s as [|b s IH]; intros d H; [reflexivity|]. inversion H; subst.
  cbn [add_doffs map]. destruct H2 as [H1 H2].
  assert (E : set_first 1 (b_count b) = b_count b).
  { destruct (b_count b); cbn in *; [lia|congruence]. }
  unfold re_record at 2 3 4. cbn [b_start b_count ms_start ms_count ms_doff].
  rewrite IH by auto. rewrite E. reflexivity.
Qed.

Lemma add_doffs_single : forall es es' s, length s = 1%nat -> add_doffs es 0 s = add_doffs es' 0 s.
Proof. intros. destruct s as [|b [|? ?]]; cbn in H; try lia. reflexivity. Qed.

Lemma ereq_hdr_ok : forall k cfg G ctx w a p, ereq k cfg G ctx w a -> placed w p -> a = snd p ->
  hdr_ok (w_hdr w).
Proof.
  intros k cfg G ctx w a p (E1 & E2 & E3 & E4 & E5 & E6 & E7 & _) (P1 & P2 & P3) ->.
  change (Z.of_nat HDR) with 28 in E5. unfold hdr_ok. rewrite E1, E3, P1. unfold Zlen in *. lia.
Qed.

Lemma info_at_geom : forall infos did nd es u, 0 <= did -> geom infos did = Some (nd, es, u) ->
  exists dip, info_at infos did = Some (Some dip) /\ di_ndim dip = nd /\ di_esize dip = es /\ unlim dip = u.
Proof.
  intros infos did nd es u Hd H. unfold geom in H. unfold info_at.
  destruct (did <? 0) eqn:E; [apply Z.ltb_lt in E; lia|].
  destruct (nth_error infos (Z.to_nat did)) as [[dip|]|]; try discriminate.
  injection H as <- <- <-. exists dip. auto.
Qed.

(** ** Array index *)
Definition actx_ok (G : Z -> option (nat * Z * bool)) (base off : Z) (ctx : pctx) (bc : cache (list msel)) : Prop :=
  forall m t rt, In (m, (t, rt)) ctx -> m < off /\
    cache_get bc (base + m) = Some (add_doffs (esize_of G (a_did t)) 0 (a_sels t)) /\
    (rt = true -> Forall (fun b => hd 0 (b_count b) = 1 /\ (0 < length (b_count b))%nat) (a_sels t)).

Lemma wreq_bytes_len : forall k cfg G ctx w a, ereq k cfg G ctx w a -> Zlen (wreq_bytes w) = h_size (w_hdr w).
Proof.
  intros k cfg G ctx w a (_ & _ & _ & _ & E & _). unfold wreq_bytes. rewrite Zlen_app.
  unfold Zlen at 1. rewrite enc_hdr_length. lia.
Qed.

(** Decoding of an entry with its own selection. *)
Lemma eplain_decode : forall z k cfg infos ctx w a p dip buf pre post nd es u,
  ereq k cfg (geom infos) ctx w a -> placed w p -> a = snd p ->
  has (h_flag (w_hdr w)) FLAG_SEL_REF = false ->
  geom infos (a_did a) = Some (nd, es, u) -> di_ndim dip = nd -> di_esize dip = es ->
  buf = pre ++ wreq_bytes w ++ post ->
  exists e, decode z dip buf (Zlen pre) = Ok e /\ me_hdr e = w_hdr w /\
    me_sels e = add_doffs es 0 (a_sels a) /\
    (has (h_flag (w_hdr w)) FLAG_REC = true -> rec_blocks (a_sels a) /\ (0 < nd)%nat /\ u = true).
Proof.
  intros z k cfg infos ctx w a p dip buf pre post nd es u HE HP Ha Href HG Hn He Hb.
  pose proof (ereq_hdr_ok _ _ _ _ _ _ _ HE HP Ha) as HH.
  destruct HE as (E1 & E2 & E3 & E4 & E5 & E6 & E7 & E8 & nd' & es' & u' & E9 & EU & E10 & E11 & E12).
  rewrite HG in E9. injection E9 as <- <- <-. rewrite Href in E12.
  destruct E12 as (dims & mul & D1 & D2 & D3 & D4 & D5).
  eexists. split.
  - eapply decode_ok with (dims := dims); eauto; [congruence|].
    rewrite Hb. unfold wreq_bytes. rewrite D5, <- !app_assoc. reflexivity.
  - cbn. split; auto. split; [congruence|]. intros R. destruct D4 as (_ & _ & _ & D4 & _).
    destruct (D4 R) as [D6 D7]. split; [exact D7|]. split; [lia|auto].
Qed.

Lemma parse_array_section : forall z cfg infos ws ps off ctx base buf pre post bc,
  qrep KArray cfg (geom infos) off ctx ws (map snd ps) -> Forall2 placed ws ps ->
  buf = pre ++ flat_map wreq_bytes ws ++ post -> Zlen pre = base + off ->
  actx_ok (geom infos) base off ctx bc ->
  exists es bc', Forall2 (ment_rep (geom infos)) es ps /\
    forall fuel, parse_array (length ws + fuel) z cfg infos buf (base + off) bc =
      do rest <- parse_array fuel z cfg infos buf
                   (base + off + Zsum (map (fun w => h_size (w_hdr w)) ws)) bc';
      Ok (es ++ rest).
Proof.
  intros z cfg infos. induction ws as [|w ws IH]; intros ps off ctx base buf pre post bc HQ HP Hbuf Hpre Hctx.
  - destruct ps; [|cbn in HQ; tauto]. exists [], bc. split; [constructor|]. intros fuel.
    cbn [length Nat.add map Zsum fold_right]. rewrite Z.add_0_r.
    destruct (parse_array fuel z cfg infos buf (base + off) bc); reflexivity.
  - destruct ps as [|p ps]; [inversion HP|]. cbn [map qrep] in HQ. destruct HQ as (Q1 & Q2 & Q3).
    inversion HP as [|? ? ? ? HP1 HP2]; subst x y l l'.
    pose proof (wreq_bytes_len _ _ _ _ _ _ Q2) as Hlen.
    pose proof (ereq_hdr_ok _ _ _ _ _ _ _ Q2 HP1 eq_refl) as HH.
    cbn [flat_map] in Hbuf. rewrite <- app_assoc in Hbuf.
    assert (Hrd : rd_hdr buf (base + off) = Some (w_hdr w)).
    { rewrite <- Hpre. eapply rd_hdr_at; eauto. rewrite Hbuf. unfold wreq_bytes. rewrite <- app_assoc. reflexivity. }
    assert (Q2' := Q2).
    destruct Q2' as (E1 & E2 & E3 & E4 & E5 & E6 & E7 & E8 & nd & es & u & E9 & EU & E10 & E11 & E12).
    destruct (info_at_geom _ _ _ _ _ (proj1 E2) E9) as (dip & I1 & I2 & I3 & I4).
    assert (Hlt : (Zlen buf <=? base + off) = false).
    { apply Z.leb_gt. rewrite Hbuf, !Zlen_app, Hlen, Hpre. unfold hdr_ok in HH.
      unfold Zlen. lia. }
    assert (HG : esize_of (geom infos) (a_did (snd p)) = es) by (unfold esize_of; rewrite E9; auto).
    destruct (has (h_flag (w_hdr w)) FLAG_SEL_REF) eqn:HR.
    + (* reference *)
      destruct E12 as (SH & m & t & rt & es' & u' & R1 & R2 & R3 & R4 & R5 & R6 & R7).
      destruct (Hctx m t rt R1) as (C1 & C2 & C3).
      assert (Hsel : exists dsz, ref_decode dip buf (base + off) bc =
        Ok (mkmentry (w_hdr w) (add_doffs es 0 (a_sels (snd p))) dsz)).
      { unfold ref_decode. rewrite Hrd. cbn [or_ub bind].
        destruct (Z.leb_spec (h_size (w_hdr w)) 0); [destruct HH; lia|].
        assert (Hb' : buf = (pre ++ enc_hdr (w_hdr w)) ++ w_body w ++ (flat_map wreq_bytes ws ++ post)).
        { rewrite Hbuf. unfold wreq_bytes. rewrite <- !app_assoc. reflexivity. }
        assert (Hp' : base + off + Z.of_nat HDR = Zlen (pre ++ enc_hdr (w_hdr w))).
        { rewrite Zlen_app, Hpre. unfold Zlen. rewrite enc_hdr_length. reflexivity. }
        assert (Hrec : (if has (h_flag (w_hdr w)) FLAG_REC then or_ub (rd_u64 buf (base + off + Z.of_nat HDR)) else Ok 0)
                = Ok (if has (h_flag (w_hdr w)) FLAG_REC then recnum_of (a_sels (snd p)) else 0)).
        { destruct (has (h_flag (w_hdr w)) FLAG_REC) eqn:FR; [|reflexivity].
          erewrite rd_u64_at; [reflexivity| |exact Hp'|].
          - rewrite Hb', R6, <- !app_assoc. reflexivity.
          - destruct R7 as [R7 R8]. destruct (a_sels (snd p)) as [|b s] eqn:Es; [cbn in E10; lia|].
            cbn [recnum_of]. pose proof (Forall_inv E11) as (L & _ & W & _).
            destruct (b_start b); cbn; [lia|]. apply word_u64. inversion W; auto. }
        rewrite Hrec. cbn [bind].
        assert (Hroff : rd_i64 buf (if has (h_flag (w_hdr w)) FLAG_REC then base + off + Z.of_nat HDR + 8
                                    else base + off + Z.of_nat HDR) = Some (m - w_metaoff w)).
        { eapply rd_i64_at with (pre := (pre ++ enc_hdr (w_hdr w)) ++
               (if has (h_flag (w_hdr w)) FLAG_REC then le 8 (recnum_of (a_sels (snd p))) else []))
               (post := flat_map wreq_bytes ws ++ post).
          - rewrite Hb', R6, <- !app_assoc. reflexivity.
          - rewrite Zlen_app, <- Hp'. destruct (has _ FLAG_REC); unfold Zlen; rewrite ?le_length; cbn [length]; lia.
          - lia. }
        rewrite Hroff. cbn [or_ub bind]. rewrite Q1.
        replace (base + off + (m - off)) with (base + m) by lia. rewrite C2. cbn [or_ub bind].
        assert (HG' : esize_of (geom infos) (a_did t) = es') by (unfold esize_of; rewrite R2; auto).
        rewrite HG'.
        assert (Hd : add_doffs es' 0 (a_sels t) = add_doffs es 0 (a_sels t)).
        { destruct (R5 eq_refl) as [R5'|R5']; [apply add_doffs_single; auto|congruence]. }
        rewrite Hd.
        assert (Hs : (if has (h_flag (w_hdr w)) FLAG_REC
                 then map (fun s => mkmsel (set_first (if has (h_flag (w_hdr w)) FLAG_REC then recnum_of (a_sels (snd p)) else 0) (ms_start s))
                                         (set_first 1 (ms_count s)) (ms_doff s)) (add_doffs es 0 (a_sels t))
                 else add_doffs es 0 (a_sels t)) = add_doffs es 0 (a_sels (snd p))).
        { destruct (has (h_flag (w_hdr w)) FLAG_REC).
          - destruct R7 as [R7 R8]. rewrite add_doffs_re_record by (apply C3; auto). rewrite <- R8. reflexivity.
          - destruct R7 as [R7 _]. rewrite R7. reflexivity. }
        rewrite Hs. destruct (add_doffs es 0 (a_sels (snd p))) eqn:EA.
        { apply add_doffs_nil in EA. rewrite EA in E10. cbn in E10. lia. }
        eexists. reflexivity. }
      destruct Hsel as [dsz Hsel].
      edestruct IH with (buf := buf) (off := off + h_size (w_hdr w)) (ctx := ctx_add off w (snd p) ctx) (base := base)
        (pre := pre ++ wreq_bytes w) (bc := bc) (ps := ps) (post := post) as (es2 & bc' & F & HP3); eauto.
      { rewrite Hbuf, <- app_assoc. reflexivity. }
      { rewrite Zlen_app, Hlen. lia. }
      { unfold ctx_add. rewrite HR. intros m' t' rt' Hin. destruct (Hctx m' t' rt' Hin) as (D1 & D2 & D3).
        split; [unfold hdr_ok in HH; lia|]. auto. }
      exists (mkmentry (w_hdr w) (add_doffs es 0 (a_sels (snd p))) dsz :: es2), bc'. split.
      { constructor; auto. unfold ment_rep. cbn [me_hdr me_sels]. rewrite HG.
        destruct HP1 as (HP1 & _). auto. }
      intros fuel. cbn [length Nat.add parse_array]. rewrite Hlt, Hrd. cbn [or_ub bind].
      rewrite E1, I1. cbn [or_ub bind]. rewrite SH, HR. cbn [andb]. rewrite Hsel. cbn [bind].
      rewrite <- Z.add_assoc, HP3.
      replace (base + off + Zsum (map (fun w0 => h_size (w_hdr w0)) (w :: ws))) with
        (base + (off + h_size (w_hdr w)) + Zsum (map (fun w0 => h_size (w_hdr w0)) ws))
        by (cbn [map Zsum fold_right]; unfold Zsum; lia).
      destruct (parse_array fuel z cfg infos buf _ bc'); reflexivity.
    + (* own selection *)
      edestruct eplain_decode with (z := z) (buf := buf) as (e & D1 & D2 & D3 & D4); eauto.
      edestruct IH with (buf := buf) (off := off + h_size (w_hdr w)) (ctx := ctx_add off w (snd p) ctx) (base := base)
        (pre := pre ++ wreq_bytes w) (bc := (base + off, me_sels e) :: bc) (ps := ps) (post := post) as (es2 & bc' & F & HP3); eauto.
      { rewrite Hbuf, <- app_assoc. reflexivity. }
      { rewrite Zlen_app, Hlen. lia. }
      { unfold ctx_add. rewrite HR. intros m' t' rt' [Hin|Hin].
        - injection Hin as <- <- <-. split; [unfold hdr_ok in HH; lia|].
          rewrite cache_get_cons_eq. split; [congruence|].
          intros R. destruct (D4 R) as [RB Hnd]. unfold rec_blocks in RB.
          clear - RB E11 Hnd. rewrite Forall_forall in *. intros b Hb. split; [apply RB; auto|].
          destruct (E11 b Hb) as (_ & L & _). lia.
        - destruct (Hctx m' t' rt' Hin) as (B1 & B2 & B3).
          split; [unfold hdr_ok in HH; lia|].
          rewrite cache_get_cons_ne by lia. auto. }
      exists (e :: es2), bc'. split.
      { constructor; auto. unfold ment_rep. rewrite HG, D2, D3.
        destruct HP1 as (HP1 & _). auto. }
      intros fuel. cbn [length Nat.add parse_array]. rewrite Hlt, Hrd. cbn [or_ub bind].
      rewrite E1, I1. cbn [or_ub bind]. rewrite HR, andb_false_r. rewrite <- Hpre, D1, Hpre. cbn [bind].
      rewrite <- Z.add_assoc, HP3.
      replace (base + off + Zsum (map (fun w0 => h_size (w_hdr w0)) (w :: ws))) with
        (base + (off + h_size (w_hdr w)) + Zsum (map (fun w0 => h_size (w_hdr w0)) ws))
        by (cbn [map Zsum fold_right]; unfold Zsum; lia).
      destruct (parse_array fuel z cfg infos buf _ bc'); reflexivity.
Qed.

(** ** Compact index *)
Definition cctx_ok (base off : Z) (ctx : pctx) (bc : cache cent) : Prop :=
  forall m t rt, In (m, (t, rt)) ctx -> m < off /\
    exists c, cache_get bc (base + m) = Some c /\
      own_blocks c = Some (Zlen (a_sels t), cwords rt (a_sels t)).

Lemma add_doffs_flat : forall (f : list Z -> list Z -> list Z) es s d,
  flat_map (fun m => f (ms_start m) (ms_count m)) (add_doffs es d s) =
  flat_map (fun b => f (b_start b) (b_count b)) s.
Proof. induction s; intros; cbn; auto. f_equal. auto. Qed.

Lemma add_doffs_length : forall es s d, length (add_doffs es d s) = length s.
Proof. induction s; cbn; auto. Qed.

Lemma cwords_re_record : forall rn s, Forall (fun b => (0 < length (b_start b))%nat /\ (0 < length (b_count b))%nat) s ->
  cwords true (map (re_record rn) s) = cwords true s.
Proof.
  unfold cwords. induction s; intros H; [reflexivity|]. inversion H; subst.
  cbn [map flat_map]. rewrite IHs by auto. f_equal. destruct H2.
  unfold re_record. cbn [b_start b_count recd].
  destruct (b_start a), (b_count a); cbn in *; try lia. reflexivity.
Qed.

Lemma recnum_word : forall nd s, 0 < Zlen s -> (0 < nd)%nat -> Forall (blk_ok nd) s -> word (recnum_of s).
Proof.
  intros nd s H Hn HF. destruct s as [|b s]; [cbn in H; lia|]. cbn [recnum_of].
  pose proof (Forall_inv HF) as (L & _ & W & _).
  destruct (b_start b); cbn in L |- *; [lia|]. inversion W; auto.
Qed.

Lemma compact_of_rep : forall G e (p : pwr) nd es u, G (a_did (snd p)) = Some (nd, es, u) ->
  h_did (me_hdr e) = a_did (snd p) -> h_foff (me_hdr e) = fst p ->
  me_sels e = add_doffs es 0 (a_sels (snd p)) -> 0 < Zlen (a_sels (snd p)) ->
  Forall (blk_ok nd) (a_sels (snd p)) ->
  (has (h_flag (me_hdr e)) FLAG_REC = true -> rec_blocks (a_sels (snd p)) /\ (0 < nd)%nat /\ u = true) ->
  cent_rep G (compact_of e) p /\
  own_blocks (compact_of e) =
    Some (Zlen (a_sels (snd p)), cwords (has (h_flag (me_hdr e)) FLAG_REC) (a_sels (snd p))).
Proof.
  intros G e p nd es u HG H1 H2 H3 H4 H5 H6.
  assert (Ho : own_blocks (compact_of e) =
    Some (Zlen (a_sels (snd p)), cwords (has (h_flag (me_hdr e)) FLAG_REC) (a_sels (snd p)))).
  { unfold own_blocks, compact_of. cbn [ce_blocks]. rewrite H3. f_equal. f_equal.
    - unfold Zlen. rewrite add_doffs_length. reflexivity.
    - destruct (has (h_flag (me_hdr e)) FLAG_REC).
      + exact (add_doffs_flat (fun a b => tl a ++ tl b) es (a_sels (snd p)) 0).
      + exact (add_doffs_flat (fun a b => a ++ b) es (a_sels (snd p)) 0). }
  split; auto. unfold cent_rep. cbn [compact_of ce_did ce_foff]. split; auto. split; auto.
  unfold ndim_of, unlim_of. rewrite HG. split; auto.
  exists (has (h_flag (me_hdr e)) FLAG_REC). split; auto. unfold compact_of; cbn [ce_rec].
  destruct (has (h_flag (me_hdr e)) FLAG_REC); auto. destruct (H6 eq_refl) as (RB & Hnd & Hu).
  pose proof (recnum_word _ _ H4 Hnd H5) as W.
  rewrite H3. destruct (a_sels (snd p)) as [|b s]; [cbn in H4; lia|].
  cbn [add_doffs ms_start recnum_of] in *.
  rewrite to_signed8_id by exact W. unfold word in W. split; [auto|]. split; [lia|]. auto.
Qed.

Lemma parse_compact_section : forall z cfg infos ws ps off ctx base buf pre post bc,
  qrep KCompact cfg (geom infos) off ctx ws (map snd ps) -> Forall2 placed ws ps ->
  buf = pre ++ flat_map wreq_bytes ws ++ post -> Zlen pre = base + off ->
  cctx_ok base off ctx bc ->
  exists es bc', Forall2 (cent_rep (geom infos)) es ps /\
    forall fuel, parse_compact (length ws + fuel) z cfg infos buf (base + off) bc =
      do rest <- parse_compact fuel z cfg infos buf
                   (base + off + Zsum (map (fun w => h_size (w_hdr w)) ws)) bc';
      Ok (es ++ rest).
Proof.
  intros z cfg infos. induction ws as [|w ws IH]; intros ps off ctx base buf pre post bc HQ HP Hbuf Hpre Hctx.
  - destruct ps; [|cbn in HQ; tauto]. exists [], bc. split; [constructor|]. intros fuel.
    cbn [length Nat.add map Zsum fold_right]. rewrite Z.add_0_r.
    destruct (parse_compact fuel z cfg infos buf (base + off) bc); reflexivity.
  - destruct ps as [|p ps]; [inversion HP|]. cbn [map qrep] in HQ. destruct HQ as (Q1 & Q2 & Q3).
    inversion HP as [|? ? ? ? HP1 HP2]; subst x y l l'.
    pose proof (wreq_bytes_len _ _ _ _ _ _ Q2) as Hlen.
    pose proof (ereq_hdr_ok _ _ _ _ _ _ _ Q2 HP1 eq_refl) as HH.
    cbn [flat_map] in Hbuf. rewrite <- app_assoc in Hbuf.
    assert (Hrd : rd_hdr buf (base + off) = Some (w_hdr w)).
    { rewrite <- Hpre. eapply rd_hdr_at; eauto. rewrite Hbuf. unfold wreq_bytes. rewrite <- app_assoc. reflexivity. }
    assert (Q2' := Q2).
    destruct Q2' as (E1 & E2 & E3 & E4 & E5 & E6 & E7 & E8 & nd & es & u & E9 & EU & E10 & E11 & E12).
    destruct (info_at_geom _ _ _ _ _ (proj1 E2) E9) as (dip & I1 & I2 & I3 & I4).
    assert (Hlt : (Zlen buf <=? base + off) = false).
    { apply Z.leb_gt. rewrite Hbuf, !Zlen_app, Hlen, Hpre. unfold hdr_ok in HH.
      unfold Zlen. lia. }
    assert (HN : ndim_of (geom infos) (a_did (snd p)) = nd) by (unfold ndim_of; rewrite E9; auto).
    assert (HU : unlim_of (geom infos) (a_did (snd p)) = u) by (unfold unlim_of; rewrite E9; auto).
    destruct (has (h_flag (w_hdr w)) FLAG_SEL_REF) eqn:HR.
    + (* reference *)
      destruct E12 as (SH & m & t & rt & es' & u' & R1 & R2 & R3 & R4 & R5 & R6 & R7).
      destruct (Hctx m t rt R1) as (C1 & ct & C2 & C3).
      set (fr := has (h_flag (w_hdr w)) FLAG_REC) in *.
      set (c := mkcent (h_did (w_hdr w)) (if fr then recnum_of (a_sels (snd p)) else -1)
                  (h_foff (w_hdr w)) (h_fsize (w_hdr w)) 0 (CRef (own_blocks ct))).
      assert (Hb' : buf = (pre ++ enc_hdr (w_hdr w)) ++ w_body w ++ (flat_map wreq_bytes ws ++ post)).
      { rewrite Hbuf. unfold wreq_bytes. rewrite <- !app_assoc. reflexivity. }
      assert (Hp' : base + off + Z.of_nat HDR = Zlen (pre ++ enc_hdr (w_hdr w))).
      { rewrite Zlen_app, Hpre. unfold Zlen. rewrite enc_hdr_length. reflexivity. }
      assert (Hnt : fr = true -> (0 < nd)%nat /\ rec_blocks (a_sels (snd p)) /\
                    cwords true (a_sels (snd p)) = cwords true (a_sels t)).
      { intros F. rewrite F in R7. destruct R7 as [R7 R8].
        assert (Hnd : (0 < nd)%nat).
        { destruct (a_sels (snd p)) as [|b s] eqn:Es; [cbn in E10; lia|].
          destruct (a_sels t) as [|bt st]; [discriminate R8|]. cbn [map] in R8.
          assert (Eb : b = re_record (recnum_of (b :: s)) bt) by congruence.
          pose proof (Forall_inv E11) as (L & _). rewrite Eb in L. cbn in L.
          destruct (b_start bt); cbn in L; lia. }
        split; auto.
        assert (Hlt' : Forall (fun b => (0 < length (b_start b))%nat /\ (0 < length (b_count b))%nat) (a_sels (snd p))).
        { clear - E11 Hnd. revert E11. apply Forall_impl. intros b (L1 & L2 & _). lia. }
        assert (Hlt2 : Forall (fun b => hd 0 (b_count b) = 1 /\ hd 0 (b_start b) = recnum_of (a_sels (snd p))) (a_sels (snd p))).
        { remember (recnum_of (a_sels (snd p))) as rn. rewrite R8, Forall_map.
          rewrite R8, Forall_map in Hlt'. revert Hlt'. apply Forall_impl. intros b.
          unfold re_record. cbn. destruct (b_start b), (b_count b); cbn; intros [? ?]; auto; lia. }
        split; auto.
        (* the target has the same tails *)
        clear - R8 Hlt'. remember (recnum_of (a_sels (snd p))) as rn. clear Heqrn.
        rewrite R8. unfold cwords. rewrite flat_map_concat_map, map_map, <- flat_map_concat_map.
        apply flat_map_ext. intros b. unfold re_record. cbn [b_start b_count recd].
        destruct (b_start b), (b_count b); reflexivity. }
      assert (Hrec : (if fr then or_ub (rd_i64 buf (base + off + Z.of_nat HDR)) else Ok (-1))
              = Ok (if fr then recnum_of (a_sels (snd p)) else -1)).
      { destruct fr eqn:FR; [|reflexivity].
        erewrite rd_i64_at; [reflexivity| |exact Hp'|].
        - rewrite Hb', R6, <- !app_assoc. reflexivity.
        - destruct (Hnt eq_refl) as [Hnd _].
          pose proof (recnum_word _ _ (proj1 E10) Hnd E11) as W. unfold word in W. lia. }
      assert (Hroff : rd_i64 buf (if fr then base + off + Z.of_nat HDR + 8
                                  else base + off + Z.of_nat HDR) = Some (m - w_metaoff w)).
      { eapply rd_i64_at with (pre := (pre ++ enc_hdr (w_hdr w)) ++
             (if fr then le 8 (recnum_of (a_sels (snd p))) else []))
             (post := flat_map wreq_bytes ws ++ post).
        - rewrite Hb', R6, <- !app_assoc. reflexivity.
        - rewrite Zlen_app, <- Hp'. destruct fr; unfold Zlen; rewrite ?le_length; cbn [length]; lia.
        - lia. }
      edestruct IH with (buf := buf) (off := off + h_size (w_hdr w)) (ctx := ctx_add off w (snd p) ctx) (base := base)
        (pre := pre ++ wreq_bytes w) (bc := bc) (ps := ps) (post := post) as (es2 & bc' & F & HP3); eauto.
      { rewrite Hbuf, <- app_assoc. reflexivity. }
      { rewrite Zlen_app, Hlen. lia. }
      { unfold ctx_add. rewrite HR. intros m' t' rt' Hin. destruct (Hctx m' t' rt' Hin) as (D1 & D2).
        split; [unfold hdr_ok in HH; lia|]. auto. }
      exists (c :: es2), bc'. split.
      { constructor; auto. unfold cent_rep. subst c. cbn [ce_did ce_foff ce_rec own_blocks ce_blocks].
        split; auto. destruct HP1 as (HP1 & _). split; auto. rewrite HN. split; auto.
        exists fr. rewrite C3. destruct fr.
        - destruct (Hnt eq_refl) as (Hnd & RB & CW). destruct R7 as [-> R8].
          rewrite CW. split.
          { f_equal. f_equal. rewrite R8. unfold Zlen. rewrite map_length. reflexivity. }
          split; auto. pose proof (recnum_word _ _ (proj1 E10) Hnd E11) as W. unfold word in W.
          split; [lia|]. rewrite HU. auto.
        - destruct R7 as [R7 R8]. rewrite (R8 eq_refl), R7. auto. }
      intros fuel. cbn [length Nat.add parse_compact]. rewrite Hlt, Hrd. cbn [or_ub bind].
      rewrite E1, I1. cbn [or_ub bind]. rewrite SH, HR. cbn [andb]. fold fr. rewrite Hrec. cbn [bind].
      rewrite Hroff. cbn [or_ub bind]. rewrite Q1.
      replace (base + off + (m - off)) with (base + m) by lia. rewrite C2.
      rewrite <- E1. fold c.
      rewrite <- Z.add_assoc, HP3.
      replace (base + off + Zsum (map (fun w0 => h_size (w_hdr w0)) (w :: ws))) with
        (base + (off + h_size (w_hdr w)) + Zsum (map (fun w0 => h_size (w_hdr w0)) ws))
        by (cbn [map Zsum fold_right]; unfold Zsum; lia).
      destruct (parse_compact fuel z cfg infos buf _ bc'); reflexivity.
    + (* own selection *)
      edestruct eplain_decode with (z := z) (buf := buf) as (e & D1 & D2 & D3 & D4); eauto.
      destruct (compact_of_rep (geom infos) e p nd es u) as [K1 K2]; auto.
      { rewrite D2. auto. } { rewrite D2. apply HP1. } { lia. } { rewrite D2. auto. }
      edestruct IH with (buf := buf) (off := off + h_size (w_hdr w)) (ctx := ctx_add off w (snd p) ctx) (base := base)
        (pre := pre ++ wreq_bytes w) (bc := (base + off, compact_of e) :: bc) (ps := ps) (post := post) as (es2 & bc' & F & HP3); eauto.
      { rewrite Hbuf, <- app_assoc. reflexivity. }
      { rewrite Zlen_app, Hlen. lia. }
      { unfold ctx_add. rewrite HR. intros m' t' rt' [Hin|Hin].
        - injection Hin as <- <- <-. split; [unfold hdr_ok in HH; lia|].
          exists (compact_of e). rewrite cache_get_cons_eq. split; auto. rewrite K2, D2. reflexivity.
        - destruct (Hctx m' t' rt' Hin) as (B1 & B2).
          split; [unfold hdr_ok in HH; lia|].
          rewrite cache_get_cons_ne by lia. auto. }
      exists (compact_of e :: es2), bc'. split; [constructor; auto|].
      intros fuel. cbn [length Nat.add parse_compact]. rewrite Hlt, Hrd. cbn [or_ub bind].
      rewrite E1, I1. cbn [or_ub bind]. rewrite HR, andb_false_r. rewrite <- Hpre, D1, Hpre. cbn [bind].
      rewrite <- Z.add_assoc, HP3.
      replace (base + off + Zsum (map (fun w0 => h_size (w_hdr w0)) (w :: ws))) with
        (base + (off + h_size (w_hdr w)) + Zsum (map (fun w0 => h_size (w_hdr w0)) ws))
        by (cbn [map Zsum fold_right]; unfold Zsum; lia).
      destruct (parse_compact fuel z cfg infos buf _ bc'); reflexivity.
Qed.

(** ** A block made of sections *)
Definition sec_ok (k : kind) (cfg : Z) (G : Z -> option (nat * Z * bool)) (s : list wreq * list pwr) : Prop :=
  qrep k cfg G 0 [] (fst s) (map snd (snd s)) /\ Forall2 placed (fst s) (snd s).
Definition sec_bytes (s : list wreq * list pwr) : list Z := flat_map wreq_bytes (fst s).

Lemma qrep_bytes_len : forall k cfg G ws l off ctx, qrep k cfg G off ctx ws l ->
  Zlen (flat_map wreq_bytes ws) = Zsum (map (fun w => h_size (w_hdr w)) ws) /\
  Zlen ws <= Zlen (flat_map wreq_bytes ws).
Proof.
  induction ws; destruct l; cbn [qrep]; intros off ctx H; try tauto; [cbn; lia|].
  destruct H as (H1 & H2 & H3). destruct (IHws _ _ _ H3) as [I1 I2].
  cbn [flat_map map Zsum fold_right]. rewrite Zlen_app, (wreq_bytes_len _ _ _ _ _ _ H2), I1.
  unfold Zsum. split; [lia|]. rewrite Zlen_cons. destruct H2 as (_ & _ & _ & _ & H2 & _).
  change (Z.of_nat HDR) with 28 in H2. unfold Zlen, Zsum in *. lia.
Qed.

Definition kind_of (i : index) : kind := match i with IArray _ => KArray | ICompact _ => KCompact end.

Lemma parse_array_sections : forall z cfg infos secs buf pre bc fuel,
  Forall (sec_ok KArray cfg (geom infos)) secs ->
  buf = pre ++ flat_map sec_bytes secs ->
  (length (flat_map sec_bytes secs) < fuel)%nat ->
  exists es, Forall2 (ment_rep (geom infos)) es (flat_map snd secs) /\
    parse_array fuel z cfg infos buf (Zlen pre) bc = Ok es.
Proof.
  intros z cfg infos. induction secs as [|s secs IH]; intros buf pre bc fuel HF Hbuf Hfuel.
  - exists []. split; [constructor|]. cbn [flat_map] in Hbuf. rewrite app_nil_r in Hbuf. subst buf.
    destruct fuel; [lia|]. cbn [parse_array]. rewrite Z.leb_refl. reflexivity.
  - pose proof (Forall_inv HF) as [S1 S2]. cbn [flat_map] in *. change (sec_bytes s) with (flat_map wreq_bytes (fst s)) in Hbuf, Hfuel.
    destruct (qrep_bytes_len _ _ _ _ _ _ _ S1) as [L1 L2].
    destruct (parse_array_section z cfg infos (fst s) (snd s) 0 [] (Zlen pre) buf pre
      (flat_map sec_bytes secs) bc S1 S2 Hbuf ltac:(lia) ltac:(intros ? ? ? [])) as (es & bc' & F & HP).
    rewrite app_length in Hfuel.
    destruct (IH buf (pre ++ flat_map wreq_bytes (fst s)) bc' (fuel - length (fst s))%nat) as (es2 & F2 & HP2).
    { eapply Forall_inv_tail; eauto. }
    { rewrite Hbuf, <- app_assoc. reflexivity. }
    { unfold Zlen in L2. lia. }
    exists (es ++ es2). split; [apply Forall2_app; auto|].
    replace fuel with (length (fst s) + (fuel - length (fst s)))%nat by (unfold Zlen in L2; lia).
    rewrite Z.add_0_r in HP. rewrite HP. rewrite <- L1, <- Zlen_app, HP2. reflexivity.
Qed.

Lemma parse_compact_sections : forall z cfg infos secs buf pre bc fuel,
  Forall (sec_ok KCompact cfg (geom infos)) secs ->
  buf = pre ++ flat_map sec_bytes secs ->
  (length (flat_map sec_bytes secs) < fuel)%nat ->
  exists es, Forall2 (cent_rep (geom infos)) es (flat_map snd secs) /\
    parse_compact fuel z cfg infos buf (Zlen pre) bc = Ok es.
Proof.
  intros z cfg infos. induction secs as [|s secs IH]; intros buf pre bc fuel HF Hbuf Hfuel.
  - exists []. split; [constructor|]. cbn [flat_map] in Hbuf. rewrite app_nil_r in Hbuf. subst buf.
    destruct fuel; [lia|]. cbn [parse_compact]. rewrite Z.leb_refl. reflexivity.
  - pose proof (Forall_inv HF) as [S1 S2]. cbn [flat_map] in *. change (sec_bytes s) with (flat_map wreq_bytes (fst s)) in Hbuf, Hfuel.
    destruct (qrep_bytes_len _ _ _ _ _ _ _ S1) as [L1 L2].
    destruct (parse_compact_section z cfg infos (fst s) (snd s) 0 [] (Zlen pre) buf pre
      (flat_map sec_bytes secs) bc S1 S2 Hbuf ltac:(lia) ltac:(intros ? ? ? [])) as (es & bc' & F & HP).
    rewrite app_length in Hfuel.
    destruct (IH buf (pre ++ flat_map wreq_bytes (fst s)) bc' (fuel - length (fst s))%nat) as (es2 & F2 & HP2).
    { eapply Forall_inv_tail; eauto. }
    { rewrite Hbuf, <- app_assoc. reflexivity. }
    { unfold Zlen in L2. lia. }
    exists (es ++ es2). split; [apply Forall2_app; auto|].
    replace fuel with (length (fst s) + (fuel - length (fst s)))%nat by (unfold Zlen in L2; lia).
    rewrite Z.add_0_r in HP. rewrite HP. rewrite <- L1, <- Zlen_app, HP2. reflexivity.
Qed.

(** Parsing adds exactly the writes of the block. *)
Lemma idx_parse_ok : forall z cfg infos i l secs,
  idx_rep (geom infos) i l -> Forall (sec_ok (kind_of i) cfg (geom infos)) secs ->
  exists i', idx_parse z cfg infos i (flat_map sec_bytes secs) = Ok i' /\
    kind_of i' = kind_of i /\ idx_rep (geom infos) i' (l ++ flat_map snd secs).
Proof.
  intros z cfg infos i l secs HR HF. destruct i as [es|cs]; cbn [kind_of] in HF; cbn [idx_parse].
  - destruct (parse_array_sections z cfg infos secs (flat_map sec_bytes secs) [] []
      (S (length (flat_map sec_bytes secs)))) as (es2 & F & HP); auto.
    change (Zlen (@nil Z)) with 0 in HP. rewrite HP. cbn [bind]. eexists. split; [reflexivity|].
    split; [reflexivity|]. cbn. apply Forall2_app; auto.
  - destruct (parse_compact_sections z cfg infos secs (flat_map sec_bytes secs) [] []
      (S (length (flat_map sec_bytes secs)))) as (es2 & F & HP); auto.
    change (Zlen (@nil Z)) with 0 in HP. rewrite HP. cbn [bind]. eexists. split; [reflexivity|].
    split; [reflexivity|]. cbn. apply Forall2_app; auto.
Qed.
