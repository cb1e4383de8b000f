(** Several read requests served together. *)
From Verif Require Import Base BaseProofs Spec MetaModel QueueModel FlushModel IndexModel ReadModel SysModel
  SysSpec PendModel PendSpec GeomProofs MetaProofs QueueProofs IndexProofs SearchProofs ReadProofs HitProofs MdProofs
  StoreProofs FlushProofs ReadOneProofs SysProofs.
From Coq Require Import ZifyNat ZifyN Permutation.

(** ** Initialisation of all buffers *)
Lemma fill_req_at : forall infos d r m a, info_at infos (rq_did r) = Some (Some d) -> 0 < rq_esize r ->
  rq_esize r = di_esize d -> fill_ok d -> 0 <= sel_size (rq_sels r) ->
  fill_req infos m r a =
  match di_fill d with
  | Some f => if (rq_xbuf r <=? a) && (a <? rq_xbuf r + rq_esize r * sel_size (rq_sels r))
              then nth (Z.to_nat ((a - rq_xbuf r) mod rq_esize r)) f 0 else m a
  | None => m a
  end.
Proof.
  intros infos d r m a H He Hd Hf Hs. unfold fill_req. rewrite H. unfold fill_ok in Hf. destruct (di_fill d) as [f|]; auto.
  replace (sel_size (rq_sels r)) with (Z.of_nat (Z.to_nat (sel_size (rq_sels r)))) by lia.
  rewrite fill_loop by congruence. reflexivity.
Qed.

Definition fillable (infos : list (option dinfo)) (x : xreq) : Prop :=
  info_at infos (rq_did (snd x)) = Some (Some (fst x)) /\ 0 < rq_esize (snd x) /\
  rq_esize (snd x) = di_esize (fst x) /\ fill_ok (fst x) /\ 0 <= sel_size (rq_sels (snd x)).
Definition outside (x : xreq) (a : Z) : Prop := a < rq_xbuf (snd x) \/ rq_xbuf (snd x) + xbytes x <= a.

Lemma fold_fill_out : forall infos xs m a, Forall (fillable infos) xs -> Forall (fun x => outside x a) xs ->
  fold_left (fill_req infos) (map snd xs) m a = m a.
Proof.
  intros infos. induction xs as [|x xs IH]; intros m a HF HO; [reflexivity|]. cbn [map fold_left].
  inversion HF as [|? ? (F1 & F2 & F3 & F4 & F5) F6]; inversion HO as [|? ? O1 O2]; subst. rewrite IH by auto.
  rewrite (fill_req_at _ (fst x)) by auto. unfold outside, xbytes in O1. rewrite <- F3 in O1. destruct (di_fill (fst x)); auto.
  destruct (Z.leb_spec (rq_xbuf (snd x)) a); destruct (Z.ltb_spec a (rq_xbuf (snd x) + rq_esize (snd x) * sel_size (rq_sels (snd x)))); cbn [andb]; auto. lia.
Qed.

Lemma fold_fill_in : forall infos l1 x l2 m a, Forall (fillable infos) (l1 ++ x :: l2) ->
  Forall (fun x => outside x a) l1 -> Forall (fun x => outside x a) l2 ->
  fold_left (fill_req infos) (map snd (l1 ++ x :: l2)) m a = fill_req infos m (snd x) a.
Proof.
  intros infos l1 x l2 m a HF H1 H2. apply Forall_app in HF. destruct HF as [F1 F2]. inversion F2 as [|? ? (G1 & G2 & G3 & G4 & G5) F3]; subst.
  rewrite map_app, fold_left_app. cbn [map fold_left]. rewrite fold_fill_out by auto.
  rewrite !(fill_req_at _ (fst x)) by auto. rewrite fold_fill_out by auto. reflexivity.
Qed.

(** ** The pieces delivered to one request *)
Section Serve.
Context (e : env) (g : gfile) (C : list pwr) (ms : list (list (list wreq * list pwr)))
        (sets : list dinfo).
Let infos := g_infos g.
Let G := geom infos.
Context (Hsort : is_sort (e_sort e)).
Context (HC : clog G C).
Context (HP : Permutation C (flat_map (flat_map snd) ms)).
Context (HM : g_mdsets g = map md_bytes ms) (HMo : Forall md_ok ms)
        (HMs : Forall (Forall (sec_ok (e_kind e) (g_cfg g) G)) ms).
Context (HF : Forall (fun p => get (g_file g) (fst p) (length (a_data (snd p))) = a_data (snd p)) C).
Context (HE : forall p, In p C -> esize_in sets (a_did (snd p)) = esize_of G (a_did (snd p))).
Context (HU : e_kind e = KCompact ->
  Forall (fun p => unlim_of G (a_did (snd p)) = true -> recnum_of (a_sels (snd p)) < 2 ^ 31) C).

Definition call_ok (d : dinfo) (c : rcall) : Prop :=
  0 <= rc_did c /\ nth_error infos (Z.to_nat (rc_did c)) = Some (Some d) /\
  0 < di_esize d /\ fill_ok d /\ rc_sels c <> [] /\
  Forall (blk_fits (di_ndim d)) (rc_sels c) /\
  Forall (fun b => last (b_count b) 1 * di_esize d < 2 ^ 31) (rc_sels c) /\
  ForallOrdPairs disjoint_blocks (rc_sels c) /\
  (e_kind e = KCompact -> unlim d = true -> Forall (fun b => hd 0 (b_start b) < 2 ^ 31) (rc_sels c)).

Definition xq (p : dinfo * rcall) : xreq :=
  (fst p, mkrreq (rc_did (snd p)) (rc_sels (snd p)) (rc_buf (snd p)) (di_esize (fst p))).

Lemma call_geom : forall d c, call_ok d c -> G (rc_did c) = Some (di_ndim d, di_esize d, unlim d).
Proof. intros d c (H1 & H2 & _). unfold G, geom. rewrite H2. reflexivity. Qed.
Lemma call_small : forall d c, call_ok d c -> small_sels (di_ndim d) (rc_sels c).
Proof. intros d c (_ & _ & _ & _ & _ & H & _). revert H. apply Forall_impl. intros b (B1 & B2 & B3 & B4). unfold blk_small. auto. Qed.
Lemma call_info : forall d c, call_ok d c -> info_at infos (rc_did c) = Some (Some d).
Proof. intros d c (H1 & H2 & _). unfold info_at. destruct (Z.ltb_spec (rc_did c) 0); [lia|]. exact H2. Qed.

Lemma deliver_req : forall xs u mem1 d c,
  xs_ok G xs -> Permutation (map core u) (asearch_all (flat_map (flat_map snd) ms) xs) ->
  call_ok d c -> In (xq (d, c)) xs ->
  (forall j i, 0 <= j < sel_size (rc_sels c) -> 0 <= i < di_esize d ->
     mem1 (rc_buf c + di_esize d * j + i) = nth (Z.to_nat i) (xdflt d c j) 0) ->
  get (perform_read (e_sort e) (g_file g) mem1 u) (rc_buf c) (Z.to_nat (di_esize d * sel_size (rc_sels c))) =
  concat (spec_read (store_of sets (map snd C)) (rc_did c) (rc_sels c) (map (xdflt d c) (zseq (sel_size (rc_sels c))))).
Proof.
  intros xs u mem1 d c HXS U2 HK Hin Hmem.
  pose proof (call_small d c HK) as Hsmall. pose proof (call_geom d c HK) as HG.
  assert (Hes : 0 < di_esize d) by (destruct HK as (_ & _ & H & _); exact H).
  assert (Hfill : fill_ok d) by (destruct HK as (_ & _ & _ & H & _); exact H).
  assert (HLog : log_ok G (flat_map (flat_map snd) ms)) by (eapply clog_log; eauto).
  pose proof (sel_size_nonneg _ _ Hsmall) as Hsz. pose proof (sel_coords_length _ _ Hsmall) as HSL.
  set (mem2 := perform_read (e_sort e) (g_file g) mem1 u).
  rewrite Z2Nat.inj_mul by lia.
  rewrite get_elems by lia. rewrite !Z2Nat.id by lia. f_equal.
  apply nth_error_ext. intros j. unfold spec_read. rewrite !nth_error_map.
  destruct (nth_error (sel_coords (rc_sels c)) j) as [cc|] eqn:Ej.
  - assert (Hj : (j < Z.to_nat (sel_size (rc_sels c)))%nat).
    { assert (j < length (sel_coords (rc_sels c)))%nat by (apply nth_error_Some; congruence). lia. }
    rewrite zseq_nth_error by auto. cbn [option_map].
    rewrite (proj2 (nth_error_combine _ _ j _ _ cc (xdflt d c (Z.of_nat j)))).
    2:{ split; auto. rewrite nth_error_map, zseq_nth_error by auto. reflexivity. }
    cbn [option_map fst snd]. f_equal.
    assert (HD : forall i, 0 <= i < di_esize d -> _) by
      (intros i Hi; exact (read_delivers G _ xs u (e_sort e) (g_file g) mem1 (xq (d, c)) j cc i HLog HXS U2 Hsort Hin Ej Hi)).
    cbn [xq fst snd rq_did rq_sels rq_xbuf] in HD. fold mem2 in HD.
    pose proof (store_spec G sets C (rc_did c) cc HC HE) as HS.
    assert (Hesz : esize_of G (rc_did c) = di_esize d) by (unfold esize_of; rewrite HG; reflexivity). rewrite Hesz in HS.
    destruct (store_of sets (map snd C) (rc_did c) cc) as [v|].
    + destruct HS as (p & k & S1 & S2 & S3 & S4 & ->).
      pose proof (proj1 (Forall_forall _ _) (cl_small _ _ HC) p S1) as W.
      pose proof (proj1 (Forall_forall _ _) (cl_len _ _ HC) p S1) as Wl. cbn beta in Wl. unfold wbytes in Wl. rewrite S2, Hesz in Wl.
      pose proof (elem_at_lt _ _ _ _ W S3) as Hk.
      pose proof (proj1 (Forall_forall _ _) HF p S1) as Hfile. cbn beta in Hfile.
      apply nth_ext with (d := 0) (d' := 0).
      { rewrite get_length, firstn_length, skipn_length. unfold Zlen in Wl. nia. }
      intros i Hi. rewrite get_length in Hi. rewrite nth_get by auto.
      destruct (HD (Z.of_nat i) ltac:(lia)) as [_ D]. rewrite (D p k); auto.
      * assert (Hnth : forall q n l, (q < n)%nat -> nth q (firstn n l) 0 = nth q l 0).
        { clear. intros q n l. revert q l. induction n; intros q l H; [lia|]. destruct l; [destruct q; reflexivity|].
          destruct q; cbn; auto. apply IHn. lia. }
        assert (Hnth2 : forall n q (l : list Z), nth q (skipn n l) 0 = nth (n + q) l 0).
        { clear. induction n; intros q l; [reflexivity|]. destruct l; [destruct q; reflexivity|]. cbn [skipn Nat.add nth]. apply IHn. }
        rewrite Hnth by lia. rewrite Hnth2. rewrite <- Hfile. rewrite nth_get by (unfold Zlen in Wl; nia).
        f_equal. nia.
      * eapply Permutation_in; [exact HP|exact S1].
      * intros p' k' H1 H2 H3. apply S4; auto. eapply Permutation_in; [apply Permutation_sym; exact HP|exact H1].
    + apply nth_ext with (d := 0) (d' := 0).
      { rewrite get_length. unfold xdflt. unfold fill_ok, Zlen in Hfill. destruct (di_fill d); [lia|]. rewrite get_length. reflexivity. }
      intros i Hi. rewrite get_length in Hi. rewrite nth_get by auto.
      destruct (HD (Z.of_nat i) ltac:(lia)) as [D _]. rewrite D.
      * rewrite Hmem by lia. f_equal. lia.
      * intros p k H1 H2. apply HS; auto. eapply Permutation_in; [apply Permutation_sym; exact HP|exact H1].
  - assert (Hj : (Z.to_nat (sel_size (rc_sels c)) <= j)%nat) by (apply nth_error_None in Ej; lia).
    assert (Hz : nth_error (zseq (sel_size (rc_sels c))) j = None) by (apply nth_error_None; rewrite zseq_length; lia).
    rewrite Hz. cbn [option_map].
    destruct (nth_error (combine _ _) j) as [[x y]|] eqn:Ec; [|reflexivity].
    apply nth_error_combine in Ec. destruct Ec; congruence.
Qed.

Lemma requests_ok : forall dcs, Forall (fun p => call_ok (fst p) (snd p)) dcs ->
  requests infos (map snd dcs) = Ok (map snd (map xq dcs)).
Proof.
  induction 1 as [|[d c] dcs H1 H2 IH]; [reflexivity|]. cbn [map requests snd]. cbn [fst snd] in H1. rewrite (call_info d c H1), IH. reflexivity.
Qed.

Definition pair_ok (x y : dinfo * rcall) : Prop :=
  (rc_buf (snd x) + di_esize (fst x) * sel_size (rc_sels (snd x)) <= rc_buf (snd y) \/
   rc_buf (snd y) + di_esize (fst y) * sel_size (rc_sels (snd y)) <= rc_buf (snd x)) /\
  no_common_element (snd x) (snd y).

Lemma xs_ok_calls : forall dcs, Forall (fun p => call_ok (fst p) (snd p)) dcs -> ForallOrdPairs pair_ok dcs -> xs_ok G (map xq dcs).
Proof.
  intros dcs HK HO. constructor.
  - rewrite Forall_map. revert HK. apply Forall_impl. intros [d c] H. cbn [xq fst snd] in *. pose proof (call_small d c H) as S. destruct H as (_ & _ & H1 & _ & _ & _ & H2 & _).
    unfold rsmall. cbn [rq_sels]. split; auto. unfold small_sels in S. rewrite Forall_forall in *. auto.
  - rewrite Forall_map. revert HK. apply Forall_impl. intros [d c] H. cbn [xq fst snd rq_did] in *. unfold ndim_of, esize_of. rewrite (call_geom d c H). auto.
  - rewrite Forall_map. revert HK. apply Forall_impl. intros [d c] H. cbn [xq fst snd rq_sels] in *. destruct H as (_ & _ & _ & _ & _ & _ & _ & H & _). exact H.
  - apply FOP_map. revert HO. apply FOP_impl_In. intros [d c] [d' c'] _ _ [P1 P2]. unfold xbytes. cbn [xq fst snd rq_xbuf rq_sels rq_did] in *. split; auto.
    intros Ed a b Ha Hb z Z1 Z2. apply (P2 Ed z); unfold sel_coords; apply in_flat_map; [exists a|exists b]; split; auto; apply In_coords_of; auto.
    + apply inside_length in Z1. lia.
    + apply inside_length in Z2. lia.
Qed.

Lemma serve_ok : forall cached mem dcs,
  (forall i, cached = Some i -> kind_of i = e_kind e /\ idx_rep G i (flat_map (flat_map snd) ms)) ->
  (e_limit e <> None -> C <> []) ->
  Forall (fun p => call_ok (fst p) (snd p)) dcs -> ForallOrdPairs pair_ok dcs ->
  exists c' mem', serve e g cached mem (map snd dcs) = Ok (mem', c') /\
    (forall d c, In (d, c) dcs ->
      get mem' (rc_buf c) (Z.to_nat (di_esize d * sel_size (rc_sels c))) =
      concat (spec_read (store_of sets (map snd C)) (rc_did c) (rc_sels c)
                        (map (xdflt d (with_mem mem c)) (zseq (sel_size (rc_sels c)))))) /\
    (forall a, (forall d c, In (d, c) dcs -> a < rc_buf c \/ rc_buf c + di_esize d * sel_size (rc_sels c) <= a) -> mem' a = mem a) /\
    (forall i, c' = Some i -> kind_of i = e_kind e /\ idx_rep G i (flat_map (flat_map snd) ms)).
Proof.
  intros cached mem dcs Hc Hlim HK HO. set (xs := map xq dcs).
  assert (HX : Forall (xreq_ok infos (e_kind e) (flat_map (flat_map snd) ms)) xs).
  { unfold xs. rewrite Forall_map. revert HK. apply Forall_impl. intros [d c] H. pose proof (call_geom d c H) as HG. cbn [fst snd] in H.
    destruct H as (K1 & K2 & K3 & K4 & K5 & Hblk & K7 & K8 & Hsm).
    unfold xreq_ok. cbn [xq fst snd rq_did rq_sels]. split; [auto|]. split; [auto|]. split.
    - revert Hblk. apply Forall_impl. intros b (B1 & B2 & _). auto.
    - intros Hk. split.
      + eapply Permutation_Forall; [exact HP|]. apply HU. auto.
      + cbn [rq_did rq_sels]. fold G. unfold unlim_of. rewrite HG. intros Hu. specialize (Hsm Hk Hu).
        rewrite Forall_forall in *. intros b Hb. specialize (Hsm b Hb). specialize (Hblk b Hb).
        destruct Hblk as (B1 & B2 & B3 & B4). unfold small_first.
        assert (0 <= hd 0 (b_start b)) by (destruct (b_start b); cbn; [lia|inversion B3; lia]).
        assert (0 <= hd 0 (b_count b) < 2 ^ 31) by (destruct (b_count b); cbn; [lia|inversion B4; lia]). lia. }
  assert (HL : e_limit e <> None -> ms <> []).
  { intros Hl ->. cbn in HP. apply Permutation_sym, Permutation_nil in HP. apply Hlim; auto. }
  destruct (read_search_ok (e_zlib e) (g_cfg g) infos (e_kind e) (e_limit e) ms cached xs HMo HMs HX HL Hc) as (u & c' & U1 & U2 & U3).
  assert (HXS : xs_ok G xs) by (apply xs_ok_calls; auto).
  unfold serve. fold infos. rewrite (requests_ok dcs HK). fold xs. cbn [bind]. rewrite HM, U1. cbn [bind fst snd].
  set (mem1 := fold_left (fill_req infos) (map snd xs) mem).
  assert (HFl : Forall (fillable infos) xs).
  { unfold xs. rewrite Forall_map. revert HK. apply Forall_impl. intros [d c] H. pose proof (call_small d c H) as Hs. pose proof (call_info d c H) as Hi.
    cbn [fst snd] in H. destruct H as (K1 & K2 & K3 & K4 & K5). unfold fillable. cbn [xq fst snd rq_did rq_esize rq_sels].
    pose proof (sel_size_nonneg _ _ Hs). auto. }
  exists c', (perform_read (e_sort e) (g_file g) mem1 u). split; [reflexivity|]. split; [|split; [|exact U3]].
  - intros d c Hin.
    assert (HK1 : call_ok d c) by (rewrite Forall_forall in HK; exact (HK (d, c) Hin)).
    apply (deliver_req xs u mem1 d (with_mem mem c) HXS U2 HK1).
    + unfold xs. apply in_map_iff. exists (d, c). auto.
    + intros j i Hj Hi. cbn [with_mem rc_sels rc_buf] in *. unfold mem1.
      apply in_split in Hin. destruct Hin as (l1 & l2 & ->). unfold xs in *. rewrite map_app in *. cbn [map] in *.
      apply ForallOrdPairs_app in HO. destruct HO as (_ & O2 & O3). inversion O2 as [|? ? O4 O5]; subst.
      rewrite fold_fill_in; auto.
      * cbn [xq snd fst]. pose proof (fill_req_ok infos d (with_mem mem c) j i (call_info d c HK1)) as FR. cbn [with_mem rc_did rc_sels rc_buf rc_mem] in FR.
        destruct HK1 as (_ & _ & K3 & K4 & _). apply FR; auto.
      * rewrite Forall_map. apply Forall_forall. intros [d2 c2] H2. unfold outside, xbytes. cbn [xq fst snd rq_xbuf rq_sels].
        destruct (O3 (d2, c2) (d, c) H2 (or_introl eq_refl)) as [[P|P] _]; cbn [fst snd] in P; nia.
      * rewrite Forall_map. apply Forall_forall. intros [d2 c2] H2. unfold outside, xbytes. cbn [xq fst snd rq_xbuf rq_sels].
        rewrite Forall_forall in O4. destruct (O4 (d2, c2) H2) as [[P|P] _]; cbn [fst snd] in P; nia.
  - intros a Ha.
    assert (HKr : reads_ok u).
    { apply reads_ok_core. eapply reads_ok_perm; [apply Permutation_sym; exact U2|]. eapply reads_ok_all; eauto. eapply clog_log; eauto. }
    destruct (perform_read_ok (e_sort e) (g_file g) mem1 u a Hsort HKr) as [P1 _]. rewrite P1.
    + unfold mem1. apply fold_fill_out; auto. unfold xs. rewrite Forall_map. apply Forall_forall. intros [d c] H. unfold outside, xbytes. cbn [xq fst snd rq_xbuf rq_sels]. auto.
    + intros q Hq Ea. rewrite <- read_pairs_core in Hq. unfold read_pairs in Hq.
      eapply Permutation_in in Hq; [|apply Permutation_flat_map; exact U2]. unfold asearch_all in Hq. rewrite flat_map_flat_map in Hq.
      apply in_flat_map in Hq. destruct Hq as (x & Hx & Hq). destruct q as [f a']. cbn [snd] in Ea. subst a'.
      rewrite (pairs_spec G _ xs (clog_log _ _ _ HC HP) HXS x f a Hx) in Hq.
      destruct Hq as (p & k & j & cc & i & Q1 & Q2 & Q3 & Q4 & Q5 & Q6 & Q7).
      unfold xs in Hx. apply in_map_iff in Hx. destruct Hx as ([d c] & <- & Hin). cbn [xq fst snd rq_xbuf rq_sels] in *.
      assert (HK1 : call_ok d c) by (rewrite Forall_forall in HK; exact (HK (d, c) Hin)).
      pose proof (sel_coords_length _ _ (call_small d c HK1)). assert (j < length (sel_coords (rc_sels c)))%nat by (apply nth_error_Some; congruence).
      destruct (Ha d c Hin); nia.
Qed.
End Serve.
