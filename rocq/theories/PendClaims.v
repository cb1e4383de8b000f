(** Pending reads served together in any state a legal history reaches. *)
From Verif Require Import Base BaseProofs Spec MetaModel QueueModel FlushModel IndexModel ReadModel SysModel
  SysSpec PendModel PendSpec GeomProofs MetaProofs QueueProofs IndexProofs SearchProofs ReadProofs HitProofs MdProofs
  StoreProofs FlushProofs ReadOneProofs SysProofs PendProofs.
From Coq Require Import ZifyNat ZifyN Permutation.

(** The state in which the requests are served. *)
Lemma read_ready : forall e cfg cv s sp h n C ms grs doff calls, inv e cfg cv s sp h n C ms grs ->
  e_coll e = true -> ok_read e sp h doff calls -> n <= 2 ^ 30 ->
  let g1 := if any_pending (s_g s) then flush_writes doff (s_g s) else s_g s in
  let g2 := if g_metadirty g1 then metaflush g1 else g1 in
  let idx := if g_metadirty g1 then None else s_idx s in
  exists h1 C1 ms2 grs2, inv e cfg cv (mksys g2 idx) (sflush sp) h1 n C1 ms2 grs2 /\
    flat_map gr_fl grs2 = [] /\ (e_limit e <> None -> C1 <> []) /\ Forall (ok_call e (sflush sp)) calls.
Proof.
  intros e cfg cv s sp h n C ms grs doff calls I Hcoll (K1 & K2 & _ & K3) Hn g1 g2 idx. rewrite Hcoll in K1.
  pose proof (inv_pend _ _ _ _ _ _ _ _ _ _ I) as (P1 & P2 & P3).
  destruct (inv_flush _ _ _ _ _ _ _ _ _ _ doff I K1) as (C1 & grs1 & I1 & A1).
  fold g1 in I1.
  destruct (inv_metaflush _ _ _ _ _ _ _ _ _ _ I1 A1 Hn) as (ms2 & grs2 & I2 & A2 & F2). cbn [s_g s_idx] in I2.
  fold g2 in I2. fold idx in I2.
  exists (hflush sp h doff), C1, ms2, grs2. split; [exact I2|]. split; [exact F2|]. split.
  - intros Hl. apply (v_hi1 _ _ _ _ _ _ _ _ _ _ I1). destruct (K2 Hl) as [Hh|Hp].
    + unfold hflush. destruct (Z.eqb_spec (pend_bytes sp) 0); auto. cbn [hs_hi].
      unfold ok_flush in K1. pose proof (v_hi0 _ _ _ _ _ _ _ _ _ _ I). pose proof (abytes_nonneg (all_pd grs)). lia.
    + unfold hflush. rewrite P1. rewrite P2 in Hp.
      assert (Hne : all_pd grs <> []) by (intros Q; rewrite Q in Hp; apply Hp; reflexivity).
      pose proof (abytes_pos _ _ _ (v_pok _ _ _ _ _ _ _ _ _ _ I) Hne). destruct (Z.eqb_spec (abytes (all_pd grs)) 0); [lia|]. cbn [hs_hi].
      unfold ok_flush in K1. rewrite P1 in K1. pose proof (v_hi0 _ _ _ _ _ _ _ _ _ _ I). lia.
  - eapply Forall_impl; [|exact K3]. intros c (Hne & d & Q). split; auto. exists d. exact Q.
Qed.

Lemma run_before : forall e cfg cv o ops s sp h n C ms grs, inv e cfg cv s sp h n C ms grs ->
  is_sort (e_sort e) -> ok_run e cfg cv sp h (ops ++ [o]) -> n + Z.of_nat (length ops) < 2 ^ 30 ->
  exists s' sp' h' n' C' ms' grs' outs, run e s ops = Ok (s', outs) /\
    inv e cfg cv s' sp' h' n' C' ms' grs' /\ n' < 2 ^ 30 /\ ok_op e cfg cv sp' h' o.
Proof.
  intros e cfg cv o ops. induction ops as [|o1 ops IH]; intros s sp h n C ms grs I Hsort Hok Hn.
  - destruct Hok as [H1 _]. exists s, sp, h, n, C, ms, grs, []. cbn [run length] in *. split; [reflexivity|]. split; [exact I|]. split; [lia|exact H1].
  - destruct Hok as [H1 H2]. cbn [length] in Hn.
    destruct (step_ok _ _ _ _ _ _ _ _ _ _ o1 I Hsort H1 ltac:(lia)) as (s1 & C1 & ms1 & grs1 & S1 & S2).
    destruct (IH _ _ _ _ _ _ _ S2 Hsort H2 ltac:(lia)) as (s' & sp' & h' & n' & C' & ms' & grs' & outs & R1 & R2 & R3 & R4).
    exists s', sp', h', n', C', ms', grs', (snd (sstep (e_coll e) sp o1) :: outs). cbn [run]. rewrite S1. cbn [bind fst snd]. rewrite R1. cbn [bind fst snd].
    auto.
Qed.

(** What [ok_call] gives for [serve]. *)
Lemma ok_call_call : forall e cfg cv s sp h n C ms grs c, inv e cfg cv s sp h n C ms grs -> ok_call e sp c ->
  exists d, call_ok e (s_g s) d c /\
    (forall mem, sread sp (with_mem mem c) =
     concat (spec_read (store_of (ss_sets sp) (map snd C)) (rc_did c) (rc_sels c)
                       (map (xdflt d (with_mem mem c)) (zseq (sel_size (rc_sels c)))))) /\
    (forall mem, Zlen (sread sp (with_mem mem c)) = di_esize d * sel_size (rc_sels c)).
Proof.
  intros e cfg cv s sp h n C ms grs c I (Hne & d & W1 & W2 & W3 & W4 & W5).
  destruct (set_of_info _ _ _ _ _ _ _ _ _ _ _ _ I W1) as (D0 & D1 & d' & D2 & D3 & D4 & D5 & D6 & D7 & D8 & D9 & D10).
  assert (EN : di_ndim d' = di_ndim d) by (unfold di_ndim; rewrite D5; reflexivity).
  assert (HK : call_ok e (s_g s) d' c).
  { unfold call_ok. rewrite EN, D4. repeat (split; auto).
    - destruct D8. lia.
    - intros HK HU. apply W5; auto. unfold unlim in HU. unfold has_unlimited. rewrite <- D6. exact HU. }
  exists d'. split; [exact HK|].
  assert (HS : forall mem, sread sp (with_mem mem c) =
     concat (spec_read (store_of (ss_sets sp) (map snd C)) (rc_did c) (rc_sels c)
                       (map (xdflt d' (with_mem mem c)) (zseq (sel_size (rc_sels c)))))).
  { intros mem. unfold sread. cbn [with_mem rc_did rc_sels]. rewrite W1, (v_store _ _ _ _ _ _ _ _ _ _ I). do 2 f_equal.
    unfold read_dflt, xdflt. cbn [with_mem rc_did rc_sels rc_buf rc_mem]. rewrite D4, D7. reflexivity. }
  split; [exact HS|]. intros mem. rewrite HS.
  pose proof (clog_intro _ _ _ (v_ok _ _ _ _ _ _ _ _ _ _ I) (v_ord _ _ _ _ _ _ _ _ _ _ I)) as HC.
  pose proof (call_small e (s_g s) d' c HK) as Hsm. pose proof (sel_coords_length _ _ Hsm) as HL. pose proof (sel_size_nonneg _ _ Hsm) as Hsz.
  assert (HEin : forall p, In p C -> esize_in (ss_sets sp) (a_did (snd p)) = esize_of (geom (g_infos (s_g s))) (a_did (snd p))).
  { intros p Hp. pose proof (proj1 (Forall_forall _ _) (v_ok _ _ _ _ _ _ _ _ _ _ I) p Hp) as ((_ & W) & _). cbn [snd] in W.
    apply (esize_in_geom cfg); auto. apply I. }
  assert (HV : forall x, In x (spec_read (store_of (ss_sets sp) (map snd C)) (rc_did c) (rc_sels c) (map (xdflt d' (with_mem mem c)) (zseq (sel_size (rc_sels c))))) ->
     Zlen x = di_esize d').
  { intros x Hx. unfold spec_read in Hx. apply in_map_iff in Hx. destruct Hx as ([cc v] & <- & Hin). cbn [fst snd].
    pose proof (store_spec (geom (g_infos (s_g s))) (ss_sets sp) C (rc_did c) cc HC HEin) as SS.
    assert (Hesz : esize_of (geom (g_infos (s_g s))) (rc_did c) = di_esize d') by (unfold esize_of; rewrite (call_geom e (s_g s) d' c HK); reflexivity).
    assert (Hes : 0 < di_esize d') by (destruct HK as (_ & _ & Q & _); exact Q).
    rewrite Hesz in SS. destruct (store_of (ss_sets sp) (map snd C) (rc_did c) cc) as [w|].
    - destruct SS as (p & k & S1 & S2 & S3 & S4 & ->).
      pose proof (proj1 (Forall_forall _ _) (cl_small _ _ HC) p S1) as W.
      pose proof (proj1 (Forall_forall _ _) (cl_len _ _ HC) p S1) as Wl. cbn beta in Wl. unfold wbytes in Wl. rewrite S2, Hesz in Wl.
      pose proof (elem_at_lt _ _ _ _ W S3) as Hk. unfold Zlen in *. rewrite firstn_length, skipn_length. nia.
    - apply in_combine_r in Hin. apply in_map_iff in Hin. destruct Hin as (j & <- & _). unfold xdflt. unfold fill_ok in D9.
      destruct (di_fill d'); auto. unfold Zlen. rewrite get_length. lia. }
  assert (HN : length (spec_read (store_of (ss_sets sp) (map snd C)) (rc_did c) (rc_sels c) (map (xdflt d' (with_mem mem c)) (zseq (sel_size (rc_sels c))))) = Z.to_nat (sel_size (rc_sels c))).
  { unfold spec_read. rewrite map_length, combine_length, map_length, zseq_length. lia. }
  revert HV HN. generalize (spec_read (store_of (ss_sets sp) (map snd C)) (rc_did c) (rc_sels c) (map (xdflt d' (with_mem mem c)) (zseq (sel_size (rc_sels c))))).
  intros l HV HN. replace (sel_size (rc_sels c)) with (Z.of_nat (length l)) by lia. clear - HV.
  induction l as [|x l IH]; [cbn; lia|]. cbn [concat length]. unfold Zlen in *. rewrite app_length. pose proof (HV x (or_introl eq_refl)).
  assert (Z.of_nat (length (concat l)) = di_esize d' * Z.of_nat (length l)) by (apply IH; intros; apply HV; cbn; auto). lia.
Qed.

Lemma calls_split : forall e cfg cv s sp h n C ms grs, inv e cfg cv s sp h n C ms grs ->
  forall calls, Forall (ok_call e sp) calls ->
  exists dcs, calls = map snd dcs /\ Forall (fun p => call_ok e (s_g s) (fst p) (snd p)) dcs /\
    (forall d c mem, In (d, c) dcs -> sread sp (with_mem mem c) =
     concat (spec_read (store_of (ss_sets sp) (map snd C)) (rc_did c) (rc_sels c)
                       (map (xdflt d (with_mem mem c)) (zseq (sel_size (rc_sels c)))))) /\
    (forall d c mem, In (d, c) dcs -> Zlen (sread sp (with_mem mem c)) = di_esize d * sel_size (rc_sels c)).
Proof.
  intros e cfg cv s sp h n C ms grs I. induction calls as [|c calls IH]; intros H.
  - exists []. repeat split; auto; intros ? ? ? [].
  - inversion H as [|? ? H1 H2]; subst. destruct (IH H2) as (dcs & -> & D1 & D2 & D3).
    destruct (ok_call_call _ _ _ _ _ _ _ _ _ _ c I H1) as (d & Q1 & Q2 & Q3).
    exists ((d, c) :: dcs). split; [reflexivity|]. split; [constructor; auto|].
    split; intros d0 c0 mem [E|Hin]; auto; injection E as <- <-; auto.
Qed.

Theorem pending_reads : forall e cfg cv np f0 ops doff calls mem,
  e_coll e = true ->
  ok_history e cfg cv np (ops ++ [ORead doff (map (with_mem mem) calls)]) ->
  exists s outs s1 bufs,
    run e (init cfg np f0) ops = Ok (s, outs) /\
    step e s (ORead doff (map (with_mem mem) calls)) = Ok (s1, bufs) /\
    (ForallOrdPairs apart_in_memory (combine calls bufs) -> ForallOrdPairs no_common_element calls ->
     exists s2 mem', flush_reads e s doff mem calls = Ok (s2, mem') /\
       Forall2 (fun c buf => get mem' (rc_buf c) (length buf) = buf) calls bufs /\
       (forall a, (forall c buf, In (c, buf) (combine calls bufs) -> a < rc_buf c \/ rc_buf c + Zlen buf <= a) ->
          mem' a = mem a)).
Proof.
  intros e cfg cv np f0 ops doff calls mem Hcoll (_ & H1 & H2 & H3 & H4 & H5).
  rewrite app_length in H3. cbn [length] in H3.
  destruct (run_before e cfg cv _ ops _ _ _ _ _ _ _ (inv_init e cfg cv np f0 H1 H2) H4 H5 ltac:(lia))
    as (s & sp & h & n & C & ms & grs & outs & R1 & I & Hn & Hok).
  assert (Hok2 : ok_read e sp h doff (map (with_mem mem) calls)) by exact Hok.
  destruct (step_read _ _ _ _ _ _ _ _ _ _ doff _ I H4 Hok2 ltac:(lia)) as (s1 & _ & _ & _ & S1 & _).
  exists s, outs, s1, (snd (sstep (e_coll e) sp (ORead doff (map (with_mem mem) calls)))). split; [exact R1|]. split; [exact S1|].
  cbn [sstep snd]. rewrite Hcoll, map_map. intros HA HN.
  destruct (read_ready _ _ _ _ _ _ _ _ _ _ doff _ I Hcoll Hok2 ltac:(lia)) as (h1 & C1 & ms2 & grs2 & I2 & F2 & L2 & K2).
  set (g1 := if any_pending (s_g s) then flush_writes doff (s_g s) else s_g s) in *.
  set (g2 := if g_metadirty g1 then metaflush g1 else g1) in *.
  set (idx := if g_metadirty g1 then None else s_idx s) in *.
  assert (K3 : Forall (ok_call e (sflush sp)) calls).
  { clear - K2. rewrite Forall_map in K2. revert K2. apply Forall_impl. intros c (Q1 & d & Q2). split; auto. exists d. exact Q2. }
  destruct (calls_split _ _ _ _ _ _ _ _ _ _ I2 calls K3) as (dcs & -> & D1 & D2 & D3).
  pose proof (v_perm _ _ _ _ _ _ _ _ _ _ I2) as HP. rewrite F2, app_nil_r in HP.
  pose proof (clog_intro _ _ _ (v_ok _ _ _ _ _ _ _ _ _ _ I2) (v_ord _ _ _ _ _ _ _ _ _ _ I2)) as HC.
  assert (HO : ForallOrdPairs pair_ok dcs).
  { clear - HA HN D3. revert HA HN D3. generalize (sflush sp). intros sp'. induction dcs as [|[d c] dcs IH]; intros HA HN D3; [constructor|].
    cbn [map combine snd] in HA, HN. inversion HA as [|? ? A1 A2]; subst. inversion HN as [|? ? N1 N2]; subst. constructor.
    - apply Forall_forall. intros [d' c'] Hin. unfold pair_ok. cbn [fst snd]. rewrite Forall_forall in A1, N1. split.
      + assert (Hc : In (c', sread sp' (with_mem mem c')) (combine (map snd dcs) (map (fun x => sread sp' (with_mem mem x)) (map snd dcs)))).
        { clear - Hin. induction dcs as [|[d0 c0] dcs IH]; [destruct Hin|]. cbn [map combine snd]. destruct Hin as [E|Hin]; [injection E as <- <-; left; reflexivity|right; auto]. }
        specialize (A1 _ Hc). unfold apart_in_memory in A1. cbn [fst snd] in A1.
        rewrite <- (D3 d c mem (or_introl eq_refl)), <- (D3 d' c' mem (or_intror Hin)). exact A1.
      + apply N1. apply in_map_iff. exists (d', c'). auto.
    - apply IH; auto. intros; apply D3; cbn; auto. }
  destruct (serve_ok e g2 C1 ms2 (ss_sets (sflush sp)) H4 HC HP (v_md _ _ _ _ _ _ _ _ _ _ I2) (v_mdok _ _ _ _ _ _ _ _ _ _ I2)) with
    (cached := idx) (mem := mem) (dcs := dcs) as (c' & mem' & V1 & V2 & V3 & _); auto.
  - pose proof (v_cfg _ _ _ _ _ _ _ _ _ _ I2) as Ec. cbn [s_g] in Ec. rewrite Ec. apply I2.
  - apply I2.
  - intros p Hp. pose proof (proj1 (Forall_forall _ _) (v_ok _ _ _ _ _ _ _ _ _ _ I2) p Hp) as ((_ & W) & _). cbn [snd] in W.
    apply (esize_in_geom cfg); auto. apply I2.
  - intros HK. pose proof (v_ok _ _ _ _ _ _ _ _ _ _ I2) as HX. revert HX. apply Forall_impl. intros p (_ & _ & _ & W). auto.
  - exact (v_idx _ _ _ _ _ _ _ _ _ _ I2).
  - exists (mksys g2 c'), mem'. unfold flush_reads. fold g1. fold g2. fold idx. rewrite V1. cbn [bind fst snd]. split; [reflexivity|]. split.
    + clear - V2 D2 D3 D1. revert V2 D2 D3 D1. generalize (sflush sp). intros sp' V2 D2 D3 D1.
      assert (HG : forall l, (forall p, In p l -> In p dcs) -> Forall2 (fun c buf => get mem' (rc_buf c) (length buf) = buf) (map snd l) (map (fun x => sread sp' (with_mem mem x)) (map snd l))).
      { induction l as [|[d c] l IH]; intros Hl; [constructor|]. cbn [map snd]. constructor; [|apply IH; intros; apply Hl; cbn; auto].
        assert (Hin : In (d, c) dcs) by (apply Hl; cbn; auto).
        pose proof (D3 d c mem Hin) as E3. rewrite (D2 d c mem Hin) in *. rewrite <- (V2 d c Hin) in *. unfold Zlen in E3. rewrite get_length in *. reflexivity. }
      apply HG. auto.
    + intros a Ha. apply V3. intros d c Hin. rewrite <- (D3 d c mem Hin). apply Ha.
      clear - Hin. induction dcs as [|[d0 c0] dcs IH]; [destruct Hin|]. cbn [map combine snd]. destruct Hin as [E|Hin]; [injection E as <- <-; left; reflexivity|right; auto].
Qed.
