(** Non-blocking reads served by H5Fflush in any state a legal history reaches. *)
From Verif Require Import Base BaseProofs Spec MetaModel QueueModel FlushModel IndexModel ReadModel SysModel
  SysSpec History PendModel PendSpec GeomProofs MetaProofs QueueProofs IndexProofs SearchProofs ReadProofs HitProofs MdProofs
  StoreProofs FlushProofs ReadOneProofs SysProofs PendProofs PendClaims HistoryProofs RealModel RealSpec RealClaims NbModel NbSpec.
From Coq Require Import ZifyNat ZifyN Permutation.

(** Serving succeeds, whatever the requests share. *)
Lemma serve_runs : forall e g C ms, Permutation C (flat_map (flat_map snd) ms) ->
  g_mdsets g = map md_bytes ms -> Forall md_ok ms -> Forall (Forall (sec_ok (e_kind e) (g_cfg g) (geom (g_infos g)))) ms ->
  (e_kind e = KCompact -> Forall (fun p => unlim_of (geom (g_infos g)) (a_did (snd p)) = true -> recnum_of (a_sels (snd p)) < 2 ^ 31) C) ->
  forall cached mem dcs,
  (forall i, cached = Some i -> kind_of i = e_kind e /\ idx_rep (geom (g_infos g)) i (flat_map (flat_map snd) ms)) ->
  (e_limit e <> None -> C <> []) -> Forall (fun p => call_ok e g (fst p) (snd p)) dcs ->
  exists mem' c', serve e g cached mem (map snd dcs) = Ok (mem', c') /\
    (forall i, c' = Some i -> kind_of i = e_kind e /\ idx_rep (geom (g_infos g)) i (flat_map (flat_map snd) ms)).
Proof.
  intros e g C ms HP HM HMo HMs HU cached mem dcs Hc Hlim HK. set (G := geom (g_infos g)) in *. set (xs := map xq dcs).
  assert (HX : Forall (xreq_ok (g_infos g) (e_kind e) (flat_map (flat_map snd) ms)) xs).
  { unfold xs. rewrite Forall_map. revert HK. apply Forall_impl. intros [d c] H. pose proof (call_geom e g d c H) as HG. cbn [fst snd] in H.
    destruct H as (K1 & K2 & K3 & K4 & K5 & Hblk & K7 & K8 & Hsm).
    unfold xreq_ok. cbn [xq fst snd rq_did rq_sels]. split; [auto|]. split; [auto|]. split.
    - revert Hblk. apply Forall_impl. intros b (B1 & B2 & _). auto.
    - intros Hk. split.
      + eapply Permutation_Forall; [exact HP|]. apply HU. auto.
      + cbn [rq_did rq_sels]. unfold unlim_of. rewrite HG. intros Hu. specialize (Hsm Hk Hu).
        rewrite Forall_forall in *. intros b Hb. specialize (Hsm b Hb). specialize (Hblk b Hb).
        destruct Hblk as (B1 & B2 & B3 & B4). unfold small_first.
        assert (0 <= hd 0 (b_start b)) by (destruct (b_start b); cbn; [lia|inversion B3; lia]).
        assert (0 <= hd 0 (b_count b) < 2 ^ 31) by (destruct (b_count b); cbn; [lia|inversion B4; lia]). lia. }
  assert (HL : e_limit e <> None -> ms <> []).
  { intros Hl ->. cbn in HP. apply Permutation_sym, Permutation_nil in HP. apply Hlim; auto. }
  destruct (read_search_ok (e_zlib e) (g_cfg g) (g_infos g) (e_kind e) (e_limit e) ms cached xs HMo HMs HX HL Hc) as (u & c' & U1 & U2 & U3).
  unfold serve. rewrite (requests_ok e g dcs HK). fold xs. cbn [bind]. rewrite HM, U1. cbn [bind fst snd]. eauto.
Qed.

(** Serving the queue of one process, from the invariant. *)
Definition idx_good (e : env) (g : gfile) (ms : list (list (list wreq * list pwr))) (idx : option index) : Prop :=
  forall i, idx = Some i -> kind_of i = e_kind e /\ idx_rep (geom (g_infos g)) i (entries ms).
Definition served (sp : sstate) (calls : list rcall) (mem mem' : bytemap) : Prop :=
  ForallOrdPairs (apart_buffers (ss_sets sp)) calls -> ForallOrdPairs no_common_element calls ->
  Forall (fun c => get mem' (rc_buf c) (Z.to_nat (buf_size (ss_sets sp) c)) = sread sp (with_mem mem c)) calls /\
  (forall a, (forall c, In c calls -> a < rc_buf c \/ rc_buf c + buf_size (ss_sets sp) c <= a) -> mem' a = mem a).

Lemma call_size : forall e cfg cv s sp h n C ms grs c, inv e cfg cv s sp h n C ms grs -> ok_call e sp c ->
  forall d, call_ok e (s_g s) d c -> buf_size (ss_sets sp) c = di_esize d * sel_size (rc_sels c).
Proof.
  intros e cfg cv s sp h n C ms grs c I (Hne & d0 & W1 & W2 & _) d HK.
  destruct (set_of_info _ _ _ _ _ _ _ _ _ _ _ _ I W1) as (D0 & D1 & d' & D2 & D3 & D4 & _).
  unfold buf_size, esize_at. rewrite D1. pose proof (call_small e (s_g s) d c HK) as Hsm. unfold Zlen. rewrite (sel_coords_length _ _ Hsm).
  destruct HK as (_ & K2 & _). rewrite K2 in D2. injection D2 as <-. rewrite D4. reflexivity.
Qed.

Lemma serve_one : forall e cfg cv s sp h n C ms grs, inv e cfg cv s sp h n C ms grs -> is_sort (e_sort e) ->
  flat_map gr_fl grs = [] -> (e_limit e <> None -> C <> []) ->
  forall calls idx mem, Forall (ok_call e sp) calls -> idx_good e (s_g s) ms idx ->
  exists mem' idx', serve e (s_g s) idx mem calls = Ok (mem', idx') /\ idx_good e (s_g s) ms idx' /\ served sp calls mem mem'.
Proof.
  intros e cfg cv s sp h n C ms grs I Hsort F2 Hlim calls idx mem HK Hidx.
  destruct (calls_split _ _ _ _ _ _ _ _ _ _ I calls HK) as (dcs & -> & D1 & D2 & D3).
  pose proof (v_perm _ _ _ _ _ _ _ _ _ _ I) as HP. rewrite F2, app_nil_r in HP.
  pose proof (clog_intro _ _ _ (v_ok _ _ _ _ _ _ _ _ _ _ I) (v_ord _ _ _ _ _ _ _ _ _ _ I)) as HC.
  assert (HMs : Forall (Forall (sec_ok (e_kind e) (g_cfg (s_g s)) (geom (g_infos (s_g s))))) ms).
  { rewrite (v_cfg _ _ _ _ _ _ _ _ _ _ I). apply I. }
  assert (HU : e_kind e = KCompact -> Forall (fun p => unlim_of (geom (g_infos (s_g s))) (a_did (snd p)) = true -> recnum_of (a_sels (snd p)) < 2 ^ 31) C).
  { intros K. pose proof (v_ok _ _ _ _ _ _ _ _ _ _ I) as HX. revert HX. apply Forall_impl. intros p (_ & _ & _ & W). auto. }
  destruct (serve_runs e (s_g s) C ms HP (v_md _ _ _ _ _ _ _ _ _ _ I) (v_mdok _ _ _ _ _ _ _ _ _ _ I) HMs HU idx mem dcs Hidx Hlim D1) as (mem' & c' & V1 & V2).
  exists mem', c'. split; [exact V1|]. split; [exact V2|]. intros HA HN.
  assert (SZ : forall d c, In (d, c) dcs -> buf_size (ss_sets sp) c = di_esize d * sel_size (rc_sels c)).
  { intros d c Hin. rewrite Forall_forall in D1. specialize (D1 _ Hin). cbn [fst snd] in D1. eapply call_size; eauto.
    rewrite Forall_forall in HK. apply HK. apply in_map_iff. exists (d, c). auto. }
  assert (HO : ForallOrdPairs pair_ok dcs).
  { clear - HA HN SZ. induction dcs as [|[d c] dcs IH]; [constructor|]. cbn [map snd] in HA, HN.
    inversion HA as [|? ? A1 A2]; subst. inversion HN as [|? ? N1 N2]; subst. constructor.
    - apply Forall_forall. intros [d' c'] Hin. unfold pair_ok. cbn [fst snd]. rewrite Forall_forall in A1, N1.
      assert (Hc : In c' (map snd dcs)) by (apply in_map_iff; exists (d', c'); auto). split; [|auto].
      rewrite <- (SZ d c (or_introl eq_refl)), <- (SZ d' c' (or_intror Hin)). exact (A1 _ Hc).
    - apply IH; auto. intros; apply SZ; cbn; auto. }
  destruct (serve_ok e (s_g s) C ms (ss_sets sp) Hsort HC HP (v_md _ _ _ _ _ _ _ _ _ _ I) (v_mdok _ _ _ _ _ _ _ _ _ _ I)) with
    (cached := idx) (mem := mem) (dcs := dcs) as (c2 & mem2 & W1 & W2 & W3 & _); auto.
  - apply I.
  - intros p Hp. pose proof (proj1 (Forall_forall _ _) (v_ok _ _ _ _ _ _ _ _ _ _ I) p Hp) as ((_ & W) & _). cbn [snd] in W.
    apply (esize_in_geom cfg); auto. apply I.
  - rewrite V1 in W1. injection W1 as <- <-. split.
    + apply Forall_forall. intros c Hc. apply in_map_iff in Hc. destruct Hc as ([d c0] & <- & Hin). cbn [snd]. rewrite (SZ d c0 Hin), (D2 d c0 mem Hin). apply W2. exact Hin.
    + intros a Ha. apply W3. intros d c Hin. rewrite <- (SZ d c Hin). apply Ha. apply in_map_iff. exists (d, c). auto.
Qed.

Lemma queue_In : forall rk q c, In c (queue_of rk q) -> In c (map snd q).
Proof. intros rk q c H. unfold queue_of in H. apply in_map_iff in H. destruct H as (p & <- & H). apply filter_In in H. apply in_map. apply H. Qed.
Lemma serve_every : forall e cfg cv s sp h n C ms grs, inv e cfg cv s sp h n C ms grs -> is_sort (e_sort e) ->
  flat_map gr_fl grs = [] -> (e_limit e <> None -> C <> []) ->
  forall q, Forall (ok_call e sp) (map snd q) -> forall rks, NoDup rks -> forall idx mem, idx_good e (s_g s) ms idx ->
  exists mem' idx', serve_all e (s_g s) idx mem q rks = Ok (mem', idx') /\ idx_good e (s_g s) ms idx' /\
    (forall rk, In rk rks -> served sp (queue_of rk q) (mem rk) (mem' rk)) /\ (forall rk, ~ In rk rks -> mem' rk = mem rk).
Proof.
  intros e cfg cv s sp h n C ms grs I Hsort F2 Hlim q HK rks ND. induction ND as [|rk rks Hni ND IH]; intros idx mem Hidx.
  - exists mem, idx. cbn [serve_all]. split; auto. split; auto. split; auto. intros rk [].
  - cbn [serve_all]. destruct (serve_one _ _ _ _ _ _ _ _ _ _ I Hsort F2 Hlim (queue_of rk q) idx (mem rk)) as (m1 & i1 & V1 & V2 & V3); auto.
    { rewrite Forall_forall in *. intros c Hc. apply HK. eapply queue_In; eauto. }
    rewrite V1. cbn [bind fst snd]. destruct (IH i1 (fun r => if (r =? rk)%nat then m1 else mem r) V2) as (mem' & idx' & W1 & W2 & W3 & W4).
    exists mem', idx'. split; [exact W1|]. split; [exact W2|]. split.
    + intros r [<-|Hin].
      * rewrite (W4 rk Hni), Nat.eqb_refl. exact V3.
      * specialize (W3 r Hin). cbv beta in W3. assert (r <> rk) by (intros ->; contradiction). destruct (Nat.eqb_spec r rk); [contradiction|]. exact W3.
    + intros r Hr. rewrite W4 by (intros Q; apply Hr; right; exact Q). destruct (Nat.eqb_spec r rk) as [->|]; auto. exfalso. apply Hr. left. reflexivity.
Qed.
