(** The connector implements the specification on every history of [SysSpec.ok_history]. *)
From Verif Require Import Base BaseProofs Spec MetaModel QueueModel FlushModel IndexModel ReadModel SysModel
  SysSpec GeomProofs MetaProofs QueueProofs IndexProofs SearchProofs ReadProofs HitProofs MdProofs StoreProofs
  FlushProofs ReadOneProofs.
From Coq Require Import ZifyNat ZifyN Permutation.

(** ** Growth of the dataset table *)
Lemma geom_le_eq : forall G G' did, geom_le G G' -> 0 < esize_of G did -> G' did = G did.
Proof.
  intros G G' did H He. unfold esize_of in He. destruct (G did) as [[[nd es] u]|] eqn:E; [|lia]. apply H in E. exact E.
Qed.

Section Mono.
Context (G G' : Z -> option (nat * Z * bool)) (HG : geom_le G G').

Lemma wsmall_mono : forall p, wsmall G p -> wsmall G' p /\ wbytes G' p = wbytes G p.
Proof.
  intros p [H1 H2]. unfold wsmall, wbytes, ndim_of, esize_of in *. rewrite (geom_le_eq _ _ _ HG) by exact H2. auto.
Qed.

Lemma idx_rep_mono : forall i l, Forall (wsmall G) l -> idx_rep G i l -> idx_rep G' i l.
Proof.
  assert (HF : forall A (R R' : A -> pwr -> Prop) es l, (forall a p, wsmall G p -> R a p -> R' a p) ->
    Forall (wsmall G) l -> Forall2 R es l -> Forall2 R' es l).
  { intros A R R' es l HR HL H. induction H; constructor; inversion HL; subst; auto. }
  intros [es|cs] l HL; cbn [idx_rep]; apply HF; auto.
  - intros a p [_ H2] (A & B & D). unfold ment_rep, esize_of in *. rewrite (geom_le_eq _ _ _ HG) by exact H2. auto.
  - intros a p [_ H2] H. unfold cent_rep, ndim_of, unlim_of in *. rewrite (geom_le_eq _ _ _ HG) by exact H2. exact H.
Qed.

Lemma sec_ok_mono : forall k cfg s, sec_ok k cfg G s -> sec_ok k cfg G' s.
Proof. intros k cfg s [H1 H2]. split; auto. eapply qrep_mono; eauto. Qed.

Lemma rank_rep_mono : forall k cfg cv st gr, rank_rep k cfg cv G st gr -> rank_rep k cfg cv G' st gr.
Proof. intros k cfg cv st gr (H1 & H2 & H3). split; auto. eapply rinv_mono; eauto. Qed.
End Mono.

(** ** Admissible writes *)
Definition apok (k : kind) (G : Z -> option (nat * Z * bool)) (a : awr) : Prop :=
  wsmall G (0, a) /\ a_sels a <> [] /\ Zlen (a_data a) = wbytes G (0, a) /\
  (k = KCompact -> unlim_of G (a_did a) = true -> recnum_of (a_sels a) < 2 ^ 31).

Lemma apok_mono : forall k G G' a, geom_le G G' -> apok k G a -> apok k G' a.
Proof.
  intros k G G' a HG (H1 & H2 & H3 & H4). destruct (wsmall_mono _ _ HG _ H1) as [W1 W2].
  split; auto. split; auto. split; [congruence|]. destruct H1 as [_ He]. cbn [snd] in He. unfold unlim_of in *. rewrite (geom_le_eq _ _ _ HG) by exact He. exact H4.
Qed.

Lemma apok_bytes : forall k G a, apok k G a -> 0 < Zlen (a_data a).
Proof.
  intros k G a ((W1 & W2) & H2 & H3 & _). rewrite H3. unfold wbytes. cbn [snd] in *.
  destruct (a_sels a) as [|b s]; [congruence|]. rewrite sel_size_cons.
  pose proof (coords_length_size _ _ (Forall_inv W1)). pose proof (sel_size_nonneg _ _ (Forall_inv_tail W1)). nia.
Qed.

Lemma clog_intro : forall k G l, Forall (fun p => apok k G (snd p)) l -> ForallOrdPairs (wbefore G) l -> clog G l.
Proof.
  intros k G l H1 H2. constructor; auto; revert H1; apply Forall_impl; intros p (A & B & D & _); auto.
Qed.

Lemma place_before : forall k G l off, Forall (apok k G) l -> ForallOrdPairs (wbefore G) (place off l).
Proof.
  induction l as [|a l IH]; intros off H; cbn [place]; constructor.
  - apply Forall_forall. intros q Hq. apply In_place in Hq. destruct Hq as (Q & _). unfold wbefore. cbn [fst].
    destruct (Forall_inv H) as (_ & _ & L & _). unfold wbytes in *. cbn [snd] in *. lia.
  - apply IH. eapply Forall_inv_tail; eauto.
Qed.

(** ** Dataset tables *)
Definition info_rep (cfg : Z) (o : option dinfo) (d : dinfo) : Prop :=
  exists d', o = Some d' /\ di_esize d' = di_esize d /\ di_dims d' = di_dims d /\ di_mdims d' = di_mdims d /\
    di_fill d' = di_fill d /\ info_ok cfg d' /\ fill_ok d' /\ (has cfg CFG_SEL_ENCODE = true -> di_dims d <> []).

Lemma Forall2_nth_error : forall A B (R : A -> B -> Prop) l l' k a, Forall2 R l l' -> nth_error l k = Some a ->
  exists b, nth_error l' k = Some b /\ R a b.
Proof.
  intros A B R l l' k a H. revert k. induction H; intros [|k] E; cbn in E; try discriminate.
  - injection E as <-. exists y. auto.
  - apply IHForall2 in E. exact E.
Qed.
Lemma Forall2_nth_error_r : forall A B (R : A -> B -> Prop) l l' k b, Forall2 R l l' -> nth_error l' k = Some b ->
  exists a, nth_error l k = Some a /\ R a b.
Proof.
  intros A B R l l' k b H. revert k. induction H; intros [|k] E; cbn in E; try discriminate.
  - injection E as <-. exists x. auto.
  - apply IHForall2 in E. exact E.
Qed.
Lemma Forall2_upd_nth : forall A B (R : A -> B -> Prop) l l' k a b, Forall2 R l l' -> R a b ->
  Forall2 R (upd_nth k a l) (upd_nth k b l').
Proof.
  intros A B R l l' k a b H Hab. revert k. induction H; intros [|k]; cbn; constructor; auto.
Qed.
Lemma map_upd_nth : forall A B (f : A -> B) k a l, map f (upd_nth k a l) = upd_nth k (f a) (map f l).
Proof. induction k; intros a [|x l]; cbn; auto. f_equal. auto. Qed.
Lemma upd_nth_same : forall A k (a : A) l, nth_error l k = Some a -> upd_nth k a l = l.
Proof. induction k; intros a [|x l] H; cbn in *; try discriminate; [congruence|]. f_equal. auto. Qed.
Lemma Forall2_impl : forall A B (R R' : A -> B -> Prop) l l', (forall a b, R a b -> R' a b) -> Forall2 R l l' -> Forall2 R' l l'.
Proof. induction 2; constructor; auto. Qed.

Lemma esize_in_geom : forall cfg infos sets did, Forall2 (info_rep cfg) infos sets ->
  0 < esize_of (geom infos) did -> esize_in sets did = esize_of (geom infos) did.
Proof.
  intros cfg infos sets did H He. unfold esize_of, geom, esize_in in *.
  destruct (nth_error infos (Z.to_nat did)) as [[d'|]|] eqn:E; try lia.
  destruct (Forall2_nth_error _ _ _ _ _ _ _ H E) as (d & -> & d'' & Q & Q1 & _). injection Q as <-. auto.
Qed.

Lemma store_sets : forall sets sets' l st, (forall a, In a l -> esize_in sets' (a_did a) = esize_in sets (a_did a)) ->
  fold_left (apply_write sets') (map pw_of l) st = fold_left (apply_write sets) (map pw_of l) st.
Proof.
  induction l as [|a l IH]; intros st H; [reflexivity|]. cbn [map fold_left]. rewrite IH by (intros; apply H; right; auto).
  unfold apply_write at 2 4. cbn [pw_of pw_did pw_sels pw_data]. rewrite H by (left; auto). reflexivity.
Qed.

(** ** The invariant *)
Definition entries (ms : list (list (list wreq * list pwr))) : list pwr := flat_map (flat_map snd) ms.

Record inv (e : env) (cfg : Z) (cv : conv) (s : sys) (sp : sstate) (h : hstate) (n : Z)
       (C : list pwr) (ms : list (list (list wreq * list pwr))) (grs : list grank) : Prop := {
  v_cfg : g_cfg (s_g s) = cfg;
  v_infos : Forall2 (info_rep cfg) (g_infos (s_g s)) (ss_sets sp);
  v_ranks : Forall2 (rank_rep (e_kind e) cfg cv (geom (g_infos (s_g s)))) (g_ranks (s_g s)) grs;
  v_pend : ss_pend sp = map (fun g => map pw_of (gr_pd g)) grs;
  v_md : g_mdsets (s_g s) = map md_bytes ms;
  v_mdok : Forall md_ok ms;
  v_secs : Forall (Forall (sec_ok (e_kind e) cfg (geom (g_infos (s_g s))))) ms;
  v_perm : Permutation C (entries ms ++ flat_map gr_fl grs);
  v_dirty : g_metadirty (s_g s) = false -> flat_map gr_fl grs = [];
  v_ok : Forall (fun p => apok (e_kind e) (geom (g_infos (s_g s))) (snd p)) C;
  v_pok : Forall (apok (e_kind e) (geom (g_infos (s_g s)))) (all_pd grs);
  v_ord : ForallOrdPairs (wbefore (geom (g_infos (s_g s)))) C;
  v_hi : Forall (fun p => 0 <= fst p /\ fst p + Zlen (a_data (snd p)) <= hs_hi h) C;
  v_hi0 : 0 <= hs_hi h;
  v_hi1 : hs_hi h <> 0 -> C <> [];
  v_file : Forall (fun p => get (g_file (s_g s)) (fst p) (length (a_data (snd p))) = a_data (snd p)) C;
  v_store : ss_store sp = store_of (ss_sets sp) (map snd C);
  v_idx : forall i, s_idx s = Some i -> kind_of i = e_kind e /\ idx_rep (geom (g_infos (s_g s))) i (entries ms);
  v_seen : Forall2 (fun g seen => forall a, In a (map snd (gr_fl g) ++ gr_pd g) -> In (a_sels a) seen) grs (hs_seen h);
  v_meta : Zsum (map meta_len (g_ranks (s_g s))) <= 2 ^ 31 * n;
  v_n : 0 <= n;
  v_np : (0 < length grs)%nat /\ Z.of_nat (length grs) < 2 ^ 31 }.

Lemma pend_awr : forall grs, concat (map (fun g => map pw_of (gr_pd g)) grs) = map pw_of (all_pd grs).
Proof. unfold all_pd. induction grs; [reflexivity|]. cbn [map concat flat_map]. rewrite map_app. congruence. Qed.

Lemma inv_pend : forall e cfg cv s sp h n C ms grs, inv e cfg cv s sp h n C ms grs ->
  pend_bytes sp = abytes (all_pd grs) /\ concat (ss_pend sp) = map pw_of (all_pd grs) /\
  any_pending (s_g s) = negb (length (all_pd grs) =? 0)%nat.
Proof.
  intros e cfg cv s sp h n C ms grs I. unfold pend_bytes. rewrite (v_pend _ _ _ _ _ _ _ _ _ _ I), pend_awr.
  split; [|split; auto].
  - unfold abytes. rewrite map_map. reflexivity.
  - unfold any_pending. pose proof (sizes_eq _ _ _ _ _ _ (v_ranks _ _ _ _ _ _ _ _ _ _ I)) as (_ & _ & S).
    transitivity (existsb (fun m => negb (m =? 0)%nat) (map num_pending (g_ranks (s_g s)))).
    { induction (g_ranks (s_g s)); cbn; auto. f_equal. cbn in S. clear S. clear. induction l; cbn; auto. f_equal; auto. }
    rewrite S. unfold all_pd. clear. induction grs as [|g grs IH]; [reflexivity|]. cbn [map existsb flat_map]. rewrite IH, app_length.
    destruct (gr_pd g); cbn [length]; [reflexivity|]. cbn. reflexivity.
Qed.

Lemma abytes_pos : forall k G l, Forall (apok k G) l -> l <> [] -> 0 < abytes l.
Proof.
  intros k G [|a l] H Hn; [congruence|]. rewrite abytes_cons. pose proof (apok_bytes _ _ _ (Forall_inv H)). pose proof (abytes_nonneg l). lia.
Qed.

Lemma gflush_all_pd : forall grs a, all_pd (gflush a grs) = [].
Proof. unfold all_pd. induction grs; intros; cbn; auto. Qed.

Lemma gflush_none : forall grs doff, all_pd grs = [] -> gflush doff grs = grs.
Proof.
  unfold all_pd. induction grs as [|[f p] grs IH]; intros doff H; [reflexivity|]. cbn [flat_map gr_pd] in H. apply app_eq_nil in H. destruct H as [-> H].
  cbn [gflush gr_fl gr_pd place]. rewrite IH by auto. rewrite app_nil_r. reflexivity.
Qed.

Lemma inv_flush_log : forall e cfg cv s sp h n C ms grs doff, inv e cfg cv s sp h n C ms grs ->
  ok_flush sp h doff ->
  exists C', inv e cfg cv (mksys (if any_pending (s_g s) then flush_writes doff (s_g s) else s_g s) (s_idx s))
                      (sflush sp) (hflush sp h doff) n C' ms (gflush doff grs).
Proof.
  intros e cfg cv s sp h n C ms grs doff I Hf. pose proof (inv_pend _ _ _ _ _ _ _ _ _ _ I) as (P1 & P2 & P3).
  rewrite P3. destruct (Nat.eqb_spec (length (all_pd grs)) 0) as [E|E]; cbn [negb].
  - apply length_zero_iff_nil in E. exists C. rewrite gflush_none by auto.
    assert (Hs : sflush sp = sp).
    { unfold sflush. rewrite P2, E. cbn [map fold_left]. destruct sp as [ss st pd]. cbn. f_equal.
      pose proof (v_pend _ _ _ _ _ _ _ _ _ _ I) as Hp. cbn in Hp. rewrite Hp. rewrite map_map. clear - E. unfold all_pd in E.
      induction grs as [|g grs IH]; [reflexivity|]. cbn [flat_map] in E. apply app_eq_nil in E. destruct E as [E1 E2].
      cbn [map]. rewrite E1, IH by auto. reflexivity. }
    assert (Hh : hflush sp h doff = h). { unfold hflush. rewrite P1, E. reflexivity. }
    rewrite Hs, Hh. destruct s; exact I.
  - assert (Hne : all_pd grs <> []) by (intros Q; rewrite Q in E; apply E; reflexivity).
    pose proof (abytes_pos _ _ _ (v_pok _ _ _ _ _ _ _ _ _ _ I) Hne) as Hpos.
    destruct Hf as [Hf1 Hf2]; [lia|]. rewrite P1 in *.
    pose proof (v_hi0 _ _ _ _ _ _ _ _ _ _ I) as Hhi0.
    pose proof (sizes_eq _ _ _ _ _ _ (v_ranks _ _ _ _ _ _ _ _ _ _ I)) as (Z1 & Z2 & Z3).
    exists (C ++ place doff (all_pd grs)).
    assert (Hh : hflush sp h doff = mkhs (doff + abytes (all_pd grs)) (hs_seen h)).
    { unfold hflush. rewrite P1. destruct (Z.eqb_spec (abytes (all_pd grs)) 0); [lia|reflexivity]. }
    rewrite Hh.
    unfold flush_writes. rewrite Z1, abytes_all, exscan_shift. cbn [Z.add].
    destruct (Z.eqb_spec (abytes (all_pd grs)) 0); [lia|].
    destruct (ranks_flush _ _ _ _ _ _ doff (v_ranks _ _ _ _ _ _ _ _ _ _ I) ltac:(lia) Hf2) as [R1 R2].
    destruct (file_flush _ _ _ _ (g_file (s_g s)) doff _ _ (v_ranks _ _ _ _ _ _ _ _ _ _ I)) as [F1 F2].
    constructor; cbn [s_g s_idx g_cfg g_infos g_ranks g_file g_mdsets g_metadirty ss_sets ss_store ss_pend sflush hs_hi hs_seen]; try (apply I).
    + exact R1.
    + rewrite (v_pend _ _ _ _ _ _ _ _ _ _ I). rewrite map_map.
      assert (HQ : forall l l' : list grank, length l = length l' -> Forall (fun g => gr_pd g = []) l' -> map (fun _ => @nil pwrite) l = map (fun g => map pw_of (gr_pd g)) l').
      { induction l; intros [|g' l'] Hl HF; try discriminate; auto. cbn. rewrite (Forall_inv HF). cbn. f_equal. apply IHl; [cbn in Hl; lia|eapply Forall_inv_tail; eauto]. }
      apply HQ; [symmetry; apply gflush_length|apply gflush_pd].
    + eapply Permutation_trans; [apply Permutation_app_tail; apply I|]. rewrite <- app_assoc. apply Permutation_app_head.
      apply Permutation_sym, gflush_perm.
    + discriminate.
    + apply Forall_app. split; [apply I|]. apply Forall_forall. intros p Hp. apply In_place in Hp. destruct Hp as (_ & _ & Hp).
      pose proof (v_pok _ _ _ _ _ _ _ _ _ _ I) as HP. rewrite Forall_forall in HP. apply HP. exact Hp.
    + rewrite gflush_all_pd. constructor.
    + apply ForallOrdPairs_app. split; [apply I|]. split; [eapply place_before; apply I|].
      intros p q Hp Hq. apply In_place in Hq. destruct Hq as (Hq & _). unfold wbefore.
      pose proof (proj1 (Forall_forall _ _) (v_hi _ _ _ _ _ _ _ _ _ _ I) p Hp) as Hb. cbn beta in Hb.
      pose proof (proj1 (Forall_forall _ _) (v_ok _ _ _ _ _ _ _ _ _ _ I) p Hp) as (_ & _ & L & _).
      unfold wbytes in *. cbn [snd] in L. lia.
    + apply Forall_app. split.
      * eapply Forall_impl; [|apply (v_hi _ _ _ _ _ _ _ _ _ _ I)]. cbn beta. intros p [Q1 Q2]. lia.
      * apply Forall_forall. intros p Hp. apply In_place in Hp. lia.
    + lia.
    + intros _ Q. apply app_eq_nil in Q. destruct Q as [_ Q]. apply Hne. rewrite <- (place_snd (all_pd grs) doff), Q. reflexivity.
    + apply Forall_app. split; [|exact F1]. apply Forall_forall. intros p Hp.
      pose proof (proj1 (Forall_forall _ _) (v_file _ _ _ _ _ _ _ _ _ _ I) p Hp) as Hq. cbn beta in Hq. rewrite <- Hq at 2.
      apply get_ext. intros i Hi. apply F2.
      pose proof (proj1 (Forall_forall _ _) (v_hi _ _ _ _ _ _ _ _ _ _ I) p Hp) as Hb. cbn beta in Hb. unfold Zlen in Hb. lia.
    + rewrite (v_store _ _ _ _ _ _ _ _ _ _ I), P2. unfold store_of. rewrite map_app, place_snd, map_app, fold_left_app. reflexivity.
    + pose proof (v_seen _ _ _ _ _ _ _ _ _ _ I) as HS. pose proof (gflush_queue grs doff) as HQ.
      clear - HS HQ. revert HQ. generalize (gflush doff grs) as grs'. intros grs'. revert grs'. induction HS as [|g seen grs sn H1 H2 IH]; intros grs' HQ; destruct grs' as [|g' grs']; try discriminate; constructor.
      * cbn [map] in HQ. injection HQ as HQ1 _. rewrite HQ1. exact H1.
      * apply IH. cbn [map] in HQ. injection HQ as _ HQ2. exact HQ2.
    + rewrite R2. apply I.
    + rewrite gflush_length. apply I.
Qed.

Lemma inv_flush : forall e cfg cv s sp h n C ms grs doff, inv e cfg cv s sp h n C ms grs ->
  ok_flush sp h doff ->
  exists C' grs', inv e cfg cv (mksys (if any_pending (s_g s) then flush_writes doff (s_g s) else s_g s) (s_idx s))
                      (sflush sp) (hflush sp h doff) n C' ms grs' /\ all_pd grs' = [].
Proof.
  intros. destruct (inv_flush_log e cfg cv s sp h n C ms grs doff) as [C' I]; auto. exists C', (gflush doff grs). split; auto. apply gflush_all_pd.
Qed.

(** What a metadata flush adds: one metadata dataset if some process has flushed writes. *)
Definition gmeta (grs : list grank) (l : list (list (list pwr))) : list (list (list pwr)) :=
  match flat_map gr_fl grs with [] => l | _ => l ++ [map gr_fl grs] end.
Definition gcleared (grs : list grank) : list grank := map (fun _ => mkgr [] []) grs.
Lemma gcleared_none : forall grs, all_pd grs = [] -> flat_map gr_fl grs = [] -> gcleared grs = grs.
Proof.
  unfold all_pd, gcleared. induction grs as [|[f p] grs IH]; intros H1 H2; [reflexivity|]. cbn [flat_map gr_pd gr_fl map] in *.
  apply app_eq_nil in H1, H2. destruct H1 as [-> H1], H2 as [-> H2]. rewrite IH by auto. reflexivity.
Qed.

Lemma inv_metaflush_log : forall e cfg cv s sp h n C ms grs, inv e cfg cv s sp h n C ms grs -> all_pd grs = [] ->
  n <= 2 ^ 30 ->
  exists ms', inv e cfg cv
     (mksys (if g_metadirty (s_g s) then metaflush (s_g s) else s_g s) (if g_metadirty (s_g s) then None else s_idx s))
     sp h n C ms' (gcleared grs) /\ map (map snd) ms' = gmeta grs (map (map snd) ms).
Proof.
  intros e cfg cv s sp h n C ms grs I Hp Hn. destruct (g_metadirty (s_g s)) eqn:Ed.
  2:{ pose proof (v_dirty _ _ _ _ _ _ _ _ _ _ I Ed) as Hd. exists ms. rewrite gcleared_none by auto. split; [destruct s; exact I|]. unfold gmeta. rewrite Hd. reflexivity. }
  assert (HP : Forall (fun g => gr_pd g = []) grs).
  { clear - Hp. unfold all_pd in Hp. induction grs; constructor; cbn in Hp; apply app_eq_nil in Hp; tauto. }
  pose proof (v_ranks _ _ _ _ _ _ _ _ _ _ I) as HR. pose proof (v_np _ _ _ _ _ _ _ _ _ _ I) as [N1 N2].
  pose proof (Forall2_length _ _ _ _ _ HR) as HL.
  assert (Hne : g_ranks (s_g s) <> []) by (intros Q; rewrite Q in HL; cbn in HL; lia).
  destruct (secs_of_ok _ _ _ _ _ _ HR HP) as (S1 & S2 & S3 & S4 & S5).
  destruct (md_content_ok _ _ _ _ _ _ HR HP Hne) as (M1 & M2).
  set (secs := secs_of (g_ranks (s_g s)) grs) in *.
  set (grs' := gcleared grs).
  assert (HE' : entries [secs] = flat_map gr_fl grs) by (unfold entries; cbn [flat_map]; rewrite app_nil_r; exact S4).
  assert (HF' : flat_map gr_fl grs' = []) by (unfold grs', gcleared; clear; induction grs; auto).
  assert (HA' : all_pd grs' = []) by (unfold grs', gcleared, all_pd; clear; induction grs; auto).
  assert (Hmd : md_ok secs).
  { split; [intros Q; rewrite Q in S5; cbn in S5; lia|]. rewrite <- sec_len_sum, S2. pose proof (v_meta _ _ _ _ _ _ _ _ _ _ I).
    assert (Zlen secs = Z.of_nat (length grs)) by (unfold Zlen; lia). lia. }
  set (ms' := if 8 * (Zlen (g_ranks (s_g s)) + 1) <? Zsum (meta_sizes (g_ranks (s_g s))) then ms ++ [secs] else ms).
  assert (HSs : map snd secs = map gr_fl grs).
  { unfold secs, secs_of. clear - HL. revert HL. generalize (g_ranks (s_g s)) as rs. induction grs as [|g grs IH]; intros [|r rs] HL; try discriminate; [reflexivity|].
    cbn [combine map fst snd]. rewrite IH by (cbn in HL; lia). reflexivity. }
  assert (Hent : (entries ms' = entries ms ++ flat_map gr_fl grs /\ map (map snd) ms' = gmeta grs (map (map snd) ms)) /\ Forall md_ok ms' /\
                 Forall (Forall (sec_ok (e_kind e) cfg (geom (g_infos (s_g s))))) ms' /\
                 (if 8 * (Zlen (g_ranks (s_g s)) + 1) <? Zsum (meta_sizes (g_ranks (s_g s))) then g_mdsets (s_g s) ++ [md_content (g_ranks (s_g s))] else g_mdsets (s_g s)) = map md_bytes ms').
  { unfold ms'. destruct (Z.ltb_spec (8 * (Zlen (g_ranks (s_g s)) + 1)) (Zsum (meta_sizes (g_ranks (s_g s))))) as [L|L].
    - split; [split; [unfold entries in *; rewrite flat_map_app, HE'; reflexivity|]|].
      { rewrite map_app. cbn [map]. rewrite HSs. unfold gmeta. destruct (flat_map gr_fl grs) eqn:Ef; [|reflexivity]. exfalso.
        assert (Hz : flat_map sec_bytes secs = []).
        { assert (Ef2 : flat_map snd secs = []) by congruence. clear - Ef2 S1. induction S1 as [|sc l Hs Hl IH]; [reflexivity|]. cbn [flat_map] in *. apply app_eq_nil in Ef2. destruct Ef2 as [F1 F2].
          rewrite IH by auto. destruct Hs as [Q P]. rewrite F1 in P. inversion P as [Q1|]. unfold sec_bytes. rewrite <- Q1. reflexivity. }
        rewrite M2, Hz, Zlen_nil in L. lia. }
      split; [apply Forall_app; split; [apply I|constructor; auto]|].
      split; [apply Forall_app; split; [apply I|constructor; auto]|]. rewrite map_app, M1, (v_md _ _ _ _ _ _ _ _ _ _ I). reflexivity.
    - cut (flat_map gr_fl grs = []).
      { intros Hfl. split; [|split; [apply I|split; [apply I|apply I]]]. unfold gmeta. rewrite Hfl, app_nil_r. auto. }
      assert (Hz : Zlen (flat_map sec_bytes secs) = 0) by (pose proof (Zlen_nonneg _ (flat_map sec_bytes secs)); lia).
      rewrite <- S4. clear - Hz S1. induction S1 as [|sc l Hs Hl IH]; [reflexivity|]. cbn [flat_map] in *. rewrite Zlen_app in Hz.
      pose proof (Zlen_nonneg _ (sec_bytes sc)). pose proof (Zlen_nonneg _ (flat_map sec_bytes l)). rewrite IH by lia.
      destruct Hs as [Q P]. destruct (qrep_bytes_len _ _ _ _ _ _ _ Q) as [_ QB]. fold (sec_bytes sc) in QB.
      destruct (fst sc) eqn:Ef; [|rewrite Zlen_cons in QB; pose proof (Zlen_nonneg _ l0); lia]. inversion P. reflexivity. }
  destruct Hent as ((E1 & E1') & E2 & E3 & E4).
  exists ms'. split; [|exact E1'].
  constructor; unfold metaflush; cbn [s_g s_idx g_cfg g_infos g_ranks g_file g_mdsets g_metadirty]; try (apply I).
  - unfold grs', gcleared. clear - HR. induction HR; constructor; auto. unfold rank_rep. cbn [gr_fl gr_pd map app]. split; [apply rinv0|].
    split; [reflexivity|]. unfold flushed. cbn. constructor.
  - unfold grs', gcleared. rewrite (v_pend _ _ _ _ _ _ _ _ _ _ I), map_map. clear - HP. induction HP as [|g l Hg Hl IH]; [reflexivity|]. cbn [map]. rewrite Hg. cbn. f_equal. exact IH.
  - exact E4.
  - exact E2.
  - exact E3.
  - rewrite HF', app_nil_r, E1. apply I.
  - auto.
  - rewrite HA'. constructor.
  - discriminate.
  - pose proof (v_seen _ _ _ _ _ _ _ _ _ _ I) as HS. unfold grs', gcleared. clear - HS. induction HS; constructor; auto. cbn. tauto.
  - assert (HZ : Zsum (map meta_len (map (fun st => mkrank [] 0 0 [] (k_zbsize st)) (g_ranks (s_g s)))) = 0).
    { clear. induction (g_ranks (s_g s)); [reflexivity|]. cbn [map Zsum fold_right]. unfold Zsum in IHl. rewrite IHl. reflexivity. }
    rewrite HZ. pose proof (v_n _ _ _ _ _ _ _ _ _ _ I). lia.
  - unfold grs', gcleared. rewrite map_length. auto.
Qed.

Lemma inv_metaflush : forall e cfg cv s sp h n C ms grs, inv e cfg cv s sp h n C ms grs -> all_pd grs = [] ->
  n <= 2 ^ 30 ->
  exists ms' grs', inv e cfg cv
     (mksys (if g_metadirty (s_g s) then metaflush (s_g s) else s_g s) (if g_metadirty (s_g s) then None else s_idx s))
     sp h n C ms' grs' /\ all_pd grs' = [] /\ flat_map gr_fl grs' = [].
Proof.
  intros. destruct (inv_metaflush_log e cfg cv s sp h n C ms grs) as (ms' & I & _); auto. exists ms', (gcleared grs). split; auto.
  unfold gcleared, all_pd. clear. induction grs; auto.
Qed.

(** ** Changing the dataset table *)
Lemma inv_table : forall e cfg cv s sp h n C ms grs infos' sets',
  inv e cfg cv s sp h n C ms grs ->
  geom_le (geom (g_infos (s_g s))) (geom infos') ->
  Forall2 (info_rep cfg) infos' sets' ->
  inv e cfg cv (mksys (set_infos (s_g s) infos') (s_idx s)) (mkss sets' (ss_store sp) (ss_pend sp)) h n C ms grs.
Proof.
  intros e cfg cv s sp h n C ms grs infos' sets' I HG HS.
  constructor; cbn [s_g s_idx set_infos g_cfg g_infos g_ranks g_file g_mdsets g_metadirty ss_sets ss_store ss_pend]; try (apply I).
  - exact HS.
  - eapply Forall2_impl; [|apply (v_ranks _ _ _ _ _ _ _ _ _ _ I)]. intros. eapply rank_rep_mono; eauto.
  - pose proof (v_secs _ _ _ _ _ _ _ _ _ _ I) as HX. revert HX. apply Forall_impl. intros m. apply Forall_impl. intros x. apply sec_ok_mono; auto.
  - pose proof (v_ok _ _ _ _ _ _ _ _ _ _ I) as HX. revert HX. apply Forall_impl. intros x. apply apok_mono; auto.
  - pose proof (v_pok _ _ _ _ _ _ _ _ _ _ I) as HX. revert HX. apply Forall_impl. intros x. apply apok_mono; auto.
  - eapply FOP_impl_In; [|apply (v_ord _ _ _ _ _ _ _ _ _ _ I)]. intros p q Hp _ H. unfold wbefore in *.
    pose proof (proj1 (Forall_forall _ _) (v_ok _ _ _ _ _ _ _ _ _ _ I) p Hp) as (W & _).
    destruct (wsmall_mono _ _ HG _ W) as [_ E]. unfold wbytes in *. cbn [snd] in E. rewrite E. exact H.
  - rewrite (v_store _ _ _ _ _ _ _ _ _ _ I). symmetry. unfold store_of. apply store_sets. intros a Ha.
    apply in_map_iff in Ha. destruct Ha as (p & <- & Hp).
    pose proof (proj1 (Forall_forall _ _) (v_ok _ _ _ _ _ _ _ _ _ _ I) p Hp) as ((_ & W) & _). cbn [snd] in W.
    rewrite (esize_in_geom _ _ _ _ (v_infos _ _ _ _ _ _ _ _ _ _ I) W).
    assert (E : esize_of (geom infos') (a_did (snd p)) = esize_of (geom (g_infos (s_g s))) (a_did (snd p))).
    { unfold esize_of at 1. rewrite (geom_le_eq _ _ _ HG W). reflexivity. }
    rewrite <- E in W |- *. apply (esize_in_geom _ _ _ _ HS W).
  - intros i Hi. destruct (v_idx _ _ _ _ _ _ _ _ _ _ I i Hi) as [K R]. split; auto. eapply idx_rep_mono; eauto.
    apply Forall_forall. intros p Hp.
    assert (HpC : In p C). { eapply Permutation_in; [apply Permutation_sym; apply I|]. apply in_or_app. auto. }
    pose proof (proj1 (Forall_forall _ _) (v_ok _ _ _ _ _ _ _ _ _ _ I) p HpC) as (W & _). exact W.
Qed.

Lemma geom_app : forall infos o, geom_le (geom infos) (geom (infos ++ [o])).
Proof.
  intros infos o did g H. unfold geom in *. destruct (nth_error infos (Z.to_nat did)) eqn:E; [|discriminate].
  rewrite nth_error_app1 by (apply nth_error_Some; congruence). rewrite E. exact H.
Qed.

Lemma geom_upd : forall infos k d d', nth_error infos k = Some (Some d) ->
  di_ndim d' = di_ndim d -> di_esize d' = di_esize d -> di_mdims d' = di_mdims d ->
  geom_le (geom infos) (geom (upd_nth k (Some d') infos)).
Proof.
  intros infos k d d' Hn H1 H2 H3 did g H. unfold geom in *. destruct (Nat.eq_dec k (Z.to_nat did)) as [E|E].
  - subst k. rewrite nth_error_upd_nth_eq by (apply nth_error_Some; congruence). rewrite Hn in H. unfold unlim in *. rewrite H1, H2, H3. exact H.
  - rewrite nth_error_upd_nth_ne by auto. exact H.
Qed.

Lemma set_of_info : forall e cfg cv s sp h n C ms grs did d, inv e cfg cv s sp h n C ms grs -> set_of sp did = Some d ->
  0 <= did /\ nth_error (ss_sets sp) (Z.to_nat did) = Some d /\
  exists d', nth_error (g_infos (s_g s)) (Z.to_nat did) = Some (Some d') /\ info_at (g_infos (s_g s)) did = Some (Some d') /\
    di_esize d' = di_esize d /\ di_dims d' = di_dims d /\ di_mdims d' = di_mdims d /\
    di_fill d' = di_fill d /\ info_ok cfg d' /\ fill_ok d' /\ (has cfg CFG_SEL_ENCODE = true -> di_dims d <> []).
Proof.
  intros e cfg cv s sp h n C ms grs did d I H. unfold set_of in H. destruct (Z.ltb_spec did 0) as [|L]; [discriminate|].
  split; auto. split; auto. destruct (Forall2_nth_error_r _ _ _ _ _ _ _ (v_infos _ _ _ _ _ _ _ _ _ _ I) H) as (o & Ho & d' & -> & R).
  exists d'. split; auto. split; auto. unfold info_at. destruct (Z.ltb_spec did 0); [lia|]. exact Ho.
Qed.

Lemma set_dims_ok : forall new dims mdims, length new = length dims ->
  Forall2 (fun n m => m = UNLIMITED \/ n <= m) new mdims -> set_dims dims mdims new = (new, true).
Proof.
  intros new dims mdims HL H. revert dims HL. induction H as [|n m new mdims Hnm HF IH]; intros [|d dims] HL; try discriminate; [reflexivity|].
  cbn [set_dims]. cbn in HL. rewrite IH by lia.
  destruct (Z.eqb_spec m UNLIMITED) as [E|E]; cbn [negb andb]; auto.
  destruct (Z.ltb_spec m n) as [L|L]; auto. destruct Hnm; [congruence|lia].
Qed.

(** ** One call *)
Lemma inv_n : forall e cfg cv s sp h n n' C ms grs, n <= n' -> inv e cfg cv s sp h n C ms grs -> inv e cfg cv s sp h n' C ms grs.
Proof.
  intros e cfg cv s sp h n n' C ms grs Hn I. constructor; try (apply I).
  - pose proof (v_meta _ _ _ _ _ _ _ _ _ _ I). lia.
  - pose proof (v_n _ _ _ _ _ _ _ _ _ _ I). lia.
Qed.

Lemma step_create : forall e cfg cv s sp h n C ms grs d, inv e cfg cv s sp h n C ms grs -> ok_create cfg d ->
  exists s', step e s (OCreate d) = Ok (s', []) /\
    inv e cfg cv s' (mkss (ss_sets sp ++ [d]) (ss_store sp) (ss_pend sp)) h n C ms grs.
Proof.
  intros e cfg cv s sp h n C ms grs d I (K1 & K2 & K3 & K4). cbn [step]. rewrite (v_cfg _ _ _ _ _ _ _ _ _ _ I).
  assert (HR : exists d', create_info cfg d = Ok d' /\ info_rep cfg (Some d') d).
  { unfold create_info. destruct (has cfg CFG_SEL_ENCODE) eqn:EC.
    - unfold di_ndim. destruct (Nat.eqb_spec (length (di_dims d)) 0) as [E|E].
      { exfalso. exact (K3 eq_refl (proj1 (length_zero_iff_nil _) E)). }
      eexists. split; [reflexivity|]. eexists. split; [reflexivity|]. cbn. repeat (split; auto).
    - exists d. split; auto. exists d. unfold info_ok. rewrite EC. repeat (split; auto); intros; congruence. }
  destruct HR as (d' & -> & HR). cbn [bind]. eexists. split; [reflexivity|].
  apply inv_table; auto; [apply geom_app|]. apply Forall2_app; [apply I|]. constructor; auto.
Qed.

Lemma step_extent : forall e cfg cv s sp h n C ms grs did dims, inv e cfg cv s sp h n C ms grs -> ok_extent sp did dims ->
  exists s', step e s (OSetExtent did dims) = Ok (s', []) /\
    inv e cfg cv s' (fst (sstep (e_coll e) sp (OSetExtent did dims))) h n C ms grs.
Proof.
  intros e cfg cv s sp h n C ms grs did dims I (d & K1 & K2 & K3). cbn [step sstep fst]. rewrite K1.
  destruct (set_of_info _ _ _ _ _ _ _ _ _ _ _ _ I K1) as (D0 & D1 & d' & D2 & D3 & D4 & D5 & D6 & D7 & (D8 & D8b & D8c) & D9 & D10).
  rewrite D3, (v_cfg _ _ _ _ _ _ _ _ _ _ I). unfold set_extent. rewrite D5, D6.
  rewrite set_dims_ok by auto. unfold di_ndim in K2.
  eexists. split; [reflexivity|].
  apply inv_table; auto.
  - eapply geom_upd; eauto; cbn; auto. unfold di_ndim. cbn. congruence.
  - apply Forall2_upd_nth; [apply I|]. eexists. split; [reflexivity|]. cbn. split; [auto|]. split; [auto|]. split; [auto|]. split; [auto|].
    split; [|split; auto].
    + split; auto. cbn. split; [congruence|]. intros ->. reflexivity.
    + intros HE Q. specialize (D10 HE). apply D10. apply length_zero_iff_nil. rewrite Q in K2. cbn in K2. congruence.
Qed.

Lemma recnum_small : forall sels M, Forall (fun b => hd 0 (b_start b) < M) sels -> 0 < M -> recnum_of sels < M.
Proof. intros [|b sels] M H Hm; cbn; [lia|]. exact (Forall_inv H). Qed.

Lemma ok_write_wr : forall e cfg cv d d' sels prev seen,
  di_esize d' = di_esize d -> di_dims d' = di_dims d -> di_mdims d' = di_mdims d -> info_ok cfg d' ->
  sels <> [] -> Forall (blk_fits (di_ndim d)) sels ->
  meta_bound (Z.of_nat (di_ndim d)) (Zlen sels) < 2 ^ 31 ->
  (has cfg CFG_SEL_ENCODE = true -> multi sels = true ->
     let dims := if is_rec d sels then tl (di_dims d) else di_dims d in
     (1 < length dims)%nat ->
     Forall (fun x => 0 <= x < 2 ^ 63) (dsteps_of dims) /\
     Forall (fun b => blk_encodable dims (if is_rec d sels then drop1 b else b)) sels) ->
  (has cfg CFG_METADATA_SHARE = true ->
     (has cfg CFG_SEL_ENCODE = true -> multi sels = true ->
      is_rec d sels = c_rec cv (di_ndim d) (length sels)) /\
     (e_kind e = KArray -> multi sels = true ->
      di_esize d = c_esize cv (if is_rec d sels then map drop1 sels else sels)) /\
     (e_kind e = KCompact -> is_rec d sels = true -> ~ In sels seen)) ->
  (forall a, In a prev -> In (a_sels a) seen) ->
  wr_ok (e_kind e) cfg (c_rec cv) (c_esize cv) d' sels prev.
Proof.
  intros e cfg cv d d' sels prev seen E1 E2 E3 HI Hne Hb Hm He Hs Hseen.
  assert (ER : is_rec d' sels = is_rec d sels) by (unfold is_rec; rewrite E3; reflexivity).
  assert (EN : di_ndim d' = di_ndim d) by (unfold di_ndim; rewrite E2; reflexivity).
  assert (Hl : 0 < Zlen sels) by (destruct sels; [congruence|]; rewrite Zlen_cons; pose proof (Zlen_nonneg _ sels); lia).
  unfold meta_bound in Hm.
  constructor; auto; rewrite ?ER, ?EN.
  - split; auto. nia.
  - revert Hb. apply Forall_impl. intros b (B1 & B2 & B3 & B4). unfold blk_ok. split; auto. split; auto.
    split; [revert B3|revert B4]; apply Forall_impl; unfold word; intros; lia.
  - change (Z.of_nat HDR) with 28. lia.
  - intros HE HM. rewrite E2. cbn zeta. intros HL2. specialize (He HE HM). cbn zeta in He.
    assert (Hsk : forall l : list Z, skipn (recd (is_rec d sels)) l = if is_rec d sels then tl l else l)
      by (intros l; destruct (is_rec d sels); cbn; destruct l; reflexivity).
    rewrite Hsk in *. destruct (He HL2) as [H1 H2]. split; auto. revert H2. apply Forall_impl.
    intros b [[Q1 Q2] [Q3 Q4]]. rewrite sel_encode_rm in Q2, Q4. rewrite !Hsk. destruct (is_rec d sels); auto.
  - intros HS. destruct (Hs HS) as (S1 & S2 & S3). rewrite E1. split; auto. split; auto.
    intros HK HR a Ha Q. apply (S3 HK HR). rewrite <- Q. apply Hseen. exact Ha.
Qed.

Lemma Forall2_seen : forall (grs : list grank) seens k gr seen sels gr',
  Forall2 (fun g seen => forall a, In a (map snd (gr_fl g) ++ gr_pd g) -> In (a_sels a) seen) grs seens ->
  nth_error grs k = Some gr -> nth_error seens k = Some seen ->
  (forall a, In a (map snd (gr_fl gr') ++ gr_pd gr') -> In a (map snd (gr_fl gr) ++ gr_pd gr) \/ a_sels a = sels) ->
  Forall2 (fun g seen => forall a, In a (map snd (gr_fl g) ++ gr_pd g) -> In (a_sels a) seen)
    (upd_nth k gr' grs) (upd_nth k (sels :: seen) seens).
Proof.
  intros grs seens k gr seen sels gr' H Hg Hs Hi. apply Forall2_upd_nth; auto.
  destruct (Forall2_nth_error _ _ _ _ _ _ _ H Hg) as (seen' & Q1 & Q2). assert (seen' = seen) by congruence. subst seen'.
  intros a Ha. destruct (Hi a Ha) as [B|B]; [right; auto|left; auto].
Qed.

Lemma upd_nth_flat_map : forall A B (f : A -> list B) l k x x', nth_error l k = Some x ->
  flat_map f l = flat_map f (firstn k l) ++ f x ++ flat_map f (skipn (S k) l) /\
  flat_map f (upd_nth k x' l) = flat_map f (firstn k l) ++ f x' ++ flat_map f (skipn (S k) l).
Proof.
  induction l as [|y l IH]; intros [|k] x x' H; cbn in H; try discriminate.
  - injection H as <-. cbn. auto.
  - destruct (IH k x x' H) as [I1 I2]. cbn [upd_nth flat_map firstn skipn]. cbn [skipn] in I1, I2. rewrite <- !app_assoc. split; congruence.
Qed.

Lemma Zsum_upd : forall l k x x', nth_error l k = Some x -> Zsum (upd_nth k x' l) = Zsum l - x + x'.
Proof.
  induction l as [|y l IH]; intros [|k] x x' H; cbn in H; try discriminate.
  - injection H as <-. unfold Zsum. cbn. lia.
  - unfold Zsum in *. cbn. rewrite (IH k x x' H). lia.
Qed.

Lemma Zsum_le : forall l k x, Forall (fun x => 0 <= x) l -> nth_error l k = Some x -> x <= Zsum l.
Proof.
  induction l as [|y l IH]; intros [|k] x HF H; cbn in H; try discriminate; inversion HF; subst.
  - injection H as <-. pose proof (Zsum_nonneg l ltac:(auto)). unfold Zsum in *. cbn. lia.
  - pose proof (IH k x ltac:(auto) H). unfold Zsum in *. cbn. lia.
Qed.

Lemma meta_len_nonneg : forall k cfg cv G st gr, rank_rep k cfg cv G st gr -> 0 <= meta_len st.
Proof.
  intros k cfg cv G st gr ([Q _ _] & _). destruct (qrep_bytes_len _ _ _ _ _ _ _ Q) as [E _]. unfold meta_len. rewrite <- E. apply Zlen_nonneg.
Qed.

(** The writes of each process after one more write. *)
Definition gwrite (rk : nat) (a : awr) (grs : list grank) : list grank :=
  match a_sels a, nth_error grs rk with
  | _ :: _, Some gr => upd_nth rk (mkgr (gr_fl gr) (gr_pd gr ++ [a])) grs
  | _, _ => grs
  end.
Lemma step_write : forall e cfg cv s sp h n C ms grs rk did sels data, inv e cfg cv s sp h n C ms grs ->
  ok_write e cfg cv sp h rk did sels data -> n < 2 ^ 30 ->
  exists s', step e s (OWrite rk did sels data) = Ok (s', []) /\
    inv e cfg cv s' (fst (sstep (e_coll e) sp (OWrite rk did sels data))) (hstep e sp h (OWrite rk did sels data)) (n + 1) C ms (gwrite rk (mkawr did sels data) grs).
Proof.
  intros e cfg cv s sp h n C ms grs rk did sels data I (seen & Hseen & Hw) Hn.
  assert (Hseen' : nth rk (hs_seen h) [] = seen) by (apply nth_error_nth; auto).
  destruct (Forall2_nth_error_r _ _ _ _ _ _ _ (v_seen _ _ _ _ _ _ _ _ _ _ I) Hseen) as (gr & Hgr & Hin).
  destruct (Forall2_nth_error_r _ _ _ _ _ _ _ (v_ranks _ _ _ _ _ _ _ _ _ _ I) Hgr) as (st & Hst & Hrep).
  cbn [step sstep fst hstep]. rewrite Hst, Hseen', (v_cfg _ _ _ _ _ _ _ _ _ _ I).
  destruct (list_eq_dec (fun a b : block => ltac:(decide equality; apply list_eq_dec, Z.eq_dec)) sels []) as [E|Hne].
  - subst sels. cbn [ds_write bind]. rewrite (upd_nth_same _ _ _ _ Hst). eexists. split; [reflexivity|]. change (gwrite rk (mkawr did [] data) grs) with grs.
    apply inv_n with (n := n); [lia|].
    constructor; cbn [s_g s_idx set_ranks g_cfg g_infos g_ranks g_file g_mdsets g_metadirty hs_hi hs_seen]; try (apply I).
    rewrite <- (upd_nth_same _ _ _ _ Hgr). eapply Forall2_seen; eauto; apply I.
  - destruct (Hw Hne) as (d & W1 & W2 & W3 & W4 & W5 & W6 & W7 & W8).
    destruct (set_of_info _ _ _ _ _ _ _ _ _ _ _ _ I W1) as (D0 & D1 & d' & D2 & D3 & D4 & D5 & D6 & D7 & D8 & D9 & D10).
    pose proof (ok_write_wr e cfg cv d d' sels _ seen D4 D5 D6 D8 Hne W3 W5 W6 W7 Hin) as HWR.
    pose proof Hrep as ([Q M H] & N & P).
    assert (Hmd : k_mdsize st < 2 ^ 62).
    { rewrite M. pose proof (v_meta _ _ _ _ _ _ _ _ _ _ I).
      assert (meta_len st <= Zsum (map meta_len (g_ranks (s_g s)))).
      { apply Zsum_le with (k := rk); [|rewrite nth_error_map, Hst; reflexivity].
        pose proof (v_ranks _ _ _ _ _ _ _ _ _ _ I) as HR. clear - HR. induction HR; cbn; constructor; auto. eapply meta_len_nonneg; eauto. }
      lia. }
    destruct (ds_write_ok (e_zlib e) (e_kind e) cfg (c_rec cv) (c_esize cv) (g_infos (s_g s)) st did sels data d' _
      (proj1 Hrep) D2 ltac:(lia) HWR Hmd) as (st' & w & R1 & R2 & R3 & R4 & R5).
    rewrite R1. cbn [bind].
    set (a := mkawr did sels data). set (gr' := mkgr (gr_fl gr) (gr_pd gr ++ [a])).
    exists (mksys (set_ranks (s_g s) (upd_nth rk st' (g_ranks (s_g s)))) (s_idx s)). split; [reflexivity|].
    assert (HW : gwrite rk a grs = upd_nth rk gr' grs) by (unfold gwrite, a, gr'; cbn [a_sels]; rewrite Hgr; destruct sels; [congruence|reflexivity]).
    rewrite HW. clear HW.
    assert (HG : geom (g_infos (s_g s)) did = Some (di_ndim d', di_esize d', unlim d')) by (unfold geom; rewrite D2; reflexivity).
    assert (EN : di_ndim d' = di_ndim d) by (unfold di_ndim; rewrite D5; reflexivity).
    assert (Ha : apok (e_kind e) (geom (g_infos (s_g s))) a).
    { unfold apok, wsmall, wbytes, ndim_of, esize_of, unlim_of. cbn [snd a a_did a_sels a_data]. rewrite HG.
      split; [split; [|destruct D8; auto]|].
      - rewrite EN. revert W3. apply Forall_impl. intros b (B1 & B2 & B3 & B4). unfold blk_small. auto.
      - split; auto. split; [rewrite D4; exact W4|]. intros HK HU. apply recnum_small; [|lia]. apply W8; auto.
        unfold unlim in HU. unfold has_unlimited. rewrite <- D6. exact HU. }
    assert (Hsp : match sels with [] => sp | _ :: _ => mkss (ss_sets sp) (ss_store sp) (upd_nth rk (nth rk (ss_pend sp) [] ++ [mkpw did sels data]) (ss_pend sp)) end =
                  mkss (ss_sets sp) (ss_store sp) (upd_nth rk (nth rk (ss_pend sp) [] ++ [mkpw did sels data]) (ss_pend sp)))
      by (destruct sels; [congruence|reflexivity]).
    rewrite Hsp. clear Hsp.
    assert (Hfl : flat_map gr_fl (upd_nth rk gr' grs) = flat_map gr_fl grs).
    { destruct (upd_nth_flat_map _ _ gr_fl grs rk gr gr' Hgr) as [U1 U2]. rewrite U1, U2. reflexivity. }
    constructor; cbn [s_g s_idx set_ranks g_cfg g_infos g_ranks g_file g_mdsets g_metadirty hs_hi hs_seen ss_sets ss_store ss_pend]; try (apply I).
    + apply Forall2_upd_nth; [apply I|]. split; [|split].
      * cbn [gr_fl gr_pd gr']. rewrite app_assoc. exact R5.
      * rewrite R3. exact N.
      * unfold flushed in *. rewrite R2, R3. cbn [gr_fl gr'].
        pose proof (rank_split _ _ _ _ _ _ Hrep) as (_ & _ & _ & _ & _ & NP & _). unfold num_pending in NP.
        pose proof (qrep_length _ _ _ _ _ _ _ Q) as QL. rewrite app_length, map_length in QL.
        rewrite firstn_app. replace (k_nflushed st - length (k_wreqs st))%nat with 0%nat by (unfold pwr in *; lia).
        cbn [firstn]. rewrite app_nil_r. exact P.
    + rewrite map_upd_nth. cbn [gr' gr_pd]. rewrite map_app. cbn [map pw_of a a_did a_sels a_data].
      rewrite (v_pend _ _ _ _ _ _ _ _ _ _ I). f_equal. f_equal.
      apply nth_error_nth. rewrite nth_error_map, Hgr. reflexivity.
    + rewrite Hfl. apply I.
    + rewrite Hfl. apply I.
    + unfold all_pd. destruct (upd_nth_flat_map _ _ gr_pd grs rk gr gr' Hgr) as [U1 U2]. rewrite U2.
      pose proof (v_pok _ _ _ _ _ _ _ _ _ _ I) as HP. unfold all_pd in HP. rewrite U1 in HP. rewrite !Forall_app in *. cbn [gr' gr_pd]. rewrite Forall_app.
      repeat split; try tauto. constructor; auto.
    + eapply Forall2_seen; eauto; [apply I|]. intros x Hx. cbn [gr' gr_fl gr_pd] in Hx. rewrite app_assoc in Hx. apply in_app_or in Hx.
      destruct Hx as [Hx|[<-|[]]]; auto.
    + rewrite map_upd_nth. rewrite (Zsum_upd _ _ (meta_len st)) by (rewrite nth_error_map, Hst; reflexivity).
      assert (Hml : meta_len st' <= meta_len st + 2 ^ 31).
      { unfold meta_len. rewrite R2, map_app, Zsum_app. unfold Zsum at 2. cbn [map fold_right].
        unfold meta_bound in W5. change (Z.of_nat HDR) with 28 in R4. rewrite EN in R4. lia. }
      pose proof (v_meta _ _ _ _ _ _ _ _ _ _ I). lia.
    + pose proof (v_n _ _ _ _ _ _ _ _ _ _ I). lia.
    + rewrite upd_nth_length. apply I.
Qed.

Lemma read_each_ok : forall e cfg cv s sp h n C ms grs, inv e cfg cv s sp h n C ms grs ->
  is_sort (e_sort e) -> flat_map gr_fl grs = [] -> (e_limit e <> None -> C <> []) ->
  forall calls idx, Forall (ok_call e sp) calls ->
  (forall i, idx = Some i -> kind_of i = e_kind e /\ idx_rep (geom (g_infos (s_g s))) i (entries ms)) ->
  exists idx', read_each e (s_g s) idx calls = Ok (map (sread sp) calls, idx') /\
    (forall i, idx' = Some i -> kind_of i = e_kind e /\ idx_rep (geom (g_infos (s_g s))) i (entries ms)).
Proof.
  intros e cfg cv s sp h n C ms grs I Hsort Hfl Hlim. induction calls as [|c calls IH]; intros idx HF Hidx.
  - exists idx. split; auto.
  - inversion HF as [|? ? H1 H2]; subst. cbn [read_each map].
    assert (HR : exists idx1, read_one e (s_g s) idx c = Ok (sread sp c, idx1) /\
      (forall i, idx1 = Some i -> kind_of i = e_kind e /\ idx_rep (geom (g_infos (s_g s))) i (entries ms))).
    { destruct H1 as (Hne & d & W1 & W2 & W3 & W4 & W5).
        destruct (set_of_info _ _ _ _ _ _ _ _ _ _ _ _ I W1) as (D0 & D1 & d' & D2 & D3 & D4 & D5 & D6 & D7 & D8 & D9 & D10).
        assert (EN : di_ndim d' = di_ndim d) by (unfold di_ndim; rewrite D5; reflexivity).
        pose proof (v_perm _ _ _ _ _ _ _ _ _ _ I) as HP. rewrite Hfl, app_nil_r in HP.
        pose proof (clog_intro _ _ _ (v_ok _ _ _ _ _ _ _ _ _ _ I) (v_ord _ _ _ _ _ _ _ _ _ _ I)) as HC.
        destruct (read_one_ok e (s_g s) C ms (ss_sets sp) Hsort HC HP (v_md _ _ _ _ _ _ _ _ _ _ I) (v_mdok _ _ _ _ _ _ _ _ _ _ I)) with (cached := idx) (d := d') (c := c)
          as (c' & R1 & R2); auto; rewrite ?EN, ?D4; auto.
        + rewrite (v_cfg _ _ _ _ _ _ _ _ _ _ I). apply I.
        + apply I.
        + intros p Hp. pose proof (proj1 (Forall_forall _ _) (v_ok _ _ _ _ _ _ _ _ _ _ I) p Hp) as ((_ & W) & _). cbn [snd] in W.
          apply (esize_in_geom cfg); auto. apply I.
        + intros HK. pose proof (v_ok _ _ _ _ _ _ _ _ _ _ I) as HX. revert HX. apply Forall_impl. intros p (_ & _ & _ & W). auto.
        + destruct D8; lia.
        + intros HK HU. apply W5; auto. unfold unlim in HU. unfold has_unlimited. rewrite <- D6. exact HU.
        + exists c'. split; auto. rewrite R1. do 2 f_equal. unfold sread. rewrite W1, (v_store _ _ _ _ _ _ _ _ _ _ I). do 2 f_equal.
          unfold read_dflt, xdflt. rewrite D4, D7. reflexivity. }
    destruct HR as (idx1 & R1 & R2). rewrite R1. cbn [bind fst snd].
    destruct (IH idx1 H2 R2) as (idx2 & Q1 & Q2). rewrite Q1. cbn [bind fst snd]. exists idx2. auto.
Qed.

Definition glog (ms : list (list (list wreq * list pwr))) (grs : list grank) := (map (map snd) ms, grs).
Definition glog_step (coll : bool) (l : list (list (list pwr)) * list grank) (o : op) : list (list (list pwr)) * list grank :=
  match o with
  | OWrite rk did sels data => (fst l, gwrite rk (mkawr did sels data) (snd l))
  | OFlush doff => (fst l, gflush doff (snd l))
  | ORead doff _ => let g := if coll then gflush doff (snd l) else snd l in (gmeta g (fst l), gcleared g)
  | OReopen doff np => (gmeta (gflush doff (snd l)) (fst l), repeat (mkgr [] []) np)
  | _ => l
  end.
Lemma step_read : forall e cfg cv s sp h n C ms grs doff calls, inv e cfg cv s sp h n C ms grs ->
  is_sort (e_sort e) -> ok_read e sp h doff calls -> n <= 2 ^ 30 ->
  exists s' C' ms' grs', step e s (ORead doff calls) = Ok (s', snd (sstep (e_coll e) sp (ORead doff calls))) /\
    inv e cfg cv s' (fst (sstep (e_coll e) sp (ORead doff calls))) (hstep e sp h (ORead doff calls)) n C' ms' grs' /\
    glog ms' grs' = glog_step (e_coll e) (glog ms grs) (ORead doff calls).
Proof.
  intros e cfg cv s sp h n C ms grs doff calls I Hsort (K1 & K2 & _ & K3) Hn.
  pose proof (inv_pend _ _ _ _ _ _ _ _ _ _ I) as (P1 & P2 & P3).
  assert (HF : exists C1 grs1, inv e cfg cv (mksys (if e_coll e && any_pending (s_g s) then flush_writes doff (s_g s) else s_g s) (s_idx s))
     (if e_coll e then sflush sp else sp) (if e_coll e then hflush sp h doff else h) n C1 ms grs1 /\ all_pd grs1 = [] /\
     grs1 = (if e_coll e then gflush doff grs else grs)).
  { destruct (e_coll e); cbn [andb].
    - destruct (inv_flush_log _ _ _ _ _ _ _ _ _ _ doff I K1) as [C1 I1]. exists C1, (gflush doff grs). split; auto. split; auto. apply gflush_all_pd.
    - exists C, grs. split; [destruct s; exact I|]. split; auto. rewrite P2 in K1. destruct (all_pd grs); [reflexivity|discriminate]. }
  destruct HF as (C1 & grs1 & I1 & A1 & G1).
  set (g1 := if e_coll e && any_pending (s_g s) then flush_writes doff (s_g s) else s_g s) in *.
  set (sp1 := if e_coll e then sflush sp else sp) in *. set (h1 := if e_coll e then hflush sp h doff else h) in *.
  destruct (inv_metaflush_log _ _ _ _ _ _ _ _ _ _ I1 A1 Hn) as (ms2 & I2 & A2). cbn [s_g s_idx] in I2. set (grs2 := gcleared grs1) in *.
  assert (F2 : flat_map gr_fl grs2 = []) by (unfold grs2, gcleared; clear; induction grs1; auto).
  set (g2 := if g_metadirty g1 then metaflush g1 else g1) in *. set (idx2 := if g_metadirty g1 then None else s_idx s) in *.
  assert (Hcalls : Forall (ok_call e sp1) calls).
  { eapply Forall_impl; [|exact K3]. intros c (Hne & d & Q). split; auto. exists d. unfold sp1, set_of in *. destruct (e_coll e); exact Q. }
  assert (Hlim : e_limit e <> None -> C1 <> []).
  { intros Hl. apply (v_hi1 _ _ _ _ _ _ _ _ _ _ I1). destruct (K2 Hl) as [Hh|Hp].
    - unfold h1. destruct (e_coll e); auto. unfold hflush. destruct (Z.eqb_spec (pend_bytes sp) 0); auto. cbn [hs_hi].
      unfold ok_flush in K1. pose proof (v_hi0 _ _ _ _ _ _ _ _ _ _ I). pose proof (abytes_nonneg (all_pd grs)). lia.
    - unfold h1. destruct (e_coll e); [|congruence]. unfold hflush. rewrite P1. rewrite P2 in Hp.
      assert (Hne : all_pd grs <> []) by (intros Q; rewrite Q in Hp; apply Hp; reflexivity).
      pose proof (abytes_pos _ _ _ (v_pok _ _ _ _ _ _ _ _ _ _ I) Hne). destruct (Z.eqb_spec (abytes (all_pd grs)) 0); [lia|]. cbn [hs_hi].
      unfold ok_flush in K1. rewrite P1 in K1. pose proof (v_hi0 _ _ _ _ _ _ _ _ _ _ I). lia. }
  destruct (read_each_ok _ _ _ _ _ _ _ _ _ _ I2 Hsort F2 Hlim calls idx2 Hcalls (v_idx _ _ _ _ _ _ _ _ _ _ I2)) as (idx3 & R1 & R2).
  cbn [s_g] in R1, R2.
  cbn [step sstep fst snd hstep]. fold g1. fold g2. fold idx2. fold sp1. fold h1. rewrite R1. cbn [bind fst snd].
  exists (mksys g2 idx3), C1, ms2, grs2. split; [reflexivity|]. split.
  - constructor; cbn [s_g s_idx]; try (apply I2). exact R2.
  - unfold glog. cbn [glog_step fst snd]. unfold grs2. rewrite A2, G1. reflexivity.
Qed.

Lemma flush_noop : forall e cfg cv s sp h n C ms grs doff, inv e cfg cv s sp h n C ms grs ->
  flush_writes doff (s_g s) = (if any_pending (s_g s) then flush_writes doff (s_g s) else s_g s).
Proof.
  intros e cfg cv s sp h n C ms grs doff I. pose proof (inv_pend _ _ _ _ _ _ _ _ _ _ I) as (P1 & P2 & P3). rewrite P3.
  destruct (Nat.eqb_spec (length (all_pd grs)) 0) as [E|E]; cbn [negb]; [|reflexivity].
  apply length_zero_iff_nil in E.
  pose proof (sizes_eq _ _ _ _ _ _ (v_ranks _ _ _ _ _ _ _ _ _ _ I)) as (Z1 & Z2 & Z3).
  unfold flush_writes. rewrite Z1, abytes_all, E. cbn [abytes map Zsum fold_right Z.eqb].
  pose proof (v_ranks _ _ _ _ _ _ _ _ _ _ I) as HR.
  assert (HM : map rank_assign (g_ranks (s_g s)) = g_ranks (s_g s)).
  { unfold all_pd in E. clear - HR E. induction HR as [|st gr l l' H1 H2 IH]; [reflexivity|].
    cbn [flat_map] in E. apply app_eq_nil in E. destruct E as [E1 E2]. cbn [map]. rewrite IH by auto. f_equal.
    pose proof (rank_split _ _ _ _ _ _ H1) as (_ & _ & _ & _ & _ & NP & _). rewrite E1 in NP. cbn in NP. unfold num_pending in NP.
    unfold rank_assign, flushed, unflushed. rewrite skipn_all2 by lia. rewrite firstn_all2 by lia. cbn. rewrite app_nil_r. destruct st; reflexivity. }
  rewrite HM. destruct (s_g s); reflexivity.
Qed.

Lemma metaflush_clean : forall e cfg cv s sp h n C ms grs, inv e cfg cv s sp h n C ms grs -> all_pd grs = [] ->
  g_metadirty (s_g s) = false -> g_mdsets (metaflush (s_g s)) = g_mdsets (s_g s).
Proof.
  intros e cfg cv s sp h n C ms grs I Hp Hd. pose proof (v_dirty _ _ _ _ _ _ _ _ _ _ I Hd) as Hf. unfold metaflush. cbn [g_mdsets].
  pose proof (v_ranks _ _ _ _ _ _ _ _ _ _ I) as HR.
  assert (HM : Zsum (map meta_len (g_ranks (s_g s))) = 0).
  { unfold all_pd in Hp. clear - HR Hp Hf. induction HR as [|st gr l l' H1 H2 IH]; [reflexivity|].
    cbn [flat_map] in Hp, Hf. apply app_eq_nil in Hp, Hf. destruct Hp as [E1 E2], Hf as [F1 F2]. cbn [map Zsum fold_right]. unfold Zsum in IH. rewrite IH by auto.
    destruct H1 as ([Q M H] & _). apply qrep_length in Q. rewrite E1, F1 in Q. unfold meta_len. destruct (k_wreqs st); [reflexivity|discriminate]. }
  assert (HS : Zsum (meta_sizes (g_ranks (s_g s))) = 8 * (Zlen (g_ranks (s_g s)) + 1) + Zsum (map meta_len (g_ranks (s_g s)))).
  { pose proof (v_np _ _ _ _ _ _ _ _ _ _ I) as [N1 _]. pose proof (Forall2_length _ _ _ _ _ HR) as HL.
    unfold meta_sizes. destruct (g_ranks (s_g s)) as [|r rs]; [cbn in HL; lia|]. cbn [map Zsum fold_right]. lia. }
  rewrite HS, HM. destruct (Z.ltb_spec (8 * (Zlen (g_ranks (s_g s)) + 1)) (8 * (Zlen (g_ranks (s_g s)) + 1) + 0)); [lia|reflexivity].
Qed.

Lemma reopen_infos_ok : forall cfg infos sets, Forall2 (info_rep cfg) infos sets ->
  exists infos', reopen_infos cfg infos = Ok infos' /\ Forall2 (info_rep cfg) infos' sets /\ geom_le (geom infos) (geom infos').
Proof.
  intros cfg infos sets H. assert (G : exists infos', reopen_infos cfg infos = Ok infos' /\ Forall2 (info_rep cfg) infos' sets /\
    map (option_map (fun d => (di_ndim d, di_esize d, unlim d))) infos' = map (option_map (fun d => (di_ndim d, di_esize d, unlim d))) infos).
  { induction H as [|o d l l' H1 H2 IH]; [exists []; auto|]. destruct IH as (i2 & J1 & J2 & J3).
    destruct H1 as (d' & -> & K1 & K2 & K3 & K4 & K5 & K6 & K7). cbn [reopen_infos]. unfold create_info.
    destruct (has cfg CFG_SEL_ENCODE) eqn:Ee.
    - unfold di_ndim. rewrite K2. destruct (Nat.eqb_spec (length (di_dims d)) 0) as [E0|E0]; [exfalso; apply (K7 eq_refl), length_zero_iff_nil; exact E0|].
      cbn [bind]. rewrite J1. cbn [bind]. eexists. split; [reflexivity|]. split.
      + constructor; auto. eexists. split; [reflexivity|]. cbn [di_esize di_dims di_mdims di_fill]. destruct K5 as (O1 & O2 & O3).
        split; auto. split; auto. split; auto. split; auto. split; [|split; auto].
        unfold info_ok. cbn [di_esize di_dims di_mdims di_dsteps]. rewrite K2 in *. auto.
      + cbn [map option_map]. unfold di_ndim in J3. rewrite J3. unfold di_ndim, unlim. cbn [di_dims di_mdims di_esize]. rewrite K2. reflexivity.
    - cbn [bind]. rewrite J1. cbn [bind]. eexists. split; [reflexivity|]. split; [|cbn [map]; rewrite J3; reflexivity].
      constructor; auto. exists d'. rewrite Ee. auto 10. }
  destruct G as (infos' & G1 & G2 & G3). exists infos'. split; auto. split; auto.
  assert (HG : forall l did, geom l did = match nth_error (map (option_map (fun d => (di_ndim d, di_esize d, unlim d))) l) (Z.to_nat did) with Some (Some x) => Some x | _ => None end).
  { intros l did. unfold geom. rewrite nth_error_map. destruct (nth_error l (Z.to_nat did)) as [[]|]; reflexivity. }
  intros did g Hg. rewrite HG in *. rewrite G3. exact Hg.
Qed.

Lemma ranks_init : forall k cfg cv G np, Forall2 (rank_rep k cfg cv G) (repeat rank0 np) (repeat (mkgr [] []) np).
Proof.
  induction np; cbn; constructor; auto. unfold rank_rep. cbn [gr_fl gr_pd map app]. split; [apply rinv0|]. split; [reflexivity|]. constructor.
Qed.
Lemma init_fl : forall np, flat_map gr_fl (repeat (mkgr [] []) np) = [].
Proof. induction np; auto. Qed.
Lemma init_pd : forall np, all_pd (repeat (mkgr [] []) np) = [].
Proof. unfold all_pd. induction np; auto. Qed.
Lemma init_pend : forall np, map (fun g => map pw_of (gr_pd g)) (repeat (mkgr [] []) np) = repeat [] np.
Proof. induction np; cbn; congruence. Qed.
Lemma init_seen : forall np, Forall2 (fun (g : grank) (seen : list (list block)) => forall a, In a (map snd (gr_fl g) ++ gr_pd g) -> In (a_sels a) seen) (repeat (mkgr [] []) np) (repeat [] np).
Proof. induction np; cbn; constructor; auto. Qed.
Lemma init_meta : forall np, Zsum (map meta_len (repeat rank0 np)) = 0.
Proof. induction np; [reflexivity|]. cbn [repeat map Zsum fold_right]. unfold Zsum in IHnp. rewrite IHnp. reflexivity. Qed.

Lemma step_reopen : forall e cfg cv s sp h n C ms grs doff np, inv e cfg cv s sp h n C ms grs ->
  ok_reopen sp h doff np -> n <= 2 ^ 30 ->
  exists s' C' ms' grs', step e s (OReopen doff np) = Ok (s', []) /\
    inv e cfg cv s' (fst (sstep (e_coll e) sp (OReopen doff np))) (hstep e sp h (OReopen doff np)) n C' ms' grs' /\
    glog ms' grs' = glog_step (e_coll e) (glog ms grs) (OReopen doff np).
Proof.
  intros e cfg cv s sp h n C ms grs doff np I (N1 & N2 & Hf) Hn.
  destruct (inv_flush_log _ _ _ _ _ _ _ _ _ _ doff I Hf) as (C1 & I1). set (grs1 := gflush doff grs) in *.
  assert (A1 : all_pd grs1 = []) by apply gflush_all_pd.
  destruct (inv_metaflush_log _ _ _ _ _ _ _ _ _ _ I1 A1 Hn) as (ms2 & I2 & A2). set (grs2 := gcleared grs1) in *.
  assert (F2 : flat_map gr_fl grs2 = []) by (unfold grs2, gcleared; clear; induction grs1; auto).
  rewrite <- (flush_noop _ _ _ _ _ _ _ _ _ _ doff I) in I1, I2. cbn [s_g s_idx] in I2.
  set (g1 := flush_writes doff (s_g s)) in *.
  assert (HM : g_mdsets (metaflush g1) = g_mdsets (if g_metadirty g1 then metaflush g1 else g1)).
  { destruct (g_metadirty g1) eqn:Ed; [reflexivity|]. apply (metaflush_clean _ _ _ _ _ _ _ _ _ _ I1 A1 Ed). }
  assert (HF : g_file (metaflush g1) = g_file (if g_metadirty g1 then metaflush g1 else g1)) by (destruct (g_metadirty g1); reflexivity).
  assert (HI : g_infos (if g_metadirty g1 then metaflush g1 else g1) = g_infos (s_g s)).
  { unfold g1. destruct (g_metadirty _); unfold metaflush, flush_writes; cbn [g_infos]; match goal with |- context [if ?b then _ else _] => destruct b; reflexivity end. }
  assert (HC : g_cfg (s_g s) = cfg) by apply I.
  destruct (reopen_infos_ok cfg _ _ (v_infos _ _ _ _ _ _ _ _ _ _ I)) as (infos' & J1 & J2 & J3).
  pose proof (inv_table _ _ _ _ _ _ _ _ _ _ infos' (ss_sets sp) I2) as I3. cbn [s_g s_idx] in I3. rewrite HI in I3. specialize (I3 J3 J2).
  cbn [step sstep fst snd hstep]. fold g1. unfold close_file. fold g1. rewrite HC, J1. cbn [bind].
  eexists. exists C1, ms2, (repeat (mkgr [] []) np). split; [reflexivity|].
  split; [|unfold glog; cbn [glog_step fst snd]; rewrite A2; reflexivity].
  set (g2 := if g_metadirty g1 then metaflush g1 else g1) in *.
  constructor; cbn [s_g s_idx g_cfg g_infos g_ranks g_file g_mdsets g_metadirty ss_sets ss_store ss_pend hs_hi hs_seen]; rewrite ?HM, ?HF, ?init_fl, ?init_pd, ?init_pend, ?init_meta, ?repeat_length; auto.
  - apply ranks_init.
  - apply I2.
  - apply I2.
  - apply (v_secs _ _ _ _ _ _ _ _ _ _ I3).
  - pose proof (v_perm _ _ _ _ _ _ _ _ _ _ I2) as HP. rewrite F2 in HP. exact HP.
  - apply (v_ok _ _ _ _ _ _ _ _ _ _ I3).
  - apply (v_ord _ _ _ _ _ _ _ _ _ _ I3).
  - apply (v_hi _ _ _ _ _ _ _ _ _ _ I3).
  - apply (v_hi0 _ _ _ _ _ _ _ _ _ _ I3).
  - apply (v_hi1 _ _ _ _ _ _ _ _ _ _ I3).
  - apply (v_file _ _ _ _ _ _ _ _ _ _ I2).
  - apply (v_store _ _ _ _ _ _ _ _ _ _ I2).
  - discriminate.
  - apply init_seen.
  - pose proof (v_n _ _ _ _ _ _ _ _ _ _ I). lia.
  - apply (v_n _ _ _ _ _ _ _ _ _ _ I).
Qed.

Lemma step_ok_log : forall e cfg cv s sp h n C ms grs o, inv e cfg cv s sp h n C ms grs ->
  is_sort (e_sort e) -> ok_op e cfg cv sp h o -> n < 2 ^ 30 ->
  exists s' C' ms' grs', step e s o = Ok (s', snd (sstep (e_coll e) sp o)) /\
    inv e cfg cv s' (fst (sstep (e_coll e) sp o)) (hstep e sp h o) (n + 1) C' ms' grs' /\
    glog ms' grs' = glog_step (e_coll e) (glog ms grs) o.
Proof.
  intros e cfg cv s sp h n C ms grs o I Hsort Hok Hn. destruct o; cbn [ok_op] in Hok.
  - destruct (step_create _ _ _ _ _ _ _ _ _ _ d I Hok) as (s' & S1 & S2). exists s', C, ms, grs. split; auto. split; [|reflexivity]. apply inv_n with (n := n); [lia|]. exact S2.
  - destruct (step_extent _ _ _ _ _ _ _ _ _ _ did dims I Hok) as (s' & S1 & S2). exists s', C, ms, grs. split; auto. split; [|reflexivity]. apply inv_n with (n := n); [lia|]. exact S2.
  - destruct (step_write _ _ _ _ _ _ _ _ _ _ rk did sels data I Hok Hn) as (s' & S1 & S2). eexists s', C, ms, _. split; auto. split; [exact S2|reflexivity].
  - destruct (inv_flush_log _ _ _ _ _ _ _ _ _ _ doff I Hok) as (C' & S1). eexists. eexists C', ms, _. split; [reflexivity|].
    split; [|reflexivity]. apply inv_n with (n := n); [lia|]. exact S1.
  - destruct (step_read _ _ _ _ _ _ _ _ _ _ doff calls I Hsort Hok ltac:(lia)) as (s' & C' & ms' & grs' & S1 & S2 & S3).
    exists s', C', ms', grs'. split; auto. split; [|exact S3]. apply inv_n with (n := n); [lia|]. exact S2.
  - destruct (step_reopen _ _ _ _ _ _ _ _ _ _ doff np I Hok ltac:(lia)) as (s' & C' & ms' & grs' & S1 & S2 & S3).
    exists s', C', ms', grs'. split; auto. split; [|exact S3]. apply inv_n with (n := n); [lia|]. exact S2.
Qed.

Lemma step_ok : forall e cfg cv s sp h n C ms grs o, inv e cfg cv s sp h n C ms grs ->
  is_sort (e_sort e) -> ok_op e cfg cv sp h o -> n < 2 ^ 30 ->
  exists s' C' ms' grs', step e s o = Ok (s', snd (sstep (e_coll e) sp o)) /\
    inv e cfg cv s' (fst (sstep (e_coll e) sp o)) (hstep e sp h o) (n + 1) C' ms' grs'.
Proof.
  intros. destruct (step_ok_log e cfg cv s sp h n C ms grs o) as (s' & C' & ms' & grs' & S1 & S2 & _); auto. exists s', C', ms', grs'. auto.
Qed.

Lemma run_ok_log : forall e cfg cv ops s sp h n C ms grs, inv e cfg cv s sp h n C ms grs ->
  is_sort (e_sort e) -> ok_run e cfg cv sp h ops -> n + Z.of_nat (length ops) < 2 ^ 30 ->
  exists s' C' ms' grs' h', run e s ops = Ok (s', snd (srun (e_coll e) sp ops)) /\
    inv e cfg cv s' (fst (srun (e_coll e) sp ops)) h' (n + Z.of_nat (length ops)) C' ms' grs' /\
    glog ms' grs' = fold_left (glog_step (e_coll e)) ops (glog ms grs).
Proof.
  intros e cfg cv ops. induction ops as [|o ops IH]; intros s sp h n C ms grs I Hsort Hok Hn.
  - exists s, C, ms, grs, h. split; auto. cbn. rewrite Z.add_0_r. auto.
  - destruct Hok as [H1 H2]. cbn [length] in Hn.
    destruct (step_ok_log _ _ _ _ _ _ _ _ _ _ o I Hsort H1 ltac:(lia)) as (s1 & C1 & ms1 & grs1 & S1 & S2 & S3).
    destruct (IH _ _ _ _ _ _ _ S2 Hsort H2 ltac:(lia)) as (s' & C' & ms' & grs' & h' & R1 & R2 & R3).
    exists s', C', ms', grs', h'. cbn [run srun]. rewrite S1. cbn [bind fst snd]. rewrite R1. cbn [bind fst snd fold_left].
    rewrite <- S3.
    destruct (sstep (e_coll e) sp o) as [sp1 out]. cbn [fst snd] in *. destruct (srun (e_coll e) sp1 ops) as [sp2 outs]. cbn [fst snd] in *.
    split; auto. cbn [length]. replace (n + Z.of_nat (S (length ops))) with (n + 1 + Z.of_nat (length ops)) by lia. auto.
Qed.

Lemma run_ok : forall e cfg cv ops s sp h n C ms grs, inv e cfg cv s sp h n C ms grs ->
  is_sort (e_sort e) -> ok_run e cfg cv sp h ops -> n + Z.of_nat (length ops) < 2 ^ 30 ->
  exists s' C' ms' grs' h', run e s ops = Ok (s', snd (srun (e_coll e) sp ops)) /\
    inv e cfg cv s' (fst (srun (e_coll e) sp ops)) h' (n + Z.of_nat (length ops)) C' ms' grs'.
Proof.
  intros. destruct (run_ok_log e cfg cv ops s sp h n C ms grs) as (s' & C' & ms' & grs' & h' & R1 & R2 & _); auto. exists s', C', ms', grs', h'. auto.
Qed.

Lemma inv_init : forall e cfg cv np f0, (0 < np)%nat -> Z.of_nat np < 2 ^ 31 ->
  inv e cfg cv (init cfg np f0) (sinit np) (mkhs 0 (repeat [] np)) 0 [] [] (repeat (mkgr [] []) np).
Proof.
  intros e cfg cv np f0 H1 H2.
  constructor; unfold init, sinit; cbn [s_g s_idx g_cfg g_infos g_ranks g_file g_mdsets g_metadirty hs_hi hs_seen ss_sets ss_store ss_pend];
    rewrite ?init_fl, ?init_pd, ?init_pend, ?init_meta, ?repeat_length; try constructor; try discriminate; try congruence; try lia.
  - apply ranks_init.
  - apply init_seen.
Qed.

(** The refinement theorem. *)
Theorem run_spec : forall e cfg cv np f0 ops, ok_history e cfg cv np ops ->
  exists s, run e (init cfg np f0) ops = Ok (s, snd (srun (e_coll e) (sinit np) ops)).
Proof.
  intros e cfg cv np f0 ops (_ & H1 & H2 & H3 & H4 & H5).
  destruct (run_ok e cfg cv ops _ _ _ _ _ _ _ (inv_init e cfg cv np f0 H1 H2) H4 H5 ltac:(lia)) as (s' & _ & _ & _ & _ & R & _).
  exists s'. exact R.
Qed.
