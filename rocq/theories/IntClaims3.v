(** Lemmas behind P_Int.v, continued: files that differ only in the data of requests already
    written return the same from every call. *)
From Coq Require Import ZifyNat ZifyN.
From Verif Require Import Base BaseProofs Spec MetaModel QueueModel FlushModel IndexModel ReadModel SysModel
  AnySpec IntModel IntSpec IntClaims IntClaims2.

Lemma Forall2_lens : forall A B (R : A -> B -> Prop) a b, Forall2 R a b -> length a = length b.
Proof. intros A B R a b H. induction H; cbn; auto. Qed.

Definition but_data (w w' : wreq) : Prop := w_hdr w = w_hdr w' /\ w_body w = w_body w' /\ w_selpos w = w_selpos w' /\ w_metaoff w = w_metaoff w'.
(** Equal but for the data of the requests; [like]: pending requests equal altogether. *)
Definition akin (st st' : rank) : Prop :=
  Forall2 but_data (k_wreqs st) (k_wreqs st') /\ k_nflushed st = k_nflushed st' /\ k_mdsize st = k_mdsize st' /\ k_hash st = k_hash st' /\ k_zbsize st = k_zbsize st' /\
  (k_nflushed st <= length (k_wreqs st))%nat.
Definition like (st st' : rank) : Prop := akin st st' /\ unflushed st = unflushed st'.
Definition like_g (g g' : gfile) : Prop :=
  g_cfg g = g_cfg g' /\ g_infos g = g_infos g' /\ g_mdsets g = g_mdsets g' /\ g_nldset g = g_nldset g' /\ g_metadirty g = g_metadirty g' /\
  (forall x, g_file g x = g_file g' x) /\ Forall2 like (g_ranks g) (g_ranks g').
Definition like_s (s s' : sys) : Prop := like_g (s_g s) (s_g s') /\ s_idx s = s_idx s'.

Lemma akin_len : forall st st', akin st st' -> length (k_wreqs st) = length (k_wreqs st').
Proof. intros st st' (A & _). eapply Forall2_lens; eauto. Qed.
Lemma but_refl : forall l, Forall2 but_data l l.
Proof. induction l; constructor; auto. unfold but_data. auto. Qed.
Lemma like_refl : forall st, (k_nflushed st <= length (k_wreqs st))%nat -> like st st.
Proof. intros. unfold like, akin. repeat split; auto. apply but_refl. Qed.

(** *** Reading *)
Lemma put_same : forall f g off bs x, (forall y, f y = g y) -> put f off bs x = put g off bs x.
Proof. intros. unfold put. destruct (_ && _); auto. Qed.
Lemma mpi_read_same : forall f f' ps m, (forall x, f x = f' x) -> mpi_read f m ps = mpi_read f' m ps.
Proof. intros f f' ps m H. unfold mpi_read. revert m. induction ps as [|p ps IH]; intros m; cbn [fold_left]; auto. rewrite H. apply IH. Qed.
Lemma read_one_same : forall e g g' idx c, g_cfg g = g_cfg g' -> g_infos g = g_infos g' -> g_mdsets g = g_mdsets g' -> (forall x, g_file g x = g_file g' x) ->
  read_one e g idx c = read_one e g' idx c.
Proof.
  intros e g g' idx c H1 H2 H3 H4. unfold read_one. rewrite H1, H2, H3. destruct (rc_sels c); auto. destruct (info_at _ _) as [[dip|]|]; auto.
  destruct (read_search _ _ _ _ _ _ _ _) as [p| |]; cbn [bind]; auto. do 2 f_equal. f_equal. unfold perform_read. destruct (gen_rtypes _ _) as [ps cs]. rewrite (mpi_read_same _ _ _ _ H4). reflexivity.
Qed.
Lemma read_each_same : forall e g g' cs idx, g_cfg g = g_cfg g' -> g_infos g = g_infos g' -> g_mdsets g = g_mdsets g' -> (forall x, g_file g x = g_file g' x) ->
  read_each e g idx cs = read_each e g' idx cs.
Proof.
  intros e g g' cs idx H1 H2 H3 H4. revert idx. induction cs as [|c cs IH]; intros idx; cbn [read_each]; auto. rewrite (read_one_same e g g') by auto.
  destruct (read_one e g' idx c) as [p| |]; cbn [bind]; auto. rewrite IH. reflexivity.
Qed.

(** *** Writing *)
Lemma finish_same : forall z cfg st st' r, k_hash st = k_hash st' -> k_mdsize st = k_mdsize st' -> k_zbsize st = k_zbsize st' -> finish_meta z cfg st r = finish_meta z cfg st' r.
Proof. intros z cfg st st' r H1 H2 H3. unfold finish_meta, dedup. rewrite H1, H2, H3. reflexivity. Qed.
(** The same write with the same amount of data. *)
Lemma akin_write : forall z cfg infos st st' did sels data data', akin st st' -> Zlen data = Zlen data' ->
  match ds_write z cfg infos st did sels data, ds_write z cfg infos st' did sels data' with
  | Ok a, Ok b => akin a b /\ (sels = [] /\ unflushed a = unflushed st /\ unflushed b = unflushed st' \/
      sels <> [] /\ exists w w', unflushed a = unflushed st ++ [w] /\ unflushed b = unflushed st' ++ [w'] /\ w_data w = data /\ w_data w' = data' /\ h_fsize (w_hdr w) = Zlen data /\ h_fsize (w_hdr w') = Zlen data' /\ (data = data' -> w = w'))
  | Err, Err => True | UB, UB => True | _, _ => False end.
Proof.
  intros z cfg infos st st' did sels data data' HA HZ. pose proof (akin_len _ _ HA) as HL. pose proof HA as HA'. destruct HA as (A1 & A2 & A3 & A4 & A5 & A6). unfold ds_write. destruct sels as [|b0 sels0].
  { split; auto. }
  destruct (nth_error infos (Z.to_nat did)) as [[dip|]|]; auto. rewrite A3, (finish_same z cfg st st') by auto.
  destruct (finish_meta _ _ _ _) as [[[r t] zb]| |]; cbn [bind]; auto.
  split.
  - unfold akin. cbn [k_wreqs k_nflushed k_mdsize k_hash k_zbsize]. repeat split; auto; [|rewrite app_length; lia].
    apply Forall2_app; auto. constructor; auto. unfold but_data, set_data. cbn [w_hdr w_body w_selpos w_metaoff]. rewrite HZ. auto.
  - right. split; [discriminate|]. exists (set_data r data), (set_data r data'). unfold unflushed. cbn [k_wreqs k_nflushed]. rewrite !skipn_app_le by lia. repeat split; auto. intros ->. reflexivity.
Qed.

(** *** Flushing *)
Lemma but_firstn : forall n a b, Forall2 but_data a b -> Forall2 but_data (firstn n a) (firstn n b).
Proof. induction n; intros a b H; cbn; [constructor|]. destruct H; constructor; auto. Qed.
Lemma akin_sizes : forall st st', akin st st' -> local_size (unflushed st) = local_size (unflushed st') /\ meta_len st = meta_len st' /\ meta_bytes st = meta_bytes st'.
Proof.
  intros st st' (A1 & A2 & _). unfold local_size, meta_len, meta_bytes, unflushed. rewrite <- A2. repeat split.
  - assert (H : Forall2 but_data (skipn (k_nflushed st) (k_wreqs st)) (skipn (k_nflushed st) (k_wreqs st'))).
    { generalize (k_nflushed st). clear - A1. intros n. revert n. induction A1; intros [|n]; cbn; auto. }
    induction H as [|a b l l' (H1 & _) _ IH]; [reflexivity|]. cbn [map Zsum fold_right]. rewrite H1. unfold Zsum in IH. rewrite IH. reflexivity.
  - clear A2. induction A1 as [|a b l l' (H1 & _) _ IH]; [reflexivity|]. cbn [map Zsum fold_right]. rewrite H1. unfold Zsum in IH. rewrite IH. reflexivity.
  - clear A2. induction A1 as [|a b l l' (H1 & H2 & _) _ IH]; [reflexivity|]. cbn [flat_map]. rewrite IH. f_equal. unfold wreq_bytes. rewrite H1, H2. reflexivity.
Qed.
Lemma but_assign : forall a b o, Forall2 but_data a b -> Forall2 but_data (assign_foff o a) (assign_foff o b).
Proof.
  intros a b o H. revert o. induction H as [|x y l l' (H1 & H2 & H3 & H4) _ IH]; intros o; cbn [assign_foff]; constructor.
  - unfold but_data, set_foff. cbn [w_hdr w_body w_selpos w_metaoff]. rewrite H1, H2, H3, H4. auto.
  - rewrite H1. apply IH.
Qed.
Lemma but_move : forall a b base, Forall2 but_data a b -> Forall2 but_data (map (fun w => set_foff w (h_foff (w_hdr w) + base)) a) (map (fun w => set_foff w (h_foff (w_hdr w) + base)) b).
Proof. intros a b base H. induction H as [|x y l l' (H1 & H2 & H3 & H4) _ IH]; cbn [map]; constructor; auto. unfold but_data, set_foff. cbn [w_hdr w_body w_selpos w_metaoff]. rewrite H1, H2, H3, H4. auto. Qed.
Lemma but_skipn : forall n a b, Forall2 but_data a b -> Forall2 but_data (skipn n a) (skipn n b).
Proof. induction n; intros a b H; cbn; auto. destruct H; auto. Qed.

Lemma like_flushed : forall st st' base, akin st st' -> like (rank_flushed base st) (rank_flushed base st').
Proof.
  intros st st' base HA. pose proof (akin_len _ _ HA) as HL. destruct HA as (A1 & A2 & A3 & A4 & A5 & A6).
  assert (B : Forall2 but_data (flushed st ++ map (fun w => set_foff w (h_foff (w_hdr w) + base)) (assign_foff 0 (unflushed st))) (flushed st' ++ map (fun w => set_foff w (h_foff (w_hdr w) + base)) (assign_foff 0 (unflushed st')))).
  { unfold flushed, unflushed. rewrite <- A2. apply Forall2_app; [apply but_firstn; auto|]. apply but_move, but_assign, but_skipn. auto. }
  split; [|unfold unflushed, rank_flushed; cbn [k_wreqs k_nflushed]; rewrite !skipn_all; reflexivity].
  unfold akin, rank_flushed. cbn [k_wreqs k_nflushed k_mdsize k_hash k_zbsize]. repeat split; auto. eapply Forall2_lens; eauto.
Qed.
Lemma like_assign : forall st st', like st st' -> like (rank_assign st) (rank_assign st').
Proof.
  intros st st' (HA & HU). pose proof (akin_len _ _ HA) as HL. destruct HA as (A1 & A2 & A3 & A4 & A5 & A6).
  assert (LF : length (flushed st) = k_nflushed st /\ length (flushed st') = k_nflushed st') by (unfold flushed; rewrite !firstn_length; lia). destruct LF as (L1 & L2).
  split.
  - unfold akin, rank_assign. cbn [k_wreqs k_nflushed k_mdsize k_hash k_zbsize]. repeat split; auto; [|rewrite app_length; lia]. apply Forall2_app; [unfold flushed; rewrite <- A2; apply but_firstn; auto|]. rewrite HU. apply but_refl.
  - unfold rank_assign, unflushed at 1 3. cbn [k_wreqs k_nflushed]. rewrite !skipn_app, L1, L2, !Nat.sub_diag. rewrite <- L1 at 1. rewrite <- L2 at 1. rewrite !skipn_all. cbn [app skipn]. rewrite HU. reflexivity.
Qed.

Lemma Forall2_map_eq : forall A B C (R : A -> B -> Prop) (f : A -> C) (g : B -> C) a b, (forall x y, R x y -> f x = g y) -> Forall2 R a b -> map f a = map g b.
Proof. intros A B C R f g a b H HR. induction HR; cbn; [reflexivity|]. f_equal; auto. Qed.
Lemma Forall2_combine : forall A B C (R : B -> C -> Prop) (l : list A) b c, Forall2 R b c -> Forall2 (fun p q => fst p = fst q /\ R (snd p) (snd q)) (combine l b) (combine l c).
Proof. intros A B C R l b c H. revert l. induction H; intros [|x0 l0]; cbn; constructor; auto. Qed.
Lemma Forall2_maps : forall A B C D (R : A -> B -> Prop) (T : C -> D -> Prop) f g a b, (forall x y, R x y -> T (f x) (g y)) -> Forall2 R a b -> Forall2 T (map f a) (map g b).
Proof. intros A B C D R T f g a b H HR. induction HR; cbn; constructor; auto. Qed.

Lemma like_flush : forall doff g g', like_g g g' -> like_g (flush_writes doff g) (flush_writes doff g').
Proof.
  intros doff g g' (H1 & H2 & H3 & H4 & H5 & H6 & H7).
  assert (ES : map (fun st => local_size (unflushed st)) (g_ranks g) = map (fun st => local_size (unflushed st)) (g_ranks g')) by (eapply Forall2_map_eq; [|exact H7]; intros x y (HA & _); apply (akin_sizes _ _ HA)).
  unfold flush_writes. rewrite <- ES. destruct (_ =? 0).
  - unfold like_g. cbn [g_cfg g_infos g_mdsets g_nldset g_metadirty g_file g_ranks]. repeat split; auto. eapply Forall2_maps; [|exact H7]. intros. apply like_assign. auto.
  - set (bs := map (fun o => o + doff) (exscan 0 (map (fun st => local_size (unflushed st)) (g_ranks g)))).
    pose proof (Forall2_combine _ _ _ _ bs _ _ H7) as HC.
    unfold like_g. cbn [g_cfg g_infos g_mdsets g_nldset g_metadirty g_file g_ranks]. repeat split; auto; try lia.
    + revert H6. generalize (g_file g) (g_file g'). induction HC as [|p q l l' (E & (_ & EU)) _ IH]; intros f f' HF x; cbn [fold_left]; auto.
      apply IH. intros y. rewrite E. unfold local_bytes. rewrite EU. apply put_same. auto.
    + eapply Forall2_maps; [|exact HC]. intros p q (E & (HA & _)). rewrite E. apply like_flushed. auto.
Qed.

Lemma like_meta : forall g g', like_g g g' -> like_g (metaflush g) (metaflush g').
Proof.
  intros g g' (H1 & H2 & H3 & H4 & H5 & H6 & H7).
  assert (EL : map meta_len (g_ranks g) = map meta_len (g_ranks g')) by (eapply Forall2_map_eq; [|exact H7]; intros x y (HA & _); apply (akin_sizes _ _ HA)).
  assert (EB : map meta_bytes (g_ranks g) = map meta_bytes (g_ranks g')) by (eapply Forall2_map_eq; [|exact H7]; intros x y (HA & _); apply (akin_sizes _ _ HA)).
  assert (EZ : Zlen (g_ranks g) = Zlen (g_ranks g')) by (unfold Zlen; f_equal; eapply Forall2_lens; eauto).
  assert (EM : meta_sizes (g_ranks g) = meta_sizes (g_ranks g')) by (unfold meta_sizes; rewrite EL, EZ; reflexivity).
  assert (EP : md_pieces (g_ranks g) = md_pieces (g_ranks g')).
  { assert (ED : md_map (g_ranks g) = md_map (g_ranks g')) by (unfold md_map; rewrite EM, EZ; reflexivity).
    unfold md_pieces. rewrite ED. destruct (g_ranks g) as [|r rs], (g_ranks g') as [|r' rs']; try discriminate; auto. cbn [map] in EB. injection EB as E1 E2. rewrite E1, E2. reflexivity. }
  assert (EC : md_content (g_ranks g) = md_content (g_ranks g')) by (unfold md_content; rewrite EM, EP; reflexivity).
  unfold like_g, metaflush. cbn [g_cfg g_infos g_mdsets g_nldset g_metadirty g_file g_ranks]. rewrite EM, EZ, EC, H3. repeat split; auto.
  eapply Forall2_maps; [|exact H7]. intros x y ((A1 & A2 & A3 & A4 & A5 & A6) & _). rewrite A5. apply like_refl. auto.
Qed.

Lemma like_pending : forall g g', like_g g g' -> any_pending g = any_pending g'.
Proof.
  intros g g' (_ & _ & _ & _ & _ & _ & H7). unfold any_pending. induction H7 as [|x y l l' (HA & _) _ IH]; [reflexivity|]. cbn [existsb]. rewrite IH. f_equal. unfold num_pending.
  rewrite (akin_len _ _ HA). destruct HA as (_ & -> & _). reflexivity.
Qed.

Lemma Forall2_upd : forall A B (R : A -> B -> Prop) i a b l l', Forall2 R l l' -> R a b -> Forall2 R (upd_nth i a l) (upd_nth i b l').
Proof. intros A B R i a b l l' H HR. revert i. induction H; intros [|i]; cbn; constructor; auto. Qed.
Lemma Forall2_nth_err : forall A B (R : A -> B -> Prop) l l' i, Forall2 R l l' -> match nth_error l i, nth_error l' i with Some a, Some b => R a b | None, None => True | _, _ => False end.
Proof. intros A B R l l' i H. revert i. induction H; intros [|i]; cbn; auto. apply IHForall2. Qed.

Definition agree (r r' : res (sys * list (list Z))) : Prop :=
  match r, r' with Ok p, Ok q => like_s (fst p) (fst q) /\ snd p = snd q | Err, Err => True | UB, UB => True | _, _ => False end.
Lemma like_step : forall e s s' o, like_s s s' -> agree (step e s o) (step e s' o).
Proof.
  intros e s s' o (HG & HX). pose proof HG as (H1 & H2 & H3 & H4 & H5 & H6 & H7). destruct o as [d|did dims|rk did sels data|doff|doff calls|doff np]; cbn [step].
  - rewrite <- H1, <- H2. destruct (create_info _ d) as [i| |]; cbn [bind agree]; auto. split; auto. split; auto. unfold like_g, set_infos. cbn. repeat split; auto.
  - rewrite <- H1, <- H2. destruct (info_at _ did) as [[i|]|]; cbn [agree]; auto. destruct (set_extent _ i dims) as [i' [|]]; cbn [agree]; auto. split; auto. split; auto. unfold like_g, set_infos. cbn. repeat split; auto.
  - pose proof (Forall2_nth_err _ _ _ _ _ rk H7) as HN. destruct (nth_error (g_ranks (s_g s)) rk) as [st|], (nth_error (g_ranks (s_g s')) rk) as [st'|]; try contradiction; cbn [agree]; auto.
    destruct HN as (HA & HU). pose proof (akin_write (e_zlib e) (g_cfg (s_g s)) (g_infos (s_g s)) st st' did sels data data HA eq_refl) as HW. rewrite <- H1, <- H2.
    destruct (ds_write _ _ _ st did sels data) as [a| |], (ds_write _ _ _ st' did sels data) as [b| |]; try contradiction; cbn [bind agree]; auto. destruct HW as (HAB & HW).
    split; auto. split; auto. unfold like_g, set_ranks. cbn [s_g fst g_cfg g_infos g_mdsets g_nldset g_metadirty g_file g_ranks]. repeat split; auto. apply Forall2_upd; auto. split; auto.
    destruct HW as [(_ & -> & ->)|(_ & w & w' & -> & -> & _ & _ & _ & _ & E)]; auto. rewrite HU, (E eq_refl). reflexivity.
  - cbn [agree fst snd]. split; auto. split; auto. cbn [s_g]. rewrite (like_pending _ _ HG). destruct (any_pending _); auto. apply like_flush. auto.
  - rewrite (like_pending _ _ HG). set (g1 := if e_coll e && any_pending (s_g s') then flush_writes doff (s_g s) else s_g s). set (g1' := if e_coll e && any_pending (s_g s') then flush_writes doff (s_g s') else s_g s').
    assert (L1 : like_g g1 g1') by (unfold g1, g1'; destruct (_ && _); auto; apply like_flush; auto). clearbody g1 g1'.
    assert (ED : g_metadirty g1 = g_metadirty g1') by apply L1. rewrite ED, HX.
    assert (L2 : like_g (if g_metadirty g1' then metaflush g1 else g1) (if g_metadirty g1' then metaflush g1' else g1')) by (destruct (g_metadirty g1'); auto; apply like_meta; auto).
    rewrite (read_each_same e _ (if g_metadirty g1' then metaflush g1' else g1')) by apply L2. destruct (read_each _ _ _ _) as [q| |]; cbn [bind agree]; auto. split; auto. split; auto.
  - rewrite <- H1, <- H2. destruct (reopen_infos _ _) as [r| |]; cbn [bind agree]; auto. split; auto. split; auto.
    pose proof (like_meta _ _ (like_flush doff _ _ HG)) as (K1 & K2 & K3 & K4 & K5 & K6 & K7). unfold like_g, close_file. cbn [fst s_g g_cfg g_infos g_mdsets g_nldset g_metadirty g_file g_ranks]. repeat split; auto.
    clear. induction np; cbn [repeat]; constructor; auto. apply like_refl. auto.
Qed.
Lemma like_run : forall e ops s s', like_s s s' -> observed (run e s ops) = observed (run e s' ops).
Proof.
  intros e. induction ops as [|o ops IH]; intros s s' H; [reflexivity|]. cbn [run]. pose proof (like_step e s s' o H) as HS. unfold agree in HS.
  destruct (step e s o) as [[s1 o1]| |], (step e s' o) as [[s1' o1']| |]; try contradiction; auto. cbn [bind fst snd] in *. destruct HS as (HS & ->). specialize (IH _ _ HS).
  unfold observed in *. destruct (run e s1 ops) as [[x y]| |], (run e s1' ops) as [[x' y']| |]; cbn [bind fst snd] in *; try discriminate; auto. injection IH as ->. reflexivity.
Qed.
