(** Flushing: where the queued writes of all processes end up, and the metadata they leave. *)
From Verif Require Import Base BaseProofs Spec MetaModel QueueModel FlushModel IndexModel ReadModel SysModel
  SysSpec GeomProofs MetaProofs QueueProofs IndexProofs SearchProofs ReadProofs HitProofs MdProofs StoreProofs.
From Coq Require Import ZifyNat ZifyN Permutation.

Lemma Forall2_length : forall A B (R : A -> B -> Prop) l l', Forall2 R l l' -> length l = length l'.
Proof. induction 1; cbn; auto. Qed.

(** ** Requests up to their file offset *)
Definition sim (w w' : wreq) : Prop := exists f, w' = set_foff w f.

Lemma ereq_sim : forall k cfg G ctx w w' a, sim w w' -> ereq k cfg G ctx w a -> ereq k cfg G ctx w' a.
Proof. intros k cfg G ctx w w' a [f ->] H. exact H. Qed.

Lemma qrep_sim : forall k cfg G ws ws' l off ctx, Forall2 sim ws ws' ->
  qrep k cfg G off ctx ws l -> qrep k cfg G off ctx ws' l /\ ctx_of off ctx ws' l = ctx_of off ctx ws l.
Proof.
  intros k cfg G ws ws' l off ctx HS. revert l off ctx. induction HS as [|w w' ws ws' Hw HS IH]; intros l off ctx H.
  - destruct l; auto.
  - destruct l as [|a l]; [destruct H|]. destruct H as (H1 & H2 & H3). destruct Hw as [f ->].
    destruct (IH l _ _ H3) as [I1 I2]. split; [|exact I2]. split; [exact H1|]. split; [exact H2|exact I1].
Qed.

Lemma sim_refl : forall ws, Forall2 sim ws ws.
Proof.
  induction ws; constructor; auto. exists (h_foff (w_hdr a)). unfold set_foff. destruct a as [[? ? ? ? ?] ? ? ? ?]. reflexivity.
Qed.

Lemma sim_assign : forall b ws off, Forall2 sim ws (map (fun w => set_foff w (h_foff (w_hdr w) + b)) (assign_foff off ws)).
Proof. induction ws; intros; cbn; constructor; auto. exists (off + b). reflexivity. Qed.

Lemma sim_sizes : forall ws ws', Forall2 sim ws ws' ->
  map (fun w => h_size (w_hdr w)) ws' = map (fun w => h_size (w_hdr w)) ws.
Proof. induction 1 as [|w w' ws ws' [f ->]]; cbn; auto. f_equal. auto. Qed.

(** ** Places *)
Fixpoint place (off : Z) (l : list awr) : list pwr :=
  match l with
  | [] => []
  | a :: t => (off, a) :: place (off + Zlen (a_data a)) t
  end.
Definition abytes (l : list awr) : Z := Zsum (map (fun a => Zlen (a_data a)) l).

Lemma abytes_nonneg : forall l, 0 <= abytes l.
Proof. intros. apply Zsum_nonneg. apply Forall_map. apply Forall_forall. intros. apply Zlen_nonneg. Qed.
Lemma abytes_app : forall a b, abytes (a ++ b) = abytes a + abytes b.
Proof. intros. unfold abytes. rewrite map_app. apply Zsum_app. Qed.
Lemma abytes_cons : forall a l, abytes (a :: l) = Zlen (a_data a) + abytes l.
Proof. reflexivity. Qed.
Lemma place_app : forall a b off, place off (a ++ b) = place off a ++ place (off + abytes a) b.
Proof.
  induction a; intros; cbn [app place]; [change (abytes []) with 0; rewrite Z.add_0_r; reflexivity|].
  rewrite IHa, abytes_cons, Z.add_assoc. reflexivity.
Qed.
Lemma place_snd : forall l off, map snd (place off l) = l.
Proof. induction l; intros; cbn; auto. f_equal. auto. Qed.
Lemma place_length : forall l off, length (place off l) = length l.
Proof. induction l; intros; cbn; auto. Qed.
Lemma In_place : forall l off p, In p (place off l) ->
  off <= fst p /\ fst p + Zlen (a_data (snd p)) <= off + abytes l /\ In (snd p) l.
Proof.
  induction l as [|a l IH]; intros off p H; [destruct H|]. rewrite abytes_cons. pose proof (abytes_nonneg l). pose proof (Zlen_nonneg _ (a_data a)).
  destruct H as [<-|H]; cbn [fst snd]; [split; [lia|]; split; [lia|left; auto]|].
  apply IH in H. destruct H as (A1 & A2 & A3). split; [lia|]. split; [lia|right; auto].
Qed.

Lemma place_get : forall l F a, get F a (length (flat_map a_data l)) = flat_map a_data l ->
  Forall (fun p => get F (fst p) (length (a_data (snd p))) = a_data (snd p)) (place a l).
Proof.
  induction l as [|x l IH]; intros F a H; cbn [place]; constructor.
  - cbn [flat_map] in H. rewrite app_length, get_app in H. apply (f_equal (firstn (length (a_data x)))) in H.
    rewrite !firstn_app, get_length, Nat.sub_diag in H. cbn [firstn] in H. rewrite !app_nil_r in H.
    rewrite firstn_all, firstn_all2 in H by (rewrite get_length; lia). exact H.
  - apply IH. cbn [flat_map] in H. rewrite app_length, get_app in H. apply (f_equal (skipn (length (a_data x)))) in H.
    rewrite !skipn_app, get_length, Nat.sub_diag in H. rewrite !skipn_O in H.
    rewrite !skipn_all2 in H by (rewrite ?get_length; lia). exact H.
Qed.

Lemma placed_assign : forall k cfg G ws l off ctx b o, qrep k cfg G off ctx ws l ->
  0 <= o + b -> o + b + abytes l < 2 ^ 63 ->
  Forall2 placed (map (fun w => set_foff w (h_foff (w_hdr w) + b)) (assign_foff o ws)) (place (o + b) l).
Proof.
  induction ws as [|w ws IH]; intros [|a l] off ctx b o H Hb Hm; try (destruct H; fail); cbn [assign_foff map place]; constructor.
  - rewrite abytes_cons in Hm. pose proof (abytes_nonneg l). pose proof (Zlen_nonneg _ (a_data a)).
    unfold placed. cbn [set_foff w_hdr h_foff fst snd]. lia.
  - destruct H as (_ & (_ & _ & E & _) & H). rewrite E. rewrite abytes_cons in Hm. pose proof (Zlen_nonneg _ (a_data a)).
    replace (o + b + Zlen (a_data a)) with (o + Zlen (a_data a) + b) by lia. eapply IH; eauto; lia.
Qed.

(** ** One process *)
Record grank := mkgr { gr_fl : list pwr; gr_pd : list awr }.

Definition rank_rep (k : kind) (cfg : Z) (cv : conv) (G : Z -> option (nat * Z * bool)) (st : rank) (gr : grank) : Prop :=
  rinv k cfg (c_rec cv) (c_esize cv) G st (map snd (gr_fl gr) ++ gr_pd gr) /\
  k_nflushed st = length (gr_fl gr) /\ Forall2 placed (flushed st) (gr_fl gr).

Lemma rank_split : forall k cfg cv G st gr, rank_rep k cfg cv G st gr ->
  length (flushed st) = length (gr_fl gr) /\ length (unflushed st) = length (gr_pd gr) /\
  k_wreqs st = flushed st ++ unflushed st /\ local_size (unflushed st) = abytes (gr_pd gr) /\
  local_bytes st = flat_map a_data (gr_pd gr) /\ num_pending st = length (gr_pd gr) /\
  exists off ctx, qrep k cfg G off ctx (unflushed st) (gr_pd gr).
Proof.
  intros k cfg cv G st gr ([Q M H] & N & P).
  assert (L1 : length (flushed st) = length (gr_fl gr)) by (apply Forall2_length in P; auto).
  pose proof (qrep_length _ _ _ _ _ _ _ Q) as L. rewrite app_length, map_length in L.
  assert (L2 : length (unflushed st) = length (gr_pd gr)). { unfold unflushed. rewrite skipn_length. unfold pwr in *. lia. }
  assert (S : k_wreqs st = flushed st ++ unflushed st) by (symmetry; apply firstn_skipn).
  rewrite S in Q.
  assert (HQ : forall fs fl off ctx, length fs = length fl -> forall us l, qrep k cfg G off ctx (fs ++ us) (fl ++ l) ->
     exists off' ctx', qrep k cfg G off' ctx' us l).
  { induction fs; intros [|f fl] off ctx Hl us l Hq; try discriminate; [exists off, ctx; exact Hq|].
    cbn in Hl. destruct Hq as (_ & _ & Hq). eapply IHfs; [|exact Hq]. lia. }
  destruct (HQ (flushed st) (map snd (gr_fl gr)) 0 [] ltac:(rewrite map_length; auto) _ _ Q) as (off & ctx & Q').
  assert (HS : forall us l off ctx, qrep k cfg G off ctx us l -> local_size us = abytes l /\ flat_map w_data us = flat_map a_data l).
  { clear. induction us as [|w us IH]; intros [|a l] off ctx H; try (destruct H; fail); [split; reflexivity|].
    destruct H as (_ & (_ & _ & E1 & E2 & _) & H). destruct (IH _ _ _ H) as [I1 I2].
    unfold local_size in *. cbn [map flat_map Zsum fold_right]. unfold Zsum in *. rewrite abytes_cons, E1, E2, I2. split; auto. lia. }
  destruct (HS _ _ _ _ Q') as [S1 S2].
  split; auto. split; auto. split; auto. split; auto. split; auto. split; eauto.
  unfold num_pending. rewrite S, app_length. unfold pwr in *. lia.
Qed.

Lemma rank_flush : forall k cfg cv G st gr b, rank_rep k cfg cv G st gr ->
  0 <= b -> b + abytes (gr_pd gr) < 2 ^ 63 ->
  rank_rep k cfg cv G (rank_flushed b st) (mkgr (gr_fl gr ++ place b (gr_pd gr)) []) /\
  meta_len (rank_flushed b st) = meta_len st.
Proof.
  intros k cfg cv G st gr b HR Hb Hm. pose proof (rank_split _ _ _ _ _ _ HR) as (L1 & L2 & S & _ & _ & _ & off & ctx & Q').
  destruct HR as ([Q M H] & N & P).
  set (ws' := flushed st ++ map (fun w => set_foff w (h_foff (w_hdr w) + b)) (assign_foff 0 (unflushed st))).
  assert (HS : Forall2 sim (k_wreqs st) ws').
  { rewrite S. apply Forall2_app; [apply sim_refl|apply sim_assign]. }
  destruct (qrep_sim _ _ _ _ _ _ _ _ HS Q) as [Q1 Q2].
  assert (LW : length ws' = length (gr_fl gr ++ place b (gr_pd gr))).
  { apply Forall2_length in HS. apply qrep_length in Q. rewrite app_length, place_length. rewrite app_length, map_length in Q. unfold pwr in *. lia. }
  assert (EL : map snd (gr_fl (mkgr (gr_fl gr ++ place b (gr_pd gr)) [])) ++ gr_pd (mkgr (gr_fl gr ++ place b (gr_pd gr)) []) = map snd (gr_fl gr) ++ gr_pd gr).
  { cbn [gr_fl gr_pd]. rewrite app_nil_r, map_app, place_snd. reflexivity. }
  split.
  - unfold rank_rep, rank_flushed. fold ws'. cbn [k_nflushed]. rewrite EL. split; [|split].
    + constructor.
      * exact Q1.
      * cbn [k_mdsize]. rewrite M. unfold meta_len. cbn [k_wreqs]. rewrite (sim_sizes _ _ HS). reflexivity.
      * cbn [k_hash k_wreqs]. rewrite Q2. exact H.
    + exact LW.
    + unfold flushed at 1. cbn [k_nflushed k_wreqs]. rewrite firstn_all. unfold ws'.
      apply Forall2_app; [exact P|]. replace b with (0 + b) at 2 by lia. eapply placed_assign; eauto; lia.
  - unfold meta_len, rank_flushed. fold ws'. cbn [k_wreqs]. rewrite (sim_sizes _ _ HS). reflexivity.
Qed.

(** ** All processes *)
Fixpoint gflush (a : Z) (grs : list grank) : list grank :=
  match grs with
  | [] => []
  | g :: t => mkgr (gr_fl g ++ place a (gr_pd g)) [] :: gflush (a + abytes (gr_pd g)) t
  end.
Definition all_pd (grs : list grank) : list awr := flat_map gr_pd grs.

Lemma gflush_perm : forall grs a, Permutation (flat_map gr_fl (gflush a grs)) (flat_map gr_fl grs ++ place a (all_pd grs)).
Proof.
  induction grs as [|g grs IH]; intros a; [constructor|]. unfold all_pd in *. cbn [gflush flat_map gr_fl].
  rewrite place_app, <- !app_assoc. apply Permutation_app_head.
  eapply Permutation_trans; [apply Permutation_app_head; apply IH|]. rewrite !app_assoc. apply Permutation_app_tail.
  apply Permutation_app_comm.
Qed.
Lemma gflush_pd : forall grs a, Forall (fun g => gr_pd g = []) (gflush a grs).
Proof. induction grs; intros; cbn; constructor; auto. Qed.
Lemma gflush_length : forall grs a, length (gflush a grs) = length grs.
Proof. induction grs; intros; cbn; auto. Qed.
Lemma gflush_queue : forall grs a,
  map (fun g => map snd (gr_fl g) ++ gr_pd g) (gflush a grs) = map (fun g => map snd (gr_fl g) ++ gr_pd g) grs.
Proof.
  induction grs; intros; cbn; auto. f_equal; auto. rewrite app_nil_r, map_app, place_snd. reflexivity.
Qed.

Section Flush.
Context (k : kind) (cfg : Z) (cv : conv) (G : Z -> option (nat * Z * bool)).

Lemma sizes_eq : forall rs grs, Forall2 (rank_rep k cfg cv G) rs grs ->
  map (fun st => local_size (unflushed st)) rs = map (fun g => abytes (gr_pd g)) grs /\
  map local_bytes rs = map (fun g => flat_map a_data (gr_pd g)) grs /\
  map num_pending rs = map (fun g => length (gr_pd g)) grs.
Proof.
  induction 1 as [|st g rs grs HR HF [I1 [I2 I3]]]; [auto|]. pose proof (rank_split _ _ _ _ _ _ HR) as (_ & _ & _ & S1 & S2 & S3 & _).
  cbn [map]. rewrite I1, I2, I3, S1, S2, S3. auto.
Qed.

Lemma abytes_all : forall grs, Zsum (map (fun g => abytes (gr_pd g)) grs) = abytes (all_pd grs).
Proof.
  induction grs; [reflexivity|]. unfold all_pd in *. cbn [map flat_map Zsum fold_right]. rewrite abytes_app.
  unfold Zsum in IHgrs. rewrite IHgrs. reflexivity.
Qed.

Lemma ranks_flush : forall rs grs a, Forall2 (rank_rep k cfg cv G) rs grs -> 0 <= a ->
  a + abytes (all_pd grs) < 2 ^ 63 ->
  let rs' := map (fun p => rank_flushed (fst p) (snd p))
                 (combine (exscan a (map (fun g => abytes (gr_pd g)) grs)) rs) in
  Forall2 (rank_rep k cfg cv G) rs' (gflush a grs) /\ map meta_len rs' = map meta_len rs.
Proof.
  intros rs grs a HF. revert a. induction HF as [|st g rs grs HR HF IH]; intros a Ha Hm; [split; [constructor|reflexivity]|].
  cbn [map exscan combine fst snd gflush]. unfold all_pd in *. cbn [flat_map] in Hm. rewrite abytes_app in Hm.
  pose proof (abytes_nonneg (gr_pd g)). pose proof (abytes_nonneg (flat_map gr_pd grs)).
  destruct (rank_flush _ _ _ _ _ _ a HR Ha ltac:(lia)) as [R1 R2].
  destruct (IH (a + abytes (gr_pd g)) ltac:(lia) ltac:(lia)) as [I1 I2].
  split; [constructor; auto|]. rewrite R2. f_equal. exact I2.
Qed.

Lemma file_flush : forall f a rs grs, Forall2 (rank_rep k cfg cv G) rs grs ->
  let f' := fold_left (fun f p => put f (fst p) (local_bytes (snd p)))
              (combine (exscan a (map (fun g => abytes (gr_pd g)) grs)) rs) f in
  Forall (fun p => get f' (fst p) (length (a_data (snd p))) = a_data (snd p)) (place a (all_pd grs)) /\
  (forall x, x < a -> f' x = f x).
Proof.
  intros f a rs grs HF f'. pose proof (sizes_eq rs grs HF) as (_ & S & _).
  assert (E : f' = lay f a (map (fun g => flat_map a_data (gr_pd g)) grs)).
  { unfold f', lay. rewrite (fold_combine_map _ _ _ (fun f p => put f (fst p) (snd p)) local_bytes). rewrite S. f_equal. f_equal. f_equal.
    rewrite map_map. apply map_ext. intros g. unfold abytes. rewrite flat_map_concat_map.
    induction (gr_pd g); [reflexivity|]. cbn [map concat Zsum fold_right]. rewrite Zlen_app. unfold Zsum in *. lia. }
  assert (C : concat (map (fun g => flat_map a_data (gr_pd g)) grs) = flat_map a_data (all_pd grs)).
  { unfold all_pd. rewrite <- flat_map_concat_map. clear. induction grs; [reflexivity|]. cbn [flat_map]. rewrite flat_map_app. congruence. }
  split.
  - apply place_get. rewrite E, <- C. apply lay_get.
  - intros x Hx. rewrite E. apply lay_out. auto.
Qed.
End Flush.

(** ** Metadata of a set of processes without pending writes *)
Definition secs_of (rs : list rank) (grs : list grank) : list (list wreq * list pwr) :=
  map (fun p => (k_wreqs (fst p), gr_fl (snd p))) (combine rs grs).

Lemma secs_of_ok : forall k cfg cv G rs grs, Forall2 (rank_rep k cfg cv G) rs grs -> Forall (fun g => gr_pd g = []) grs ->
  Forall (sec_ok k cfg G) (secs_of rs grs) /\ map sec_len (secs_of rs grs) = map meta_len rs /\
  flat_map sec_bytes (secs_of rs grs) = flat_map meta_bytes rs /\ flat_map snd (secs_of rs grs) = flat_map gr_fl grs /\
  length (secs_of rs grs) = length rs.
Proof.
  intros k cfg cv G rs grs HF. unfold secs_of. induction HF as [|st g rs grs HR HF IH]; intros HP; [cbn; auto|].
  inversion HP as [|? ? HP1 HP2]; subst. destruct (IH HP2) as (I1 & I2 & I3 & I4 & I5).
  pose proof (rank_split _ _ _ _ _ _ HR) as (L1 & L2 & S & _). destruct HR as ([Q M H] & N & P).
  rewrite HP1 in L2. destruct (unflushed st) eqn:U; [|discriminate]. rewrite app_nil_r in S.
  rewrite HP1, app_nil_r in Q.
  cbn [combine map flat_map fst snd length]. rewrite I2, I3, I4, I5. split; [|split; [|auto]].
  - constructor; auto. unfold sec_ok. cbn [fst snd]. split; auto. rewrite S. exact P.
  - f_equal. unfold sec_len, sec_bytes, meta_len. cbn [fst]. eapply qrep_bytes_len in Q. apply Q.
Qed.

Lemma md_content_ok : forall k cfg cv G rs grs, Forall2 (rank_rep k cfg cv G) rs grs -> Forall (fun g => gr_pd g = []) grs ->
  rs <> [] -> md_content rs = md_bytes (secs_of rs grs) /\
  Zsum (meta_sizes rs) = 8 * (Zlen rs + 1) + Zlen (flat_map sec_bytes (secs_of rs grs)).
Proof.
  intros k cfg cv G rs grs HF HP Hne.
  destruct (secs_of_ok _ _ _ _ _ _ HF HP) as (S1 & S2 & S3 & S4 & S5).
  assert (SL : Zlen (secs_of rs grs) = Zlen rs) by (unfold Zlen; rewrite S5; reflexivity).
  assert (HM : map (@Zlen Z) (map meta_bytes rs) = map meta_len rs).
  { rewrite <- S2. unfold secs_of. clear -HF. induction HF as [|st g rs grs HR HF IH]; [reflexivity|]. cbn [combine map]. rewrite IH. reflexivity. }
  assert (HW : Zlen (words (md_map rs)) = 8 * (Zlen rs + 1)).
  { unfold Zlen at 1. rewrite words_length. unfold md_map. cbn [length]. rewrite prefix_ends_length. unfold meta_sizes, Zlen.
    destruct rs; [congruence|]. cbn [map length]. rewrite map_length. lia. }
  assert (HPz : map (@Zlen Z) (md_pieces rs) = meta_sizes rs).
  { unfold md_pieces, meta_sizes. destruct rs as [|r0 rest]; [congruence|]. cbn [map] in HM |- *. injection HM as HM0 HM1.
    rewrite Zlen_app, HW, HM0, HM1. reflexivity. }
  assert (HC : concat (md_pieces rs) = words (md_map rs) ++ flat_map meta_bytes rs).
  { unfold md_pieces. destruct rs as [|r0 rest]; [congruence|]. cbn [concat flat_map]. rewrite <- flat_map_concat_map, app_assoc. reflexivity. }
  assert (HT : Zsum (meta_sizes rs) = Zlen (concat (md_pieces rs))).
  { rewrite <- HPz. generalize (md_pieces rs). induction l; [reflexivity|]. cbn [map concat Zsum fold_right]. rewrite Zlen_app.
    unfold Zsum in IHl. rewrite IHl. reflexivity. }
  assert (HO : md_map rs = Zlen (secs_of rs grs) :: md_offs (secs_of rs grs)).
  { unfold md_map, md_offs. rewrite SL, S2. f_equal. unfold meta_sizes. destruct rs as [|r0 rest]; [congruence|].
    cbn [map prefix_ends]. f_equal; try lia. }
  split.
  - unfold md_content. rewrite HT. replace (Z.to_nat (Zlen (concat (md_pieces rs)))) with (length (concat (md_pieces rs))) by (unfold Zlen; lia).
    rewrite <- HPz. change (fold_left _ _ _) with (lay (fun _ => 0) 0 (md_pieces rs)). rewrite lay_get, HC. unfold md_bytes. rewrite HO, S3. reflexivity.
  - rewrite HT, HC, Zlen_app, HW, S3. reflexivity.
Qed.
