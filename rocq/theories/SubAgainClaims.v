(** Writing to a file with subfiles again (C53). *)
From Coq Require Import String ZifyNat.
From Verif Require Import Base Spec MetaModel QueueModel FlushModel IndexModel ReadModel SysModel SubModel SubToolModel SubAgainSpec SubProofs SubClaims.
Open Scope list_scope. Open Scope Z_scope.

Definition nnr (st : rank) : Prop :=
  (k_nflushed st <= length (k_wreqs st))%nat /\ Forall (fun w => 0 <= h_fsize (w_hdr w)) (k_wreqs st).
Definition gwf (sg : sgroup) : Prop := Forall nnr (g_ranks (s_g (sg_sys sg))) /\ 0 <= g_nldset (s_g (sg_sys sg)).
Definition full (sg : sgroup) : Prop := 0 < group_size (s_g (sg_sys sg)).
Definition logged (sg : sgroup) : Prop := 0 < g_nldset (s_g (sg_sys sg)).
Definition behind (sg : sgroup) : Prop := logged sg /\ sg_nld sg < g_nldset (s_g (sg_sys sg)).

Lemma local_nn : forall ws, Forall (fun w => 0 <= h_fsize (w_hdr w)) ws -> 0 <= local_size ws.
Proof. intros ws H. unfold local_size, Zsum. induction H; cbn in *; lia. Qed.

Lemma skipn_Forall : forall A (P : A -> Prop) n l, Forall P l -> Forall P (skipn n l).
Proof. intros A P n. induction n; intros l H; [exact H|]. destruct H; [constructor|]. apply IHn. assumption. Qed.
Lemma firstn_Forall : forall A (P : A -> Prop) n l, Forall P l -> Forall P (firstn n l).
Proof. intros A P n. induction n; intros l H; [constructor|]. destruct H; constructor; [assumption|]. apply IHn. assumption. Qed.

Lemma rank_nn : forall st, nnr st -> 0 <= local_size (unflushed st).
Proof. intros st [_ H]. apply local_nn. apply skipn_Forall. exact H. Qed.

Definition rsum (rs : list rank) : Z := Zsum (map (fun st => local_size (unflushed st)) rs).
Lemma rsum_nn : forall rs, Forall nnr rs -> 0 <= rsum rs.
Proof. intros rs H. unfold rsum, Zsum. induction H as [|st rs H1 H2 IH]; cbn; [lia|]. pose proof (rank_nn st H1). lia. Qed.
Lemma size_nn : forall sg, gwf sg -> 0 <= group_size (s_g (sg_sys sg)).
Proof. intros sg [H _]. apply rsum_nn. exact H. Qed.

Lemma rsum_upd : forall rs rk st st', nth_error rs rk = Some st ->
  rsum (upd_nth rk st' rs) = rsum rs - local_size (unflushed st) + local_size (unflushed st').
Proof.
  unfold rsum, Zsum. induction rs as [|r rs IH]; intros [|rk] st st' H; cbn in H; try discriminate H.
  - injection H as ->. cbn. lia.
  - cbn. rewrite (IH rk st st' H). lia.
Qed.

Lemma full_pending : forall g, 0 < group_size g -> any_pending g = true.
Proof.
  intros g H. unfold group_size, Zsum in H. unfold any_pending.
  induction (g_ranks g) as [|st rs IH]; [cbn in H; lia|]. cbn in H |- *.
  destruct (num_pending st =? 0)%nat eqn:E; [|reflexivity]. cbn. apply IH.
  apply Nat.eqb_eq in E. unfold num_pending in E. assert (Hu : unflushed st = []) by (unfold unflushed; apply skipn_all2; lia).
  rewrite Hu in H. cbn in H. lia.
Qed.

(** *** Writes *)
Lemma local_app : forall a b, local_size (a ++ b) = local_size a + local_size b.
Proof. intros a b. unfold local_size, Zsum. rewrite map_app. induction a as [|x a IH]; cbn; [reflexivity|]. rewrite IH. lia. Qed.

Lemma ds_write_nn : forall z cfg infos st did sels data st', ds_write z cfg infos st did sels data = Ok st' -> nnr st ->
  nnr st' /\ local_size (unflushed st') = local_size (unflushed st) + match sels with [] => 0 | _ => Zlen data end.
Proof.
  intros z cfg infos st did sels data st' H [H1 H2]. unfold ds_write in H. destruct sels as [|b sels].
  - injection H as <-. split; [split; assumption|]. lia.
  - destruct (nth_error infos (Z.to_nat did)) as [[dip|]|]; try discriminate H.
    destruct (finish_meta z cfg st (mk_wreq cfg did dip (k_mdsize st) (b :: sels))) as [[[r tbl] zb]| |]; try discriminate H.
    cbn [bind] in H. injection H as <-. split.
    + split; cbn [k_nflushed k_wreqs]; [rewrite app_length; lia|]. apply Forall_app. split; [exact H2|].
      constructor; [|constructor]. cbn. unfold Zlen. lia.
    + unfold unflushed. cbn [k_nflushed k_wreqs]. rewrite skipn_app, local_app.
      replace (k_nflushed st - length (k_wreqs st))%nat with 0%nat by lia. cbn. lia.
Qed.

Lemma write_group : forall e rk did sels data sg sg', group_step e (OWrite rk did sels data) sg = SOk sg' -> gwf sg ->
  gwf sg' /\ sg_nld sg' = sg_nld sg /\ g_nldset (s_g (sg_sys sg')) = g_nldset (s_g (sg_sys sg)) /\
  group_size (s_g (sg_sys sg')) = group_size (s_g (sg_sys sg)) + match sels with [] => 0 | _ => Zlen data end.
Proof.
  intros e rk did sels data sg sg' H [H1 H2]. unfold group_step in H. cbn [step] in H.
  destruct (nth_error (g_ranks (s_g (sg_sys sg))) rk) as [st|] eqn:Er; [|discriminate H].
  destruct (ds_write (e_zlib e) (g_cfg (s_g (sg_sys sg))) (g_infos (s_g (sg_sys sg))) st did sels data) as [st'| |] eqn:Ew; try discriminate H.
  cbn in H. injection H as <-.
  assert (Hst : nnr st) by (rewrite Forall_forall in H1; apply H1; exact (nth_error_In _ _ Er)).
  destruct (ds_write_nn _ _ _ _ _ _ _ _ Ew Hst) as [Q1 Q2].
  split; [split; cbn; [|exact H2]|].
  - clear - H1 Q1. revert rk. induction H1 as [|r rs A B IH]; intros [|rk]; cbn; try (constructor; assumption); constructor; auto.
  - split; [reflexivity|]. split; [reflexivity|]. unfold group_size. cbn [s_g sg_sys set_ranks g_ranks fst].
    pose proof (rsum_upd _ _ _ st' Er) as Q3. unfold rsum in Q3. rewrite Q2 in Q3. lia.
Qed.

Definition quiet (o : op) : Prop := match o with OCreate _ | OSetExtent _ _ => True | _ => False end.
Lemma quiet_group : forall e o sg sg', quiet o -> group_step e o sg = SOk sg' ->
  g_ranks (s_g (sg_sys sg')) = g_ranks (s_g (sg_sys sg)) /\ g_nldset (s_g (sg_sys sg')) = g_nldset (s_g (sg_sys sg)) /\ sg_nld sg' = sg_nld sg.
Proof.
  intros e o sg sg' Hq H. unfold group_step in H. destruct o as [d|did dims| | | |]; try contradiction Hq; cbn [step] in H.
  - destruct (create_info (g_cfg (s_g (sg_sys sg))) d) as [d'| |]; try discriminate H. cbn in H. injection H as <-. repeat split.
  - destruct (info_at (g_infos (s_g (sg_sys sg))) did) as [[d|]|]; try discriminate H.
    destruct (set_extent (g_cfg (s_g (sg_sys sg))) d dims) as [d' [|]]; try discriminate H. cbn in H. injection H as <-. repeat split.
Qed.

(** *** Flushes *)
Lemma assign_nn : forall ws off, Forall (fun w => 0 <= h_fsize (w_hdr w)) ws -> Forall (fun w => 0 <= h_fsize (w_hdr w)) (assign_foff off ws).
Proof. intros ws off H. revert off. induction H; intros off; cbn; constructor; auto. Qed.
Lemma assign_length : forall ws off, length (assign_foff off ws) = length ws.
Proof. induction ws as [|w ws IH]; intros off; cbn; [reflexivity|]. rewrite IH. reflexivity. Qed.
Lemma rank_assign_nn : forall st, nnr st -> nnr (rank_assign st).
Proof.
  intros st [H1 H2]. split; cbn.
  - unfold flushed, unflushed. rewrite app_length, assign_length, firstn_length, skipn_length. lia.
  - apply Forall_app. split; [apply firstn_Forall; exact H2|]. apply assign_nn. apply skipn_Forall. exact H2.
Qed.
Lemma rank_flushed_nn : forall b st, nnr st -> nnr (rank_flushed b st).
Proof.
  intros b st [H1 H2]. split; cbn; [lia|]. apply Forall_app. split; [apply firstn_Forall; exact H2|].
  apply Forall_map. cbn. apply (assign_nn (unflushed st) 0). apply skipn_Forall. exact H2.
Qed.

Lemma flush_one_again : forall all doff sg sg', flush_group all doff sg = SOk sg' -> gwf sg ->
  gwf sg' /\ (full sg \/ logged sg -> logged sg') /\ (behind sg -> behind sg' /\ ~ full sg).
Proof.
  intros all doff sg sg' H W. pose proof (size_nn sg W) as N. destruct W as [W1 W2]. unfold flush_group in H. unfold full, logged, behind, logged.
  destruct (group_size (s_g (sg_sys sg)) =? 0) eqn:E.
  - apply Z.eqb_eq in E. injection H as <-. cbn. split; [split; cbn; [|exact W2]|].
    + apply Forall_map. eapply Forall_impl; [|exact W1]. intros st. apply rank_assign_nn.
    + split; [intros [A|A]; lia|]. intros [A B]. repeat split; lia.
  - destruct (sg_nld sg <? g_nldset (s_g (sg_sys sg))) eqn:L; [discriminate H|]. apply Z.ltb_ge in L. apply Z.eqb_neq in E.
    injection H as <-. unfold gwf. cbn [sg_sys s_g sg_nld]. unfold flush_writes. fold (group_size (s_g (sg_sys sg))).
    rewrite (proj2 (Z.eqb_neq _ _) E). cbn. split; [split; [|lia]|].
    + apply Forall_map. apply Forall_forall. intros [b st] Hin. cbn. apply rank_flushed_nn. apply in_combine_r in Hin. rewrite Forall_forall in W1. apply W1. exact Hin.
    + split; [intros _; lia|]. intros [A B]. lia.
Qed.

Lemma meta_one_again : forall sg sg', metaflush_group sg = SOk sg' -> gwf sg ->
  gwf sg' /\ g_nldset (s_g (sg_sys sg')) = g_nldset (s_g (sg_sys sg)) /\ sg_nld sg' = sg_nld sg.
Proof.
  intros sg sg' H [W1 W2]. unfold metaflush_group in H.
  assert (Hr : Forall nnr (g_ranks (metaflush (s_g (sg_sys sg)))) /\ g_nldset (metaflush (s_g (sg_sys sg))) = g_nldset (s_g (sg_sys sg))).
  { unfold metaflush. cbn. split; [|reflexivity]. apply Forall_map. apply Forall_forall. intros st _. split; cbn; [lia|constructor]. }
  destruct Hr as [R1 R2].
  destruct (has_entries (s_g (sg_sys sg))); [destruct (sg_nmd sg <? length (g_mdsets (s_g (sg_sys sg))))%nat; [discriminate H|]|];
    injection H as <-; unfold gwf; cbn [sg_sys s_g sg_nld]; rewrite R2; repeat split; assumption.
Qed.

(** *** All groups *)
Lemma F2_comp : forall A B C (R : A -> B -> Prop) (S : B -> C -> Prop) (T : A -> C -> Prop) a b c,
  Forall2 R a b -> Forall2 S b c -> (forall x y z, R x y -> S y z -> T x z) -> Forall2 T a c.
Proof.
  intros A B C R S T a b c H. revert c. induction H; intros c G K; inversion G; subst; constructor; eauto.
Qed.
Lemma F2_impl : forall A B (R S : A -> B -> Prop) a b, Forall2 R a b -> (forall x y, R x y -> S x y) -> Forall2 S a b.
Proof. intros A B R S a b H K. induction H; constructor; auto. Qed.
Lemma F2_wf : forall A (P : A -> Prop) (R : A -> A -> Prop) a b, Forall2 R a b -> Forall P a -> Forall2 (fun x y => P x /\ R x y) a b.
Proof. intros A P R a b H. induction H; intros G; inversion G; subst; constructor; auto. Qed.
Lemma F2_right : forall A B (P : B -> Prop) (R : A -> B -> Prop) a b, Forall2 R a b -> (forall x y, R x y -> P y) -> Forall P b.
Proof. intros A B P R a b H K. induction H; constructor; eauto. Qed.
Lemma F2_at : forall A B (R : A -> B -> Prop) a b k x, Forall2 R a b -> nth_error a k = Some x -> exists y, nth_error b k = Some y /\ R x y.
Proof. intros A B R a b k x H. revert k. induction H; intros [|k] G; cbn in *; try discriminate G; [injection G as <-; eauto|auto]. Qed.
Lemma F2_refl : forall A (R : A -> A -> Prop) a, Forall (fun x => R x x) a -> Forall2 R a a.
Proof. intros A R a H. induction H; constructor; auto. Qed.
Lemma F2_map : forall A B (R : A -> B -> Prop) (f : A -> B) a, Forall (fun x => R x (f x)) a -> Forall2 R a (map f a).
Proof. intros A B R f a H. induction H; cbn; constructor; auto. Qed.

Lemma smap_F2 : forall A B (f : A -> sres B) l bs, smap f l = SOk bs -> Forall2 (fun a b => f a = SOk b) l bs.
Proof.
  intros A B f l. induction l as [|a l IH]; intros bs H; cbn in H; [injection H as <-; constructor|].
  destruct (f a) as [b| | |] eqn:E; try discriminate H. destruct (smap f l) as [r| | |]; try discriminate H.
  injection H as <-. constructor; auto.
Qed.
Lemma smap_combine_r : forall A B C (f : A * B -> sres C) ds gs bs, length ds = length gs -> smap f (combine ds gs) = SOk bs ->
  Forall2 (fun g b => exists d, f (d, g) = SOk b) gs bs.
Proof.
  intros A B C f ds gs bs L H. apply smap_F2 in H. revert gs bs L H. induction ds as [|d ds IH]; intros [|g gs] bs L H; cbn in *; try discriminate L; inversion H; subst; constructor; eauto.
Qed.
Lemma smap_combine_l : forall A B C (f : A * B -> sres C) gs cs bs, length cs = length gs -> smap f (combine gs cs) = SOk bs ->
  Forall2 (fun g b => exists c, f (g, c) = SOk b) gs bs.
Proof.
  intros A B C f gs cs bs L H. apply smap_F2 in H. revert cs bs L H. induction gs as [|g gs IH]; intros [|c cs] bs L H; cbn in *; try discriminate L; inversion H; subst; constructor; eauto.
Qed.

Definition swf (n : nat) (s : sfile) : Prop := length (sf_groups s) = n /\ fst (sf_hdr s) = 0 /\ Forall gwf (sf_groups s).
Definition flushed_to (a b : sgroup) : Prop := gwf b /\ (full a \/ logged a -> logged b) /\ (behind a -> behind b).
Definition same_log (a b : sgroup) : Prop := gwf b /\ g_nldset (s_g (sg_sys b)) = g_nldset (s_g (sg_sys a)) /\ sg_nld b = sg_nld a.
Definition next (a b : sgroup) : Prop := gwf b /\ (full a \/ logged a -> full b \/ logged b) /\ (behind a -> behind b).

Lemma flush_again : forall n doffs s s', swf n s -> length doffs = n -> sub_flush doffs s = SOk s' ->
  Forall2 flushed_to (sf_groups s) (sf_groups s') /\ sf_hdr s' = sf_hdr s /\ sf_cfg s' = sf_cfg s.
Proof.
  intros n doffs s s' (W1 & W2 & W3) L H. unfold sub_flush in H.
  destruct (smap (fun p => flush_group (size_all s) (fst p) (snd p)) (combine doffs (sf_groups s))) as [gs| | |] eqn:E; try discriminate H.
  cbn in H. injection H as <-. cbn. split; [|split; reflexivity].
  apply smap_combine_r in E; [|lia]. eapply F2_impl; [exact (F2_wf _ _ _ _ _ E W3)|].
  intros x y [Wx [d Hd]]. cbn in Hd. destruct (flush_one_again _ _ _ _ Hd Wx) as (A & B & C). split; [exact A|]. split; [exact B|]. intros D. exact (proj1 (C D)).
Qed.

Lemma pre_flush : forall n doffs s s', swf n s -> length doffs = n -> (if sub_pending s then sub_flush doffs s else SOk s) = SOk s' ->
  Forall2 flushed_to (sf_groups s) (sf_groups s') /\ sf_hdr s' = sf_hdr s /\ sf_cfg s' = sf_cfg s.
Proof.
  intros n doffs s s' W L H. destruct (sub_pending s) eqn:P; [exact (flush_again n doffs s s' W L H)|].
  injection H as <-. split; [|split; reflexivity]. destruct W as (W1 & W2 & W3). apply F2_refl. apply Forall_forall. intros sg Hin.
  split; [rewrite Forall_forall in W3; exact (W3 sg Hin)|]. split; [|intros Q; exact Q]. intros [Q|Q]; [|exact Q]. exfalso.
  apply full_pending in Q. unfold sub_pending in P. assert (existsb (fun sg => any_pending (s_g (sg_sys sg))) (sf_groups s) = true) by (apply existsb_exists; exists sg; split; assumption). congruence.
Qed.

Lemma meta_again : forall gs gs', Forall gwf gs -> sub_metaflush gs = SOk gs' -> Forall2 same_log gs gs'.
Proof.
  intros gs gs' W H. unfold sub_metaflush in H.
  destruct (existsb (fun b => b) (map (fun sg => has_entries (s_g (sg_sys sg))) gs) && negb (forallb (fun b => b) (map (fun sg => has_entries (s_g (sg_sys sg))) gs))); [discriminate H|].
  apply smap_F2 in H. eapply F2_impl; [exact (F2_wf _ _ _ _ _ H W)|]. intros x y [Wx Hy]. exact (meta_one_again x y Hy Wx).
Qed.

Lemma flushed_same : forall x y z, flushed_to x y -> same_log y z -> flushed_to x z.
Proof.
  intros x y z (A & B & C) (D & E & F). unfold flushed_to, logged, behind, logged in *. rewrite E, F. split; [exact D|]. split; [exact B|exact C].
Qed.
Lemma flushed_next : forall x y, flushed_to x y -> next x y.
Proof. intros x y (A & B & C). split; [exact A|]. split; [intros T; right; exact (B T)|exact C]. Qed.

Lemma F2_length' : forall A B (R : A -> B -> Prop) a b, Forall2 R a b -> length b = length a.
Proof. intros A B R a b H. induction H; cbn; congruence. Qed.

(** Closing and opening again. *)
Lemma open_again : forall s gs nps gs', Forall gwf gs -> length nps = length gs -> fst (sf_hdr s) = 0 ->
  smap (fun p => open_group s gs (fst p) (snd p)) (combine (seq 0 (length nps)) nps) = SOk gs' ->
  Forall2 (fun a b => gwf b /\ g_nldset (s_g (sg_sys b)) = g_nldset (s_g (sg_sys a)) /\ sg_nld b = 0) gs gs'.
Proof.
  intros s gs nps gs' W L Hh H. apply smap_F2 in H.
  assert (G : forall pre rest nps gs', gs = pre ++ rest -> length nps = length rest ->
    Forall2 (fun p b => open_group s gs (fst p) (snd p) = SOk b) (combine (seq (length pre) (length nps)) nps) gs' ->
    Forall2 (fun a b => gwf b /\ g_nldset (s_g (sg_sys b)) = g_nldset (s_g (sg_sys a)) /\ sg_nld b = 0) rest gs').
  { clear H L nps gs'. intros pre rest. revert pre. induction rest as [|a rest IH]; intros pre [|np nps] gs' E L H; cbn in L; try discriminate L; cbn in H.
    - inversion H; subst. constructor.
    - inversion H as [|x y l l' H1 H2]; subst x l gs'. cbn in H1. unfold open_group in H1. destruct (found s (length pre)); [|discriminate H1].
      rewrite E in H1. rewrite nth_error_app2, Nat.sub_diag in H1 by lia. cbn [nth_error] in H1.
      destruct (reopen_infos (g_cfg (s_g (sg_sys a))) (g_infos (s_g (sg_sys a)))) as [infos| |]; try discriminate H1. cbn in H1. injection H1 as <-.
      constructor.
      + cbn. split; [|split; [reflexivity|exact Hh]]. split; cbn.
        * apply Forall_forall. intros st Hin. apply repeat_spec in Hin. subst st. split; cbn; [lia|constructor].
        * rewrite E in W. apply Forall_app in W. destruct W as [_ W]. inversion W; subst. destruct H3. assumption.
      + apply (IH (pre ++ [a]) nps l').
        * rewrite E, <- app_assoc. reflexivity.
        * lia.
        * rewrite app_length. cbn. rewrite Nat.add_1_r. exact H2. }
  exact (G [] gs nps gs' eq_refl L H).
Qed.

Definition step_to (cfg : Z) (o : sop) (a b : sgroup) : Prop :=
  next a b /\ (looks_again cfg o -> full a \/ logged a -> behind b).

Lemma same_next : forall a b, gwf b -> group_size (s_g (sg_sys b)) >= group_size (s_g (sg_sys a)) -> g_nldset (s_g (sg_sys b)) = g_nldset (s_g (sg_sys a)) ->
  sg_nld b = sg_nld a -> next a b.
Proof. intros a b A B C D. unfold next, full, logged, behind, logged. rewrite C, D. split; [exact A|]. split; [|tauto]. intros [Q|Q]; [left; lia|right; exact Q]. Qed.

Lemma quiet_again : forall e o gs gs', quiet o -> Forall gwf gs -> smap (group_step e o) gs = SOk gs' ->
  Forall2 (fun a b => next a b /\ (full a -> full b)) gs gs'.
Proof.
  intros e o gs gs' Hq W H. apply smap_F2 in H. eapply F2_impl; [exact (F2_wf _ _ _ _ _ H W)|].
  intros x y [[Wx1 Wx2] Hy]. destruct (quiet_group _ _ _ _ Hq Hy) as (A & B & C).
  assert (Hs : group_size (s_g (sg_sys y)) = group_size (s_g (sg_sys x))) by (unfold group_size; rewrite A; reflexivity).
  split; [|unfold full; rewrite Hs; tauto]. apply same_next; [split; [rewrite A; exact Wx1|rewrite B; exact Wx2]|lia|exact B|exact C].
Qed.

Lemma write_again : forall e gid rk did sels data s sg sg', Forall gwf (sf_groups s) -> nth_error (sf_groups s) gid = Some sg ->
  group_step e (OWrite rk did sels data) sg = SOk sg' ->
  Forall2 (fun a b => next a b /\ (full a -> full b)) (sf_groups s) (upd_nth gid sg' (sf_groups s)) /\ (sels <> [] -> data <> [] -> full sg').
Proof.
  intros e gid rk did sels data s sg sg' W Hn H.
  assert (Wg : gwf sg) by (rewrite Forall_forall in W; apply W; exact (nth_error_In _ _ Hn)).
  destruct (write_group _ _ _ _ _ _ _ H Wg) as (A & B & C & D). pose proof (size_nn sg Wg) as N.
  assert (P : 0 <= match sels with [] => 0 | _ => Zlen data end) by (destruct sels; unfold Zlen; lia).
  assert (R : next sg sg' /\ (full sg -> full sg')) by (split; [apply same_next; [exact A|lia|exact C|exact B]|unfold full; lia]).
  split.
  - clear - W Hn R. revert gid Hn. induction W as [|x l Wx W IH]; intros [|gid] Hn; cbn in *; try discriminate Hn.
    + injection Hn as ->. constructor; [exact R|]. apply F2_refl. eapply Forall_impl; [|exact W]. intros a Wa. split; [apply same_next; [exact Wa|lia|reflexivity|reflexivity]|tauto].
    + constructor; [|apply IH; exact Hn]. split; [apply same_next; [exact Wx|lia|reflexivity|reflexivity]|tauto].
  - intros S1 S2. unfold full. rewrite D. destruct sels as [|b sels]; [contradiction S1; reflexivity|]. destruct data as [|x data]; [contradiction S2; reflexivity|].
    unfold Zlen. cbn [length]. lia.
Qed.

Lemma step_again : forall e n s o s' out, e_coll e = true -> swf n s -> sessions_op n o -> sub_step e s o = SOk (s', out) ->
  swf n s' /\ sf_cfg s' = sf_cfg s /\ Forall2 (step_to (sf_cfg s) o) (sf_groups s) (sf_groups s') /\
  (~ stores o -> Forall2 (fun a b => full a -> full b) (sf_groups s) (sf_groups s')) /\
  (forall gid rk did sels data, o = SWrite gid rk did sels data -> sels <> [] -> data <> [] ->
     exists sg', nth_error (sf_groups s') gid = Some sg' /\ full sg').
Proof.
  intros e n s o s' out He W Ho H. pose proof W as (W1 & W2 & W3).
  assert (Q : sf_hdr s' = sf_hdr s \/ fst (sf_hdr s') = 0 ->
    sf_cfg s' = sf_cfg s -> Forall2 (step_to (sf_cfg s) o) (sf_groups s) (sf_groups s') ->
    swf n s' /\ sf_cfg s' = sf_cfg s /\ Forall2 (step_to (sf_cfg s) o) (sf_groups s) (sf_groups s')).
  { intros Q1 Q2 Q3. split; [|split; assumption]. split; [rewrite (F2_length' _ _ _ _ _ Q3); exact W1|]. split; [destruct Q1 as [Q1|Q1]; [rewrite Q1; exact W2|exact Q1]|].
    apply (F2_right _ _ _ _ _ _ Q3). intros x y [[A _] _]. exact A. }
  assert (K : forall A B C D E : Prop, (A /\ B /\ C) -> D -> E -> A /\ B /\ C /\ D /\ E) by tauto.
  destruct o as [d|did dims|gid rk did sels data|doffs|doffs calls|doffs nps].
  - cbn [sub_step] in H. destruct (smap (group_step e (OCreate d)) (sf_groups s)) as [gs| | |] eqn:E; try discriminate H.
    cbn in H. injection H as <- <-. pose proof (quiet_again e (OCreate d) _ _ Logic.I W3 E) as F. apply K; [apply Q; [left; reflexivity|reflexivity|]| |].
    + eapply F2_impl; [exact F|]. intros x y [A B]. split; [exact A|]. intros [].
    + intros _. eapply F2_impl; [exact F|]. intros x y [A B]. exact B.
    + intros; discriminate.
  - cbn [sub_step] in H. destruct (smap (group_step e (OSetExtent did dims)) (sf_groups s)) as [gs| | |] eqn:E; try discriminate H.
    cbn in H. injection H as <- <-. pose proof (quiet_again e (OSetExtent did dims) _ _ Logic.I W3 E) as F. apply K; [apply Q; [left; reflexivity|reflexivity|]| |].
    + eapply F2_impl; [exact F|]. intros x y [A B]. split; [exact A|]. intros [].
    + intros _. eapply F2_impl; [exact F|]. intros x y [A B]. exact B.
    + intros; discriminate.
  - cbn [sub_step] in H. destruct (nth_error (sf_groups s) gid) as [sg|] eqn:En; [|discriminate H].
    destruct (group_step e (OWrite rk did sels data) sg) as [sg'| | |] eqn:E; try discriminate H. cbn in H. injection H as <- <-.
    destruct (write_again _ _ _ _ _ _ _ _ _ W3 En E) as [F1 F2]. apply K; [apply Q; [left; reflexivity|reflexivity|]| |].
    + eapply F2_impl; [exact F1|]. intros x y [A B]. split; [exact A|]. intros [].
    + intros _. eapply F2_impl; [exact F1|]. intros x y [A B]. exact B.
    + intros g' rk' did' sels' data' Heq S1 S2. injection Heq as <- <- <- <- <-. exists sg'. split; [|exact (F2 S1 S2)]. cbn [sf_groups with_groups].
      clear - En. revert gid En. induction (sf_groups s) as [|x l IH]; intros [|gid] En; cbn in *; try discriminate En; auto.
  - cbn [sub_step] in H. destruct (if sub_pending s then sub_flush doffs s else SOk s) as [s1| | |] eqn:E; try discriminate H.
    cbn in H. injection H as <- <-. destruct (pre_flush n doffs s s1 W Ho E) as (F & G1 & G2). apply K; [apply Q; [left; exact G1|exact G2|]| |].
    + eapply F2_impl; [exact F|]. intros x y (A & B & C). split; [|intros []]. split; [exact A|]. split; [intros D; right; exact (B D)|exact C].
    + intros N. contradiction N. exact Logic.I.
    + intros; discriminate.
  - cbn [sub_step] in H. rewrite He in H. cbn [andb] in H. destruct Ho as [L1 L2].
    destruct (if sub_pending s then sub_flush doffs s else SOk s) as [s1| | |] eqn:E; try discriminate H. cbn [sbind] in H.
    destruct (pre_flush n doffs s s1 W L1 E) as (F & G1 & G2).
    assert (W1' : Forall gwf (sf_groups s1)) by (apply (F2_right _ _ _ _ _ _ F); intros x y [A _]; exact A).
    assert (LL : length (sf_groups s1) = n) by (rewrite (F2_length' _ _ _ _ _ F); exact W1).
    unfold sub_read in H. rewrite G2 in H. apply K; [|intros N; contradiction N; exact Logic.I|intros; discriminate].
    destruct (has (sf_cfg s) CFG_SINGLE_SUBFILE_READ) eqn:Hc.
    + destruct (if existsb (fun sg => g_metadirty (s_g (sg_sys sg))) (sf_groups s1) then sub_metaflush (sf_groups s1) else SOk (sf_groups s1)) as [gs| | |] eqn:Em; try discriminate H.
      cbn [sbind] in H. destruct (smap (fun p => read_own e (fst p) (snd p)) (combine gs calls)) as [r| | |] eqn:Er; try discriminate H. cbn [sbind] in H. injection H as <- <-.
      assert (M : Forall2 same_log (sf_groups s1) gs).
      { destruct (existsb (fun sg => g_metadirty (s_g (sg_sys sg))) (sf_groups s1)); [exact (meta_again _ _ W1' Em)|]. injection Em as <-. apply F2_refl. eapply Forall_impl; [|exact W1']. intros a Wa. split; [exact Wa|]. split; reflexivity. }
      assert (Wg : Forall gwf gs) by (apply (F2_right _ _ _ _ _ _ M); intros x y [A _]; exact A).
      apply smap_combine_l in Er; [|rewrite (F2_length' _ _ _ _ _ M), LL; exact L2].
      assert (R : Forall2 same_log gs (map fst r)).
      { clear - Er Wg. induction Er as [|x y l l' [c Hc] Er IH]; [constructor|]. inversion Wg; subst. cbn. constructor; [|auto]. cbn in Hc. unfold read_own in Hc.
        destruct (read_each e (visible x) (s_idx (sg_sys x)) c) as [p| |]; try discriminate Hc. cbn in Hc. injection Hc as <-. cbn. split; [exact H1|]. split; reflexivity. }
      apply Q; [left; exact G1|exact G2|]. cbn [sf_groups with_groups].
      assert (N : Forall2 next (sf_groups s) (map fst r)).
      { eapply F2_impl; [|exact flushed_next]. eapply F2_comp; [exact (F2_comp _ _ _ _ _ _ _ _ _ F M flushed_same)|exact R|exact flushed_same]. }
      eapply F2_impl; [exact N|]. intros x y A. split; [exact A|]. intros B. cbn in B. congruence.
    + destruct (smap (fun p => smap (fill_only (s_g (sg_sys (fst p)))) (snd p)) (combine (sf_groups s1) calls)) as [bufs| | |]; try discriminate H. cbn [sbind] in H.
      unfold switch_subfiles in H. destruct (forallb (found s1) (seq 0 (length (sf_groups s1)))); [|discriminate H]. cbn [sbind] in H. injection H as <- <-.
      apply Q; [left; exact G1|exact G2|]. cbn [sf_groups with_groups]. eapply F2_comp; [exact F| |].
      * apply F2_map with (R := fun a b => gwf b /\ g_nldset (s_g (sg_sys b)) = g_nldset (s_g (sg_sys a)) /\ sg_nld b = 0). eapply Forall_impl; [|exact W1']. intros a Wa. split; [exact Wa|]. cbn. split; [reflexivity|]. rewrite G1. exact W2.
      * intros x y z (A & B & C) (D & E1 & E2). unfold step_to, next, full, logged, behind, logged in *. rewrite E1, E2. split; [split; [exact D|split; [intros T; right; exact (B T)|]]|intros _ T; split; exact (B T)].
        intros T. split; [exact (proj1 (C T))|exact (proj1 (C T))].
  - destruct Ho as [L1 L2]. cbn [sub_step] in H. destruct (sub_flush doffs s) as [s1| | |] eqn:E; try discriminate H. cbn [sbind] in H.
    destruct (flush_again n doffs s s1 W L1 E) as (F & G1 & G2).
    assert (W1' : Forall gwf (sf_groups s1)) by (apply (F2_right _ _ _ _ _ _ F); intros x y [A _]; exact A).
    assert (LL : length (sf_groups s1) = n) by (rewrite (F2_length' _ _ _ _ _ F); exact W1).
    destruct (sub_metaflush (sf_groups s1)) as [gs| | |] eqn:Em; try discriminate H. cbn [sbind] in H.
    pose proof (meta_again _ _ W1' Em) as M. assert (Wg : Forall gwf gs) by (apply (F2_right _ _ _ _ _ _ M); intros x y [A _]; exact A).
    set (s2 := mksf (sf_name s) (sf_cfg s) gs (0, 0%nat) (sf_created s)) in H.
    destruct (smap (fun p => open_group s2 gs (fst p) (snd p)) (combine (seq 0 (length nps)) nps)) as [gs'| | |] eqn:Eo; try discriminate H. cbn [sbind] in H. injection H as <- <-.
    apply open_again in Eo; [|exact Wg|rewrite (F2_length' _ _ _ _ _ M), LL; exact L2|reflexivity].
    apply K; [apply Q; [right; reflexivity|reflexivity|]|intros N; contradiction N; exact Logic.I|intros; discriminate]. cbn [sf_groups with_groups].
    eapply F2_comp; [exact (F2_comp _ _ _ _ _ (fun a b => full a \/ logged a -> logged b) _ _ _ F M (fun x y z P1 P2 => ltac:(unfold logged in *; rewrite (proj1 (proj2 P2)); exact (proj1 (proj2 P1)))))|exact Eo|].
    intros x y z A (D & E1 & E2). unfold step_to, next, full, logged, behind, logged in *. rewrite E1, E2. split; [split; [exact D|split; [intros T; right; exact (A T)|]]|intros _ T; split; exact (A T)].
    intros T. split; apply A; right; exact (proj1 T).
Qed.

(** Once a group is behind and has data again, nothing can store it. *)
Definition stuck_group (gid : nat) (s : sfile) : Prop := exists sg, nth_error (sf_groups s) gid = Some sg /\ full sg /\ behind sg.

Lemma smap_fail : forall A B (f : A -> sres B) l k a, nth_error l k = Some a -> f a = SFail -> (forall x, f x = SFail \/ exists b, f x = SOk b) -> smap f l = SFail.
Proof.
  intros A B f l. induction l as [|x l IH]; intros [|k] a Hn Hf Hd; cbn in Hn; try discriminate Hn; cbn.
  - injection Hn as ->. rewrite Hf. reflexivity.
  - destruct (Hd x) as [->|[b ->]]; [reflexivity|]. cbn. rewrite (IH k a Hn Hf Hd). reflexivity.
Qed.

Lemma stuck_flush : forall gid s doffs, length doffs = length (sf_groups s) -> stuck_group gid s -> sub_flush doffs s = SFail.
Proof.
  intros gid s doffs L (sg & H1 & H2 & H3 & H4). unfold sub_flush.
  assert (Hd : exists d, nth_error doffs gid = Some d).
  { destruct (nth_error doffs gid) as [d|] eqn:E; [exists d; reflexivity|]. apply nth_error_None in E. assert (gid < length (sf_groups s))%nat by (apply nth_error_Some; congruence). lia. }
  destruct Hd as [d Hd].
  rewrite (smap_fail _ _ (fun p => flush_group (size_all s) (fst p) (snd p)) (combine doffs (sf_groups s)) gid (d, sg)).
  - reflexivity.
  - apply combine_at; assumption.
  - cbn. unfold flush_group. unfold full in H2. rewrite (proj2 (Z.eqb_neq _ _)) by lia. rewrite (proj2 (Z.ltb_lt _ _) H4). reflexivity.
  - intros [d' x]. cbn. unfold flush_group. destruct (group_size (s_g (sg_sys x)) =? 0); [right; eexists; reflexivity|]. destruct (sg_nld x <? g_nldset (s_g (sg_sys x))); [left; reflexivity|right; eexists; reflexivity].
Qed.

Lemma stuck_pending : forall gid s, stuck_group gid s -> sub_pending s = true.
Proof.
  intros gid s (sg & H1 & H2 & _). unfold sub_pending. apply existsb_exists. exists sg. split; [exact (nth_error_In _ _ H1)|]. apply full_pending. exact H2.
Qed.

Lemma stuck_stores : forall e n gid s o, e_coll e = true -> length (sf_groups s) = n -> sessions_op n o -> stores o -> stuck_group gid s -> sub_step e s o = SFail.
Proof.
  intros e n gid s o He L Ho Hs K. pose proof (stuck_pending gid s K) as P.
  destruct o as [d|did dims|g rk did sels data|doffs|doffs calls|doffs nps]; try contradiction Hs; cbn [sub_step sessions_op] in *.
  - rewrite P, (stuck_flush gid s doffs) by (assumption || lia). reflexivity.
  - rewrite He, P. cbn [andb]. rewrite (stuck_flush gid s doffs) by (assumption || lia). reflexivity.
  - rewrite (stuck_flush gid s doffs) by (assumption || lia). reflexivity.
Qed.

Definition run_to (e : env) (s : sfile) (ops : list sop) (s' : sfile) : Prop := exists outs, sub_run e s ops = SOk (s', outs).
Lemma run_cons : forall e s o ops s', run_to e s (o :: ops) s' -> exists s1 out, sub_step e s o = SOk (s1, out) /\ run_to e s1 ops s'.
Proof.
  intros e s o ops s' [outs H]. cbn [sub_run] in H. destruct (sub_step e s o) as [[s1 out]| | |] eqn:E; try discriminate H. cbn [sbind fst snd] in H.
  destruct (sub_run e s1 ops) as [[s2 r]| | |] eqn:R; try discriminate H. cbn in H. injection H as <- <-. exists s1, out. split; [reflexivity|]. exists r. exact R.
Qed.
Lemma run_app : forall e ops1 ops2 s s', run_to e s (ops1 ++ ops2) s' -> exists s1, run_to e s ops1 s1 /\ run_to e s1 ops2 s'.
Proof.
  intros e ops1 ops2. induction ops1 as [|o ops1 IH]; intros s s' H; cbn [app] in H.
  - exists s. split; [exists []; reflexivity|exact H].
  - destruct (run_cons _ _ _ _ _ H) as (s1 & out & H1 & H2). destruct (IH s1 s' H2) as (s2 & [o2 H3] & H4). exists s2. split; [|exact H4].
    exists (out :: o2). cbn [sub_run]. rewrite H1. cbn [sbind fst snd]. rewrite H3. reflexivity.
Qed.

(** A level of one group that every call keeps. *)
Lemma run_level : forall e n gid (P : sgroup -> Prop), e_coll e = true -> (forall cfg o a b, step_to cfg o a b -> P a -> P b) ->
  forall ops s s', swf n s -> Forall (sessions_op n) ops -> (exists sg, nth_error (sf_groups s) gid = Some sg /\ P sg) -> run_to e s ops s' ->
  swf n s' /\ sf_cfg s' = sf_cfg s /\ exists sg, nth_error (sf_groups s') gid = Some sg /\ P sg.
Proof.
  intros e n gid P He HP ops. induction ops as [|o ops IH]; intros s s' W Ho (sg & H1 & H2) R.
  - destruct R as [outs R]. cbn in R. injection R as <- <-. split; [exact W|]. split; [reflexivity|]. exists sg. split; assumption.
  - inversion Ho as [|x y Ho1 Ho2]; subst. destruct (run_cons _ _ _ _ _ R) as (s1 & out & E & R').
    destruct (step_again e n s o s1 out He W Ho1 E) as (W' & C & F & _). destruct (F2_at _ _ _ _ _ _ _ F H1) as (sg1 & A & B).
    destruct (IH s1 s' W' Ho2 (ex_intro _ sg1 (conj A (HP _ _ _ _ B H2))) R') as (I1 & I2 & I3). split; [exact I1|]. split; [congruence|exact I3].
Qed.

Lemma run_stuck : forall e n gid, e_coll e = true -> forall ops s s', swf n s -> Forall (sessions_op n) ops -> stuck_group gid s -> run_to e s ops s' -> swf n s' /\ stuck_group gid s'.
Proof.
  intros e n gid He ops. induction ops as [|o ops IH]; intros s s' W Ho K R.
  - destruct R as [outs R]. cbn in R. injection R as <- <-. split; assumption.
  - inversion Ho as [|x y Ho1 Ho2]; subst. destruct (run_cons _ _ _ _ _ R) as (s1 & out & E & R').
    destruct (step_again e n s o s1 out He W Ho1 E) as (W' & C & F & F' & _). apply (IH s1 s' W' Ho2); [|exact R'].
    assert (N : ~ stores o) by (intros S; rewrite (stuck_stores e n gid s o He (proj1 W) Ho1 S K) in E; discriminate E).
    destruct K as (sg & K1 & K2 & K3). destruct (F2_at _ _ _ _ _ _ _ F K1) as (sg1 & A & [(_ & _ & B) _]). destruct (F2_at _ _ _ _ _ _ _ (F' N) K1) as (sg2 & A' & B').
    assert (sg2 = sg1) by congruence. subst sg2. exists sg1. split; [exact A|]. split; [exact (B' K2)|exact (B K3)].
Qed.

(** A run with a write of bytes in it: just after that write the group has data. *)
Lemma run_writes : forall e n gid ops s s', e_coll e = true -> swf n s -> Forall (sessions_op n) ops -> writes_bytes gid ops -> run_to e s ops s' ->
  exists ops1 ops2 s1 s2 o out, ops = ops1 ++ o :: ops2 /\ run_to e s ops1 s1 /\ sub_step e s1 o = SOk (s2, out) /\ run_to e s2 ops2 s' /\ ~ stores o /\
    (swf n s1 -> exists sg, nth_error (sf_groups s2) gid = Some sg /\ full sg).
Proof.
  intros e n gid ops s s' He W Ho (rk & did & sels & data & Hin & S1 & S2) R. apply in_split in Hin. destruct Hin as (ops1 & ops2 & ->).
  destruct (run_app _ _ _ _ _ R) as (s1 & R1 & R2). destruct (run_cons _ _ _ _ _ R2) as (s2 & out & E & R3).
  exists ops1, ops2, s1, s2, (SWrite gid rk did sels data), out. split; [reflexivity|]. split; [exact R1|]. split; [exact E|]. split; [exact R3|]. split; [intros []|].
  intros W1. apply Forall_app in Ho. destruct Ho as [_ Ho]. inversion Ho as [|x y Ho1 Ho2]; subst.
  destruct (step_again e n s1 _ s2 out He W1 Ho1 E) as (_ & _ & _ & _ & K). exact (K gid rk did sels data eq_refl S1 S2).
Qed.

Lemma run_swf : forall e n ops s s', e_coll e = true -> swf n s -> Forall (sessions_op n) ops -> run_to e s ops s' -> swf n s' /\ sf_cfg s' = sf_cfg s.
Proof.
  intros e n ops. induction ops as [|o ops IH]; intros s s' He W Ho R.
  - destruct R as [outs R]. cbn in R. injection R as <- <-. split; [assumption|reflexivity].
  - inversion Ho as [|x y Ho1 Ho2]; subst. destruct (run_cons _ _ _ _ _ R) as (s1 & out & E & R').
    destruct (step_again e n s o s1 out He W Ho1 E) as (W' & C & _). destruct (IH s1 s' He W' Ho2 R') as [I1 I2]. split; [exact I1|congruence].
Qed.

Lemma init_swf : forall name cfg nps f0, swf (length nps) (sub_init name cfg nps f0).
Proof.
  intros name cfg nps f0. split; [cbn; apply map_length|]. split; [reflexivity|]. cbn. apply Forall_map. apply Forall_forall. intros np _. split; cbn; [|lia].
  apply Forall_forall. intros st Hin. apply repeat_spec in Hin. subst st. split; cbn; [lia|constructor].
Qed.

Lemma written_again : forall e name cfg nps f0 ops1 o ops2 gid s outs, e_coll e = true ->
  Forall (sessions_op (length nps)) (ops1 ++ o :: ops2) -> writes_bytes gid ops1 -> looks_again cfg o -> writes_bytes gid ops2 ->
  sub_run e (sub_init name cfg nps f0) (ops1 ++ o :: ops2) = SOk (s, outs) ->
  (forall o', sessions_op (length nps) o' -> stores o' -> sub_step e s o' = SFail) /\
  (forall doffs, length doffs = length nps -> sub_close doffs s = SFail).
Proof.
  intros e name cfg nps f0 ops1 o ops2 gid s outs He Ho H1 Hl H2 R.
  assert (R' : run_to e (sub_init name cfg nps f0) (ops1 ++ o :: ops2) s) by (exists outs; exact R). clear R.
  pose proof (init_swf name cfg nps f0) as W. set (n := length nps) in *. set (s0 := sub_init name cfg nps f0) in *.
  apply Forall_app in Ho. destruct Ho as [Ho1 Ho]. inversion Ho as [|x y Hoo Ho2]; subst x y.
  destruct (run_app _ _ _ _ _ R') as (sa & Ra & Rb). destruct (run_cons _ _ _ _ _ Rb) as (sb & out & E & Rc).
  destruct (run_swf e n ops1 s0 sa He W Ho1 Ra) as [Wa Ca].
  assert (HA : exists sg, nth_error (sf_groups sa) gid = Some sg /\ (full sg \/ logged sg)).
  { destruct (run_writes e n gid ops1 s0 sa He W Ho1 H1 Ra) as (p & q & s1 & s2 & w & out' & Eq & P1 & P2 & P3 & P4 & P5). subst ops1.
    apply Forall_app in Ho1. destruct Ho1 as [Hp Hq]. inversion Hq as [|x y Hw Hq2]; subst x y. destruct (run_swf e n p s0 s1 He W Hp P1) as [W1 _].
    destruct (step_again e n s1 w s2 out' He W1 Hw P2) as (W2 & _). destruct (P5 W1) as (sg & G1 & G2).
    destruct (run_level e n gid (fun sg => full sg \/ logged sg) He (fun c o a b T => proj1 (proj2 (proj1 T))) q s2 sa W2 Hq2 (ex_intro _ sg (conj G1 (or_introl G2))) P3) as (_ & _ & X). exact X. }
  destruct (step_again e n sa o sb out He Wa Hoo E) as (Wb & Cb & Fb & _).
  assert (HB : exists sg, nth_error (sf_groups sb) gid = Some sg /\ behind sg).
  { destruct HA as (sg & G1 & G2). destruct (F2_at _ _ _ _ _ _ _ Fb G1) as (sg1 & G3 & [_ G4]). exists sg1. split; [exact G3|]. apply G4; [rewrite Ca; exact Hl|exact G2]. }
  assert (HC : swf n s /\ stuck_group gid s).
  { destruct (run_writes e n gid ops2 sb s He Wb Ho2 H2 Rc) as (p & q & s1 & s2 & w & out' & Eq & P1 & P2 & P3 & P4 & P5). subst ops2.
    apply Forall_app in Ho2. destruct Ho2 as [Hp Hq]. inversion Hq as [|x y Hw Hq2]; subst x y.
    destruct (run_level e n gid behind He (fun c o a b T => proj2 (proj2 (proj1 T))) p sb s1 Wb Hp HB P1) as (W1 & _ & (sg & G1 & G2)).
    destruct (step_again e n s1 w s2 out' He W1 Hw P2) as (W2 & _ & F & _). destruct (F2_at _ _ _ _ _ _ _ F G1) as (sg1 & G3 & [(_ & _ & G4) _]).
    destruct (P5 W1) as (sg2 & G5 & G6). assert (sg2 = sg1) by congruence. subst sg2.
    apply (run_stuck e n gid He q s2 s W2 Hq2); [|exact P3]. exists sg1. split; [exact G3|]. split; [exact G6|exact (G4 G2)]. }
  destruct HC as [Ws K]. split.
  - intros o' Ho' Hs. exact (stuck_stores e n gid s o' He (proj1 Ws) Ho' Hs K).
  - intros doffs L. unfold sub_close. rewrite (stuck_flush gid s doffs); [reflexivity| |exact K]. rewrite (proj1 Ws). exact L.
Qed.
