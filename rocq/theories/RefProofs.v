(** Proofs about the life time of files. *)
From Coq Require Import ZifyNat.
From Verif Require Import Base BaseProofs RefModel RefSpec.

Definition alive (l : list (nat * hkind)) : nat := match l with [] => 1 | _ => 0 end.

Record rinv (f : fobj) : Prop := mkrinv {
  ri_ref : fo_ref f = Zlen (fo_objs f);
  ri_closes : fo_closes f = alive (fo_objs f);
  ri_ids : NoDup (map fst (fo_ids f));
  ri_objs : NoDup (map fst (fo_objs f));
  ri_idlt : forall p, In p (fo_ids f) -> (fst p < fo_next f)%nat;
  ri_objlt : forall p, In p (fo_objs f) -> (fst p < fo_next f)%nat;
  ri_named : forall h o, In (h, o) (fo_ids f) -> In o (map fst (fo_objs f));
  ri_held : forall o, In o (map fst (fo_objs f)) -> exists h, In (h, o) (fo_ids f) }.

Lemma rinv_new : forall log, rinv (fobj_new log).
Proof.
  intros; constructor; cbn; auto; try (repeat constructor; cbn; tauto).
  - intros p [H|H]; [subst; cbn; lia|contradiction].
  - intros p [H|H]; [subst; cbn; lia|contradiction].
  - intros h o [H|H]; [inversion H; auto|contradiction].
  - intros o [H|H]; [subst; eauto|tauto].
Qed.

Lemma rinv_closes : forall f, rinv f -> fo_closes f = expected_closes f.
Proof.
  intros f I. rewrite (ri_closes _ I). unfold expected_closes, alive.
  destruct (fo_objs f) as [|[o k] t] eqn:E.
  - destruct (fo_ids f) as [|[h o] r] eqn:E2; auto.
    exfalso. assert (H := ri_named _ I h o). rewrite E, E2 in H. cbn in H. tauto.
  - destruct (ri_held _ I o) as (h & H); [rewrite E; cbn; auto|].
    destruct (fo_ids f); [cbn in H; tauto|auto].
Qed.

Lemma find_fst_in : forall A (h : nat) (l : list (nat * A)) p,
  find (fun p => (fst p =? h)%nat) l = Some p -> In p l /\ fst p = h.
Proof. intros A h l p F. apply find_some in F. destruct F as [F1 F2]. apply Nat.eqb_eq in F2. auto. Qed.

Lemma obj_of_in : forall f h o, obj_of f h = Some o -> In (h, o) (fo_ids f).
Proof.
  unfold obj_of; intros f h o H. destruct (find _ _) as [p|] eqn:F; [|discriminate].
  apply find_fst_in in F. destruct F as [F1 F2]. destruct p; cbn in *; inversion H; subst; auto.
Qed.

Lemma obj_of_none : forall f h o, obj_of f h = None -> ~ In (h, o) (fo_ids f).
Proof.
  unfold obj_of; intros f h o H I. destruct (find _ _) as [p|] eqn:F; [discriminate|].
  eapply find_none in F; eauto. cbn in F. rewrite Nat.eqb_refl in F; discriminate.
Qed.

Lemma live_closes : forall f h o, rinv f -> In (h, o) (fo_ids f) -> fo_closes f = 0%nat /\ fo_objs f <> [].
Proof.
  intros f h o I H. apply (ri_named _ I) in H. rewrite (ri_closes _ I).
  destruct (fo_objs f); cbn in *; [tauto|split; [auto|discriminate]].
Qed.

Lemma inc_ok : forall f, fo_closes f = 0%nat -> fo_ref f < 2 ^ 31 - 1 ->
  inc_ref f = Ok (mkfobj (fo_ref f + 1) (fo_log f) (fo_objs f) (fo_ids f) (fo_next f) (fo_closes f)).
Proof.
  intros f C R. unfold inc_ref. rewrite C. cbn [Nat.eqb negb].
  destruct (Z.leb_spec (2 ^ 31 - 1) (fo_ref f)); [lia|auto].
Qed.

Lemma inc_dec : forall f, fo_closes f = 0%nat -> 0 < fo_ref f < 2 ^ 31 - 1 ->
  (do g <- inc_ref f; dec_ref g) = Ok f.
Proof.
  intros f C R. rewrite inc_ok by lia. cbn [bind]. unfold dec_ref. cbn. rewrite C. cbn.
  destruct (Z.eqb_spec (fo_ref f + 1 - 1) 0); [lia|].
  destruct f; cbn in *. subst. do 2 f_equal. lia.
Qed.

Lemma NoDup_snoc : forall A (l : list A) x, NoDup l -> ~ In x l -> NoDup (l ++ [x]).
Proof.
  intros. eapply Permutation_NoDup; [apply Permutation_cons_append|]. constructor; auto.
Qed.

Lemma fresh_fst : forall A (l : list (nat * A)) n,
  (forall p, In p l -> (fst p < n)%nat) -> ~ In n (map fst l).
Proof. intros A l n H I. apply in_map_iff in I. destruct I as (p & E & I). apply H in I. lia. Qed.

Lemma rinv_add_obj : forall f k, rinv f -> fo_objs f <> [] ->
  rinv (add_obj (mkfobj (fo_ref f + 1) (fo_log f) (fo_objs f) (fo_ids f) (fo_next f) (fo_closes f)) k).
Proof.
  intros f k I N. destruct I as [R C NI NO LI LO NM HD].
  constructor; cbn.
  - rewrite Zlen_app. unfold Zlen at 2; cbn. lia.
  - rewrite C. destruct (fo_objs f); cbn; [congruence|auto].
  - rewrite map_app; cbn. apply NoDup_snoc; auto. apply fresh_fst; auto.
  - rewrite map_app; cbn. apply NoDup_snoc; auto. apply fresh_fst; auto.
  - intros p H; apply in_app_or in H; destruct H as [H|[H|H]]; [apply LI in H; lia|subst; cbn; lia|contradiction].
  - intros p H; apply in_app_or in H; destruct H as [H|[H|H]]; [apply LO in H; lia|subst; cbn; lia|contradiction].
  - intros h o H; rewrite map_app; apply in_or_app; apply in_app_or in H; destruct H as [H|[H|H]];
      [eauto|inversion H; subst; cbn; auto|contradiction].
  - intros o H; rewrite map_app in H; apply in_app_or in H; destruct H as [H|[H|H]].
    + apply HD in H. destruct H as (h & H). exists h. apply in_or_app; auto.
    + cbn in H; subst. eexists; apply in_or_app; right; cbn; eauto.
    + contradiction.
Qed.

Lemma rinv_add_id : forall f o, rinv f -> In o (map fst (fo_objs f)) -> rinv (add_id f o).
Proof.
  intros f o I H. destruct I as [R C NI NO LI LO NM HD].
  constructor; cbn; auto.
  - rewrite map_app; cbn. apply NoDup_snoc; auto. apply fresh_fst; auto.
  - intros p Hp; apply in_app_or in Hp; destruct Hp as [Hp|[Hp|Hp]]; [apply LI in Hp; lia|subst; cbn; lia|contradiction].
  - intros p Hp. apply LO in Hp. lia.
  - intros h' o' Hp; apply in_app_or in Hp; destruct Hp as [Hp|[Hp|Hp]]; [eauto|inversion Hp; subst; auto|contradiction].
  - intros o' Ho. apply HD in Ho. destruct Ho as (h & Ho). exists h; apply in_or_app; auto.
Qed.

Lemma NoDup_map_filter : forall A (p : nat * A -> bool) l, NoDup (map fst l) -> NoDup (map fst (filter p l)).
Proof.
  induction l as [|x l IH]; cbn; intros H; [auto|]. inversion H; subst.
  destruct (p x); cbn; auto. constructor; auto. intros I. apply H2.
  apply in_map_iff in I. destruct I as (y & E & I). apply filter_In in I. apply in_map_iff. exists y; tauto.
Qed.

Lemma NoDup_fst_inj : forall A (l : list (nat * A)) a b c, NoDup (map fst l) ->
  In (a, b) l -> In (a, c) l -> b = c.
Proof.
  induction l as [|[x y] l IH]; cbn; intros a b c N H1 H2; [tauto|].
  inversion N; subst.
  destruct H1 as [H1|H1], H2 as [H2|H2].
  - congruence.
  - inversion H1; subst. exfalso; apply H3. apply in_map_iff. exists (a, c); auto.
  - inversion H2; subst. exfalso; apply H3. apply in_map_iff. exists (a, b); auto.
  - eauto.
Qed.

Lemma filter_fst_length : forall A (l : list (nat * A)) o, NoDup (map fst l) -> In o (map fst l) ->
  List.length l = S (List.length (filter (fun p => negb (fst p =? o)%nat) l)).
Proof.
  induction l as [|[x y] l IH]; cbn; intros o N I; [tauto|].
  inversion N; subst. destruct (Nat.eqb_spec x o); cbn.
  - subst. f_equal. clear - H1. induction l as [|[a b] l IH]; cbn in *; auto.
    destruct (Nat.eqb_spec a o); cbn; [tauto|]. f_equal; auto.
  - f_equal. destruct I as [I|I]; [congruence|]. apply IH; auto.
Qed.

(** Closing the last identifier of an object and deleting the object. *)
Lemma rinv_close : forall f h o, rinv f -> In (h, o) (fo_ids f) ->
  existsb (fun p => (snd p =? o)%nat && negb (fst p =? h)%nat) (fo_ids f) = false ->
  exists g, dec_ref f = Ok g /\ rinv (del_obj (del_id g h) o).
Proof.
  intros f h o I Hh Ex.
  destruct (live_closes _ _ _ I Hh) as (C0 & NE).
  assert (Ho := ri_named _ I _ _ Hh).
  unfold dec_ref. rewrite C0. cbn [Nat.eqb negb]. eexists; split; [reflexivity|].
  assert (L := filter_fst_length _ _ _ (ri_objs _ I) Ho).
  assert (ExF : forall x y, In (x, y) (fo_ids f) -> y = o -> x = h).
  { intros x y Hx ->. destruct (Nat.eq_dec x h); auto. exfalso.
    assert (E : existsb (fun p => (snd p =? o)%nat && negb (fst p =? h)%nat) (fo_ids f) = true).
    { apply existsb_exists. exists (x, o). split; auto. cbn. rewrite Nat.eqb_refl. cbn.
      destruct (Nat.eqb_spec x h); cbn; congruence. }
    congruence. }
  destruct I as [R C NI NO LI LO NM HD].
  constructor; cbn.
  - rewrite R. unfold Zlen. rewrite L. lia.
  - rewrite R. unfold Zlen. rewrite L.
    destruct (filter (fun p => negb (fst p =? o)%nat) (fo_objs f)) eqn:E; cbn [List.length alive].
    + reflexivity.
    + destruct (Z.eqb_spec (Z.of_nat (S (S (List.length l))) - 1) 0); [lia|auto].
  - apply NoDup_map_filter; auto.
  - apply NoDup_map_filter; auto.
  - intros p H; apply filter_In in H; apply LI; tauto.
  - intros p H; apply filter_In in H; apply LO; tauto.
  - intros x y H; apply filter_In in H. destruct H as [H1 H2]. cbn in H2.
    assert (Q := NM _ _ H1). apply in_map_iff in Q. destruct Q as (p & E & Q). apply in_map_iff.
    exists p; split; auto. apply filter_In; split; auto.
    destruct (Nat.eqb_spec (fst p) o); cbn; auto. exfalso. apply ExF in H1; [|congruence].
    subst x. rewrite Nat.eqb_refl in H2. discriminate.
  - intros y H. apply in_map_iff in H. destruct H as (p & E & H). apply filter_In in H. destruct H as [H1 H2].
    destruct (HD y) as (x & Hx); [apply in_map_iff; eauto|]. exists x. apply filter_In; split; auto. cbn.
    destruct (Nat.eqb_spec x h); cbn; auto. exfalso. subst x.
    assert (o = y) by (eapply NoDup_fst_inj; eauto). subst.
    cbn in H2. rewrite Nat.eqb_refl in H2. discriminate.
Qed.

(** Closing an identifier of an object that has another one. *)
Lemma rinv_del_id : forall f h o, rinv f -> In (h, o) (fo_ids f) ->
  existsb (fun p => (snd p =? o)%nat && negb (fst p =? h)%nat) (fo_ids f) = true ->
  rinv (del_id f h).
Proof.
  intros f h o I Hh Ex. apply existsb_exists in Ex. destruct Ex as ((x & y) & Hx & E). cbn in E.
  apply andb_true_iff in E. destruct E as [E1 E2]. apply Nat.eqb_eq in E1. subst y.
  destruct I as [R C NI NO LI LO NM HD]. constructor; cbn; auto.
  - apply NoDup_map_filter; auto.
  - intros p H; apply filter_In in H; apply LI; tauto.
  - intros a b H; apply filter_In in H. eapply NM; apply H.
  - intros b H. destruct (HD _ H) as (a & Ha). destruct (Nat.eq_dec a h) as [->|N].
    + assert (b = o) by (eapply NoDup_fst_inj; eauto). subst. exists x. apply filter_In; auto.
    + exists a. apply filter_In; split; auto. cbn. destruct (Nat.eqb_spec a h); cbn; congruence.
Qed.

Lemma step_inv : forall f o, rinv f -> fo_ref f < 2 ^ 31 - 1 ->
  (fo_log f = true \/ match o with ROpen _ KDset false => False | _ => True end) ->
  (forall h, o = RGetFile h -> exists x y, In (x, y) (fo_ids f) /\ In (y, KFile) (fo_objs f)) ->
  exists g, rstep f o = Ok g /\ rinv g /\ fo_log g = fo_log f /\ fo_ref g <= fo_ref f + 1.
Proof.
  intros f o I R Hl Hg. unfold rstep.
  set (h := match o with ROpen h _ _ => h | RReopen h => h | RClose h _ => h | RGetFile h => h | RVisit h _ => h end).
  destruct (obj_of f h) as [ob|] eqn:O; [|exists f; split; [auto|split; [auto|split; [auto|lia]]]].
  assert (Hh := obj_of_in _ _ _ O).
  destruct (live_closes _ _ _ I Hh) as (C0 & NE).
  assert (R0 : 0 < fo_ref f).
  { rewrite (ri_ref _ I). destruct (fo_objs f); [congruence|]. unfold Zlen; cbn; lia. }
  assert (ID : (do g <- inc_ref f; dec_ref g) = Ok f) by (apply inc_dec; auto; lia).
  assert (NO : forall k, rinv (add_obj (mkfobj (fo_ref f + 1) (fo_log f) (fo_objs f) (fo_ids f) (fo_next f) (fo_closes f)) k))
    by (intros; apply rinv_add_obj; auto).
  destruct o as [h0 k okk|h0|h0 okk|h0|h0 k]; cbn in h; subst h.
  - destruct k; [exists f; split; [auto|split; [auto|split; [auto|lia]]]| |]; unfold open_obj; destruct okk.
    + rewrite inc_ok by (auto; lia). cbn [bind]. eexists; split; [reflexivity|]. split; [apply NO|cbn; split; [auto|lia]].
    + destruct Hl as [Hl|[]]. rewrite Hl. exists f; split; [auto|split; [auto|split; [auto|lia]]].
    + rewrite inc_ok by (auto; lia). cbn [bind]. eexists; split; [reflexivity|]. split; [apply NO|cbn; split; [auto|lia]].
    + rewrite ID. exists f; split; [auto|split; [auto|split; [auto|lia]]].
  - rewrite inc_ok by (auto; lia). cbn [bind]. eexists; split; [reflexivity|]. split; [apply NO|cbn; split; [auto|lia]].
  - unfold close_id. rewrite O.
    destruct (existsb _ _) eqn:Ex.
    + eexists; split; [reflexivity|]. split; [eapply rinv_del_id; eauto|cbn; split; [auto|lia]].
    + destruct (rinv_close _ _ _ I Hh Ex) as (g & D & Ig).
      assert (Dg : fo_log g = fo_log f /\ fo_ref g = fo_ref f - 1).
      { unfold dec_ref in D. rewrite C0 in D. cbn [Nat.eqb negb] in D. inversion D; subst; cbn; auto. }
      assert (Ho := ri_named _ I _ _ Hh). unfold kind_of.
      destruct (find (fun p => (fst p =? ob)%nat) (fo_objs f)) as [[ob' k]|] eqn:K.
      2:{ exfalso. apply in_map_iff in Ho. destruct Ho as (p & E & Ho). apply (find_none _ _ K) in Ho.
          rewrite E, Nat.eqb_refl in Ho. discriminate. }
      cbn [option_map snd].
      assert (G : exists g', (do g0 <- dec_ref f; Ok (del_obj (del_id g0 h0) ob)) = Ok g' /\ rinv g' /\
                    fo_log g' = fo_log f /\ fo_ref g' <= fo_ref f + 1).
      { rewrite D. cbn [bind]. eexists; split; [reflexivity|]. split; [auto|]. cbn. destruct Dg. split; [auto|lia]. }
      destruct k; [exact G| |]; destruct okk; try exact G; rewrite C0; cbn [Nat.eqb negb]; exists f; (split; [auto|split; [auto|split; [auto|lia]]]).
  - unfold get_file. destruct (Hg h0 eq_refl) as (x & y & H1 & H2).
    destruct (find (fun p => is_file (snd p)) (fo_objs f)) as [[o' k']|] eqn:F.
    + apply find_some in F. destruct F as [F1 F2]. eexists; split; [reflexivity|].
      split; [apply rinv_add_id; auto; apply in_map_iff; exists (o', k'); auto|cbn; split; [auto|lia]].
    + apply (find_none _ _ F) in H2. discriminate.
  - unfold visit. destruct k.
    + rewrite C0. cbn. exists f; split; [auto|split; [auto|split; [auto|lia]]].
    + rewrite ID. exists f; split; [auto|split; [auto|split; [auto|lia]]].
    + rewrite ID. exists f; split; [auto|split; [auto|split; [auto|lia]]].
Qed.

Lemma rrun_app : forall a b f, rrun f (a ++ b) = do g <- rrun f a; rrun g b.
Proof. induction a; cbn; intros; auto. destruct (rstep f a); cbn; auto. Qed.

Lemma run_inv : forall os f, rinv f -> fo_ref f + Zlen os <= 2 ^ 31 - 1 ->
  opens_succeed (fo_log f) os -> file_id_open f os ->
  exists g, rrun f os = Ok g /\ rinv g.
Proof.
  induction os as [|o os IH]; intros f I L S G; cbn; [eauto|].
  rewrite Zlen_cons in L. assert (P := Zlen_nonneg _ os).
  destruct (step_inv f o I) as (g & E & Ig & Lg & Rg).
  - lia.
  - destruct S as [S|S]; [auto|]. inversion S; subst. auto.
  - intros h ->. apply (G [] h os f); auto.
  - rewrite E. cbn. apply IH; auto.
    + lia.
    + rewrite Lg. destruct S as [S|S]; [left; auto|right; inversion S; auto].
    + intros pre h post f' Eq R. subst os. apply (G (o :: pre) h post f'); auto. cbn. rewrite E. auto.
Qed.

(** * The table of open files *)

(** The table lists exactly the open files whose inode is known. *)
Record oinv (fs : fsview) (t : otable) : Prop := mkoinv {
  oi_lt : forall p, In p (ot_open t) -> (fst p < ot_next t)%nat;
  oi_nd : NoDup (map fst (ot_open t));
  oi_map : forall id dev ino, In (id, Some (dev, ino)) (ot_open t) -> In (ino, id) (ot_map t);
  oi_open : forall ino id, In (ino, id) (ot_map t) ->
    exists dev q, In (id, Some (dev, ino)) (ot_open t) /\ fs q = Some (dev, ino);
  oi_uniq : forall ino i j, In (ino, i) (ot_map t) -> In (ino, j) (ot_map t) -> i = j }.

Lemma search_none : forall fs t p dev ino, fs p = Some (dev, ino) -> ot_search fs t p = None ->
  forall id, ~ In (ino, id) (ot_map t).
Proof.
  unfold ot_search; intros fs t p dev ino E H id I. rewrite E in H.
  destruct (find _ _) eqn:F; [discriminate|]. apply (find_none _ _ F) in I. cbn in I.
  rewrite Z.eqb_refl in I. discriminate.
Qed.

Lemma filter_none : forall (l : list (Z * nat)) ino, (forall id, ~ In (ino, id) l) ->
  filter (fun p => negb (fst p =? ino)) l = l.
Proof.
  induction l as [|[a b] l IH]; intros ino H; cbn; auto.
  destruct (Z.eqb_spec a ino).
  - subst. exfalso; eapply H; left; eauto.
  - cbn. f_equal. apply IH. intros id I. eapply H; right; eauto.
Qed.

Lemma oinv_open : forall fs t p r, oinv fs t -> ot_openf fs t p = Ok r -> oinv fs (snd r).
Proof.
  unfold ot_openf; intros fs t p r I H. destruct (ot_search fs t p) eqn:S; [discriminate|].
  destruct I as [L N M O U].
  destruct (fs p) as [[dev ino]|] eqn:E; inversion H; subst; clear H; cbn.
  - assert (NN := search_none _ _ _ _ _ E S). rewrite (filter_none _ _ NN).
    constructor; cbn.
    + intros q H; apply in_app_or in H; destruct H as [H|[H|H]]; [apply L in H; lia|subst; cbn; lia|contradiction].
    + rewrite map_app; cbn. apply NoDup_snoc; auto. apply fresh_fst; auto.
    + intros id d i H; apply in_app_or in H; destruct H as [H|[H|H]]; [right; eauto|inversion H; auto|contradiction].
    + intros i id [H|H].
      * inversion H; subst. exists dev, p. split; [apply in_or_app; right; cbn; auto|auto].
      * destruct (O _ _ H) as (d & q & H1 & H2). exists d, q. split; [apply in_or_app; auto|auto].
    + intros i a b [Ha|Ha] [Hb|Hb]; try (inversion Ha; subst); try (inversion Hb; subst); eauto.
      * exfalso; eapply NN; eauto.
      * exfalso; eapply NN; eauto.
  - constructor; cbn; auto.
    + intros q H; apply in_app_or in H; destruct H as [H|[H|H]]; [apply L in H; lia|subst; cbn; lia|contradiction].
    + rewrite map_app; cbn. apply NoDup_snoc; auto. apply fresh_fst; auto.
    + intros id d i H; apply in_app_or in H; destruct H as [H|[H|H]]; [eauto|inversion H|contradiction].
    + intros i id H. destruct (O _ _ H) as (d & q & H1 & H2). exists d, q. split; [apply in_or_app; auto|auto].
Qed.

Lemma oinv_close : forall fs t id, oinv fs t -> oinv fs (ot_close t id).
Proof.
  unfold ot_close; intros fs t id I.
  destruct (find _ _) as [[id' who]|] eqn:F; auto.
  apply find_fst_in in F. destruct F as [F1 F2]. cbn in F2; subst id'.
  destruct I as [L N M O U]. constructor; cbn.
  - intros p H; apply filter_In in H; apply L; tauto.
  - apply NoDup_map_filter; auto.
  - intros j d i H. apply filter_In in H. destruct H as [H1 H2]. cbn in H2.
    apply negb_true_iff, Nat.eqb_neq in H2. destruct who as [[d0 i0]|]; [|eauto].
    apply filter_In; split; [eauto|]. cbn. destruct (Z.eqb_spec i i0); cbn; auto. subst.
    exfalso. apply H2. eapply U; eauto.
  - intros i j H. destruct who as [[d0 i0]|].
    + apply filter_In in H. destruct H as [H1 H2]. cbn in H2.
      destruct (O _ _ H1) as (d & q & H3 & H4). exists d, q. split; auto. apply filter_In; split; auto. cbn.
      destruct (Nat.eqb_spec j id); cbn; auto. subst.
      assert (Q := NoDup_fst_inj _ _ _ _ _ N F1 H3). inversion Q; subst. rewrite Z.eqb_refl in H2. discriminate.
    + destruct (O _ _ H) as (d & q & H3 & H4). exists d, q. split; auto. apply filter_In; split; auto. cbn.
      destruct (Nat.eqb_spec j id); cbn; auto. subst.
      assert (Q := NoDup_fst_inj _ _ _ _ _ N F1 H3). discriminate.
  - intros i a b Ha Hb. destruct who as [[d0 i0]|]; [|eauto].
    apply filter_In in Ha, Hb. eapply U; [apply Ha|apply Hb].
Qed.

Lemma oinv_run : forall fs os t, oinv fs t -> oinv fs (orun fs t os).
Proof.
  induction os as [|o os IH]; cbn; intros t I; auto. apply IH. destruct o; cbn.
  - destruct (ot_openf fs t path) eqn:E; auto. eapply oinv_open; eauto.
  - apply oinv_close; auto.
Qed.

Lemma oinv0 : forall fs, oinv fs otable0.
Proof. intros; constructor; cbn; try tauto. constructor. Qed.
