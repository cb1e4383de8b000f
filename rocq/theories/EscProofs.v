(** Proofs about failing calls. *)
From Coq Require Import ZifyNat.
From Verif Require Import Base BaseProofs RefModel RefSpec RefProofs EscModel EscSpec.

Lemma state_rinv : forall log os f, state_of log os f ->
  rinv f /\ fo_ref f < 2 ^ 31 - 1 /\ fo_log f = log.
Proof.
  intros log os f (L & S & G & R).
  assert (Q : forall os f0, rinv f0 -> fo_ref f0 + Zlen os <= 2 ^ 31 - 2 ->
    opens_succeed (fo_log f0) os -> file_id_open f0 os ->
    exists g, rrun f0 os = Ok g /\ rinv g /\ fo_ref g <= 2 ^ 31 - 2 /\ fo_log g = fo_log f0).
  { clear. induction os as [|o os IH]; intros f I L S G; cbn; [exists f; rewrite Zlen_nil in L; split; [auto|split; [auto|split; [lia|auto]]]|].
    rewrite Zlen_cons in L. assert (P := Zlen_nonneg _ os).
    destruct (step_inv f o I) as (g & E & Ig & Lg & Rg).
    - lia.
    - destruct S as [S|S]; [auto|]. inversion S; subst. auto.
    - intros h ->. apply (G [] h os f); auto.
    - rewrite E. cbn. rewrite <- Lg. apply IH; auto.
      + lia.
      + rewrite Lg. destruct S as [S|S]; [left; auto|right; inversion S; auto].
      + intros pre h post f' Eq R. subst os. apply (G (o :: pre) h post f'); auto. cbn. rewrite E. auto. }
  destruct (Q os (fobj_new log)) as (g & E & I & B & Lg); auto.
  - apply rinv_new.
  - change (fo_ref (fobj_new log)) with 1; lia.
  - rewrite E in R. injection R as <-. split; [auto|]. split; [lia|exact Lg].
Qed.

(** Removing an identifier leaves none exactly when it was the only one. *)
Lemma filter_fst_nil : forall (l : list (nat * nat)) h ob, NoDup (map fst l) -> In (h, ob) l ->
  (filter (fun p => negb (fst p =? h)%nat) l = [] <-> l = [(h, ob)]).
Proof.
  intros l h ob N I. split; intros E.
  - destruct l as [|[a b] l]; [contradiction|]. cbn in E.
    destruct (Nat.eqb_spec a h) as [->|D]; [|discriminate]. cbn in E.
    cbn in N. inversion N as [|x y NI N']; subst.
    destruct I as [I|I]; [|exfalso; apply NI; apply in_map_iff; exists (h, ob); auto].
    injection I as ->. f_equal. destruct l as [|[c d] l]; auto. exfalso. cbn in E, NI.
    destruct (Nat.eqb_spec c h); [apply NI; auto|discriminate].
  - subst. cbn. rewrite Nat.eqb_refl. reflexivity.
Qed.

Lemma kind_in : forall f o k, rinv f -> In (o, k) (fo_objs f) -> kind_of f o = Some k.
Proof.
  intros f o k I H. unfold kind_of. destruct (find _ _) as [[o' k']|] eqn:F.
  - apply find_fst_in in F. destruct F as [F1 F2]. cbn in F2; subst o'. cbn.
    f_equal. eapply NoDup_fst_inj; [apply (ri_objs _ I)| |]; eauto.
  - apply (find_none _ _ F) in H. cbn in H. rewrite Nat.eqb_refl in H. discriminate.
Qed.

Lemma kind_some : forall f o k, kind_of f o = Some k -> In (o, k) (fo_objs f).
Proof.
  intros f o k H. unfold kind_of in H. destruct (find _ _) as [[o' k']|] eqn:F; [|discriminate].
  apply find_fst_in in F. destruct F as [F1 F2]. cbn in F2, H; subst o'. congruence.
Qed.

Lemma kind_live : forall f h o, rinv f -> In (h, o) (fo_ids f) -> exists k, kind_of f o = Some k.
Proof.
  intros f h o I H. apply (ri_named _ I) in H. apply in_map_iff in H. destruct H as ([o' k] & E & H).
  cbn in E; subst. exists k. apply kind_in; auto.
Qed.

Lemma ids_live : forall f h o, rinv f -> In (h, o) (fo_ids f) -> obj_of f h = Some o.
Proof.
  intros f h o I H. destruct (obj_of f h) as [o'|] eqn:E.
  - apply obj_of_in in E. f_equal. eapply NoDup_fst_inj; [apply (ri_ids _ I)| |]; eauto.
  - exfalso. eapply obj_of_none; eauto.
Qed.

(** Which calls close the underlying file. *)
Definition closing (f : fobj) (o : rop) : Prop :=
  exists h okk ob k, o = RClose h okk /\ fo_ids f = [(h, ob)] /\ In (ob, k) (fo_objs f) /\ (k = KFile \/ okk = true).

Lemma closes_exact : forall f o g ob, rinv f -> rinv g -> obj_of f (id_of o) = Some ob ->
  rstep f o = Ok g -> ((fo_closes f < fo_closes g)%nat <-> closing f o).
Proof.
  intros f o g ob I Ig O R. assert (Hh := obj_of_in _ _ _ O).
  destruct (live_closes _ _ _ I Hh) as (C0 & NE).
  assert (X : (fo_closes f < fo_closes g)%nat <-> fo_ids g = []).
  { rewrite C0, (rinv_closes _ Ig). unfold expected_closes. destruct (fo_ids g); [split; [auto|lia]|split; [lia|discriminate]]. }
  rewrite X. clear X.
  unfold rstep in R. fold (id_of o) in R.
  replace (match o with ROpen h _ _ => h | RReopen h => h | RClose h _ => h | RGetFile h => h | RVisit h _ => h end) with (id_of o) in R by (destruct o; reflexivity).
  rewrite O in R.
  assert (NN : fo_ids f <> []) by (intros E; rewrite E in Hh; contradiction).
  assert (INC : forall x, inc_ref f = Ok x -> fo_ids x = fo_ids f).
  { unfold inc_ref. intros x. destruct (negb _); [discriminate|]. destruct (_ <=? _); [discriminate|]. intros H; inversion H; reflexivity. }
  assert (DEC : forall y x, dec_ref y = Ok x -> fo_ids x = fo_ids y).
  { unfold dec_ref. intros y x. destruct (negb _); [discriminate|]. intros H; inversion H; reflexivity. }
  assert (SAME : fo_ids g = fo_ids f -> (forall h okk, o <> RClose h okk) -> (fo_ids g = [] <-> closing f o)).
  { intros E D. rewrite E. split; [congruence|]. intros (h & okk & _ & _ & E' & _). exfalso; eapply D; eauto. }
  assert (MORE : forall x, fo_ids g = x ++ [(fo_next f, fo_next f)] -> (forall h okk, o <> RClose h okk) -> (fo_ids g = [] <-> closing f o)).
  { intros x E D. rewrite E. split; [destruct x; discriminate|]. intros (h & okk & _ & _ & E' & _). exfalso; eapply D; eauto. }
  destruct o as [h k okk|h|h okk|h|h k]; cbn [id_of] in *.
  - destruct k.
    + inversion R; subst. apply SAME; [auto|discriminate].
    + unfold open_obj in R. destruct okk.
      * destruct (inc_ref f) as [x| |] eqn:E; [|discriminate|discriminate]. cbn in R. inversion R; subst.
        assert (N : fo_next x = fo_next f).
        { unfold inc_ref in E. destruct (negb _); [discriminate|]. destruct (_ <=? _); [discriminate|]. inversion E; reflexivity. }
        eapply MORE; [cbn; rewrite N; reflexivity|discriminate].
      * destruct (fo_log f); [inversion R; subst; apply SAME; [auto|discriminate]|].
        apply SAME; [auto|discriminate].
    + unfold open_obj in R. destruct okk.
      * destruct (inc_ref f) as [x| |] eqn:E; [|discriminate|discriminate]. cbn in R. inversion R; subst.
        assert (N : fo_next x = fo_next f).
        { unfold inc_ref in E. destruct (negb _); [discriminate|]. destruct (_ <=? _); [discriminate|]. inversion E; reflexivity. }
        eapply MORE; [cbn; rewrite N; reflexivity|discriminate].
      * destruct (inc_ref f) as [x| |] eqn:E; [|discriminate|discriminate]. cbn in R.
        apply SAME; [rewrite (DEC _ _ R); auto|discriminate].
  - destruct (inc_ref f) as [x| |] eqn:E; [|discriminate|discriminate]. cbn in R. inversion R; subst.
    assert (N : fo_next x = fo_next f).
    { unfold inc_ref in E. destruct (negb _); [discriminate|]. destruct (_ <=? _); [discriminate|]. inversion E; reflexivity. }
    eapply MORE; [cbn; rewrite N; reflexivity|discriminate].
  - unfold close_id in R. rewrite O in R.
    destruct (kind_live _ _ _ I Hh) as (k & K). assert (K' := kind_some _ _ _ K).
    assert (FN := filter_fst_nil _ _ _ (ri_ids _ I) Hh).
    destruct (existsb _ _) eqn:Ex.
    + inversion R; subst. cbn [fo_ids del_id]. rewrite FN. apply existsb_exists in Ex. destruct Ex as ([a b] & Ea & Eb).
      cbn in Eb. apply andb_true_iff in Eb. destruct Eb as [Eb1 Eb2]. apply Nat.eqb_eq in Eb1. subst b.
      apply negb_true_iff, Nat.eqb_neq in Eb2.
      assert (ND : fo_ids f <> [(h, ob)]) by (intros E; rewrite E in Ea; destruct Ea as [Ea|[]]; congruence).
      split; [contradiction|]. intros (h' & okk' & ob' & k' & E1 & E2 & _). injection E1 as <- <-.
      exfalso. apply ND. rewrite E2 in Hh. destruct Hh as [Hh|[]]. congruence.
    + rewrite K in R.
      assert (CL : (do g0 <- dec_ref f; Ok (del_obj (del_id g0 h) ob)) = Ok g -> (k = KFile \/ okk = true) ->
                   (fo_ids g = [] <-> closing f (RClose h okk))).
      { intros R' Q. destruct (dec_ref f) as [x| |] eqn:E; [|discriminate|discriminate]. cbn in R'. inversion R'; subst.
        cbn [fo_ids del_obj del_id]. rewrite (DEC _ _ E), FN. split.
        - intros F. exists h, okk, ob, k. auto.
        - intros (h' & okk' & ob' & k' & E1 & E2 & _). injection E1 as <- <-. rewrite E2 in Hh. destruct Hh as [Hh|[]]. congruence. }
      assert (ST : okk = false -> k <> KFile -> fo_ids g = fo_ids f -> (fo_ids g = [] <-> closing f (RClose h okk))).
      { intros -> Q E. rewrite E. split; [contradiction|].
        intros (h' & okk' & ob' & k' & E1 & E2 & E3 & E4). injection E1 as <- <-. exfalso.
        rewrite E2 in Hh. destruct Hh as [Hh|[]]. injection Hh as <-.
        assert (Z := kind_in _ _ _ I E3). rewrite K in Z. injection Z as <-. destruct E4; [contradiction|discriminate]. }
      destruct k.
      * apply CL; auto.
      * destruct okk; [apply CL; auto|]. rewrite C0 in R. cbn in R. inversion R; subst. apply ST; [auto|discriminate|auto].
      * destruct okk; [apply CL; auto|]. rewrite C0 in R. cbn in R. inversion R; subst. apply ST; [auto|discriminate|auto].
  - unfold get_file in R. destruct (find _ _) as [[o' k']|].
    + inversion R; subst. cbn [fo_ids add_id]. split; [intros E; apply app_eq_nil in E; destruct E; discriminate|].
      intros (h' & okk' & _ & _ & E' & _). discriminate.
    + destruct (negb _); [discriminate|]. inversion R; subst. eapply MORE; [cbn; reflexivity|discriminate].
  - unfold visit in R. destruct k.
    + destruct (negb _); [discriminate|]. inversion R; subst. apply SAME; [auto|discriminate].
    + destruct (inc_ref f) as [x| |] eqn:E; [|discriminate|discriminate]. cbn in R.
      apply SAME; [rewrite (DEC _ _ R); auto|discriminate].
    + destruct (inc_ref f) as [x| |] eqn:E; [|discriminate|discriminate]. cbn in R.
      apply SAME; [rewrite (DEC _ _ R); auto|discriminate].
Qed.

Lemma multi_dead : forall els, multi els = Terminated <-> In false els.
Proof.
  induction els as [|b els IH]; cbn; [split; [discriminate|tauto]|].
  destruct b; [rewrite IH; split; [auto|intros [H|H]; [discriminate|auto]]|split; auto].
Qed.
Lemma multi_ok : forall els, multi els = Returned true <-> ~ In false els.
Proof.
  induction els as [|b els IH]; cbn; [tauto|].
  destruct b; [rewrite IH; split; [intros H [Q|Q]; [discriminate|auto]|tauto]|].
  split; [discriminate|intros H; exfalso; auto].
Qed.
Lemma forallb_false : forall els, forallb (fun b => b) els = true <-> ~ In false els.
Proof.
  intros els. rewrite forallb_forall. split.
  - intros H I. apply H in I. discriminate.
  - intros H [|] I; auto; contradiction.
Qed.

Lemma other_named : forall f h ob, 
  existsb (fun p => (snd p =? ob)%nat && negb (fst p =? h)%nat) (fo_ids f) = false <->
  forall x, In (x, ob) (fo_ids f) -> x = h.
Proof.
  intros f h ob. split.
  - intros E x H. destruct (Nat.eq_dec x h); auto. exfalso.
    assert (T : existsb (fun p => (snd p =? ob)%nat && negb (fst p =? h)%nat) (fo_ids f) = true).
    { apply existsb_exists. exists (x, ob). split; auto. cbn. rewrite Nat.eqb_refl. cbn.
      apply negb_true_iff, Nat.eqb_neq. auto. }
    congruence.
  - intros H. destruct (existsb _ _) eqn:E; auto. apply existsb_exists in E. destruct E as ([a b] & E1 & E2).
    cbn in E2. apply andb_true_iff in E2. destruct E2 as [E2 E3]. apply Nat.eqb_eq in E2. subst b.
    apply negb_true_iff, Nat.eqb_neq in E3. exfalso; auto.
Qed.

Lemma under_exact : forall f o ob, rinv f -> obj_of f (id_of o) = Some ob ->
  (under_ok f o = false <->
   match o with
   | ROpen _ _ okk => okk = false
   | RClose h okk => okk = false /\ exists ob k, In (h, ob) (fo_ids f) /\ In (ob, k) (fo_objs f) /\ k <> KFile /\
                            forall x, In (x, ob) (fo_ids f) -> x = h
   | _ => False
   end).
Proof.
  intros f o ob I O. assert (Hh := obj_of_in _ _ _ O).
  destruct o as [h k okk|h|h okk|h|h k]; cbn [under_ok id_of] in *; try (split; [discriminate|tauto]); [tauto|].
  rewrite O. destruct (kind_live _ _ _ I Hh) as (k & K). rewrite K.
  assert (ON := other_named f h ob).
  destruct (existsb _ _) eqn:Ex.
  - split; [discriminate|]. intros (_ & ob' & k' & H1 & H2 & H3 & H4). exfalso.
    assert (ob' = ob) by (eapply NoDup_fst_inj; [apply (ri_ids _ I)| |]; eauto). subst ob'.
    apply ON in H4. discriminate.
  - assert (H4 := proj1 ON eq_refl). apply kind_some in K. destruct k.
    + split; [discriminate|]. intros (_ & ob' & k' & H1 & H2 & H3 & _). exfalso.
      assert (ob' = ob) by (eapply NoDup_fst_inj; [apply (ri_ids _ I)| |]; eauto). subst ob'.
      apply H3. eapply NoDup_fst_inj; [apply (ri_objs _ I)| |]; eauto.
    + split; [intros ->; split; auto; exists ob, KDset; repeat split; auto; discriminate|tauto].
    + split; [intros ->; split; auto; exists ob, KOther; repeat split; auto; discriminate|tauto].
Qed.
