From Verif Require Import Base BaseProofs CplModel CplSpec FilterModel FilterSpec FilterProofs FilterClaims.
From Coq Require Import ZifyNat.

Lemma nth_upd_eq : forall {A} (l : list A) p x y, nth_error l p = Some y -> nth_error (upd_nth p x l) p = Some x.
Proof.
  induction l as [|a l IH]; intros p x y H; [destruct p; discriminate|].
  destruct p; cbn in *; [reflexivity|]. eapply IH; eauto.
Qed.
Lemma nth_upd_ne : forall {A} (l : list A) p q (x : A), p <> q -> nth_error (upd_nth p x l) q = nth_error l q.
Proof.
  induction l as [|a l IH]; intros p q x H; [destruct p; reflexivity|].
  destruct p, q; cbn; auto; congruence.
Qed.
Lemma upd_same : forall {A} (l : list A) p x, nth_error l p = Some x -> upd_nth p x l = l.
Proof.
  induction l as [|a l IH]; intros p x H; destruct p; cbn in *; try discriminate; [congruence|]. f_equal. auto.
Qed.
Lemma len_upd : forall {A} (l : list A) p (x : A), length (upd_nth p x l) = length l.
Proof. induction l as [|a l IH]; intros p x; destruct p; cbn; auto. Qed.
Lemma wl_id : forall l, pl_layout l = LContiguous -> with_layout l LContiguous = l.
Proof. intros [y f v] H. cbn in *. subst. reflexivity. Qed.

(** Simulation with plain lists. *)
Definition plain (l : plist) : Prop := pl_layout l = LContiguous /\ pl_filters l = [].
Definition psim (w : pworld) (r : rworld) : Prop :=
  pw_lists w = rw_lists r /\ map ds_list (pw_sets w) = rw_sets r /\ Forall plain (rw_sets r).
Lemma on_disk_plain : forall l, plain l -> on_disk l = l.
Proof. intros [y f v] [H1 H2]. cbn in *. subst. reflexivity. Qed.
Lemma nth_map_inv : forall {A B} (f : A -> B) l n, nth_error (map f l) n = option_map f (nth_error l n).
Proof. induction l as [|a l IH]; intros [|n]; cbn; auto. Qed.
Lemma psim_step : forall c w r, psim w r ->
  match c with DCreate p _ => forall l, nth_error (rw_lists r) p = Some l -> plain l | _ => True end ->
  psim (fst (pexec w c)) (fst (rexec r c)) /\ snd (pexec w c) = snd (rexec r c).
Proof.
  intros c [wl ws] [rl rs] (H1 & H2 & H3) Hc. cbn in H1, H2, H3. subst rl.
  destruct c as [|p y|p f|p f|p fail|p ext|d|]; cbn in Hc |- *; unfold chg, psim; cbn.
  - repeat split; auto.
  - destruct (nth_error wl p); cbn; repeat split; auto.
  - destruct (nth_error wl p); cbn; repeat split; auto.
  - destruct (nth_error wl p); cbn; repeat split; auto.
  - destruct (nth_error wl p) as [l|] eqn:E; cbn; [|repeat split; auto].
    destruct (Hc l eq_refl) as [Hl Hf]. rewrite (wl_id _ Hl). unfold under_ok. cbn [with_layout pl_filters]. rewrite Hf. cbn [forallb negb orb].
    unfold set_list. cbn [pw_lists pw_sets]. rewrite (upd_same _ _ _ E). destruct fail; cbn; (split; [|reflexivity]); (split; [reflexivity|]); [auto|]. split.
    + rewrite map_app, H2. reflexivity.
    + apply Forall_app. split; [exact H3|]. constructor; [split; assumption|constructor].
  - destruct (nth_error wl p); cbn; repeat split; auto.
  - subst rs. rewrite nth_map_inv. destruct (nth_error ws d); cbn; repeat split; auto.
  - repeat split; auto. subst rs. rewrite map_map. cbn. apply map_ext_in. intros s Hs.
    apply on_disk_plain. rewrite Forall_forall in H3. apply H3. apply in_map. exact Hs.
Qed.
Lemma psim_run : forall cs w r, psim w r -> plain_lists r cs ->
  psim (fst (pexecs w cs)) (fst (rexecs r cs)) /\ snd (pexecs w cs) = snd (rexecs r cs).
Proof.
  induction cs as [|c cs IH]; intros w r H HP; [split; [exact H|reflexivity]|].
  cbn [plain_lists] in HP. destruct HP as [Hc HP].
  assert (S1 := psim_step c w r H). cbn [pexecs rexecs].
  destruct (pexec w c) as [w1 a]. destruct (rexec r c) as [r1 b]. cbn [fst snd] in *.
  destruct S1 as [S1 S2]; [destruct c; auto|].
  specialize (IH w1 r1 S1 HP). destruct (pexecs w1 cs) as [w2 l]. destruct (rexecs r1 cs) as [r2 m]. cbn [fst snd] in *.
  destruct IH as [I1 I2]. split; [exact I1|congruence].
Qed.
Lemma psim0 : psim pworld0 rworld0.
Proof. repeat split. constructor. Qed.
Lemma plain_run : forall cs, plain_lists rworld0 cs ->
  pw_lists (fst (pexecs pworld0 cs)) = rw_lists (fst (rexecs rworld0 cs)) /\
  snd (pexecs pworld0 cs) = snd (rexecs rworld0 cs) /\
  map ds_list (pw_sets (fst (pexecs pworld0 cs))) = rw_sets (fst (rexecs rworld0 cs)).
Proof. intros cs H. destruct (psim_run cs _ _ psim0 H) as [(A & B & _) C]. auto. Qed.

Lemma pexecs_app : forall a b w, pexecs w (a ++ b) =
  (fst (pexecs (fst (pexecs w a)) b), snd (pexecs w a) ++ snd (pexecs (fst (pexecs w a)) b)).
Proof.
  induction a as [|c a IH]; intros b w; cbn [pexecs app].
  - cbn [fst snd app]. destruct (pexecs w b); reflexivity.
  - destruct (pexec w c) as [w1 x]. rewrite IH. destruct (pexecs w1 a) as [w2 l]. reflexivity.
Qed.

(** What a creation does to the list. *)
Lemma create_list : forall w p l fail, nth_error (pw_lists w) p = Some l ->
  nth_error (pw_lists (fst (pexec w (DCreate p fail)))) p = Some (mkpl LContiguous (pl_filters l) (pl_fill l)) /\
  (forall q, q <> p -> nth_error (pw_lists (fst (pexec w (DCreate p fail)))) q = nth_error (pw_lists w) q).
Proof.
  intros [wl ws] p l fail H. cbn [pw_lists] in H. cbn [pexec pw_lists pw_sets]. rewrite H.
  destruct (fail || negb (under_ok (with_layout l LContiguous))); cbn; (split; [eapply nth_upd_eq; eauto|]);
    intros q Hq; apply nth_upd_ne; congruence.
Qed.

Definition flat (p : nat) (w : pworld) : Prop := exists l, nth_error (pw_lists w) p = Some l /\ pl_layout l = LContiguous.
Lemma set_list_flat : forall w p q l l', flat p w -> nth_error (pw_lists w) q = Some l -> (q = p -> pl_layout l' = LContiguous) ->
  flat p (set_list w q l').
Proof.
  intros w p q l l' (k & Hk & Hf) Hq Hy. unfold flat, set_list. cbn.
  destruct (Nat.eq_dec q p) as [->|E].
  - exists l'. split; [eapply nth_upd_eq; eauto|auto].
  - exists k. rewrite nth_upd_ne by auto. auto.
Qed.
Lemma nth_app_l : forall {A} (l m : list A) n x, nth_error l n = Some x -> nth_error (l ++ m) n = Some x.
Proof. induction l as [|a l IH]; intros m [|n] x H; cbn in *; try discriminate; auto. Qed.
Lemma flat_step : forall p w c, flat p w -> sets_layout p c = false -> flat p (fst (pexec w c)).
Proof.
  intros p w c H Hc. destruct c as [|q y|q f|q f|q fail|q ext|d|]; cbn [pexec].
  - destruct H as (l & A & B). exists l. cbn. split; [apply nth_app_l|]; auto.
  - destruct (nth_error (pw_lists w) q) as [l|] eqn:E; [|exact H]. cbn [fst].
    eapply set_list_flat; eauto. intros ->. cbn in Hc. rewrite Nat.eqb_refl in Hc. discriminate.
  - destruct (nth_error (pw_lists w) q) as [l|] eqn:E; [|exact H]. cbn [fst].
    eapply set_list_flat; eauto. intros ->. destruct H as (k & A & B). cbn. congruence.
  - destruct (nth_error (pw_lists w) q) as [l|] eqn:E; [|exact H]. cbn [fst].
    eapply set_list_flat; eauto. intros ->. destruct H as (k & A & B). cbn. congruence.
  - destruct (nth_error (pw_lists w) q) as [l|] eqn:E; [|exact H].
    assert (F : flat p (set_list w q (with_layout l LContiguous))) by (eapply set_list_flat; eauto).
    destruct (fail || negb (under_ok (with_layout l LContiguous))); [exact F|]. exact F.
  - destruct (nth_error (pw_lists w) q); exact H.
  - destruct (nth_error (pw_sets w) d); [|exact H]. destruct H as (l & A & B). exists l. cbn. split; [apply nth_app_l|]; auto.
  - exact H.
Qed.
Lemma flat_run : forall cs p w, flat p w -> forallb (fun c => negb (sets_layout p c)) cs = true -> flat p (fst (pexecs w cs)).
Proof.
  induction cs as [|c cs IH]; intros p w H Hc; [exact H|].
  cbn [forallb] in Hc. apply andb_prop in Hc. destruct Hc as [A B]. apply negb_true_iff in A.
  assert (F := flat_step p w c H A). cbn [pexecs]. destruct (pexec w c) as [w1 x]. cbn [fst] in F.
  specialize (IH p w1 F B). destruct (pexecs w1 cs). exact IH.
Qed.
(** A list used for a log file is no good for extendable or filtered datasets of other files, until its layout is set. *)
Lemma spoilt : forall w p l fail cs, nth_error (pw_lists w) p = Some l ->
  forallb (fun c => negb (sets_layout p c)) cs = true ->
  snd (pexec (fst (pexecs w (DCreate p fail :: cs))) (DOther p true)) = PFail.
Proof.
  intros w p l fail cs H Hc.
  assert (F : flat p (fst (pexec w (DCreate p fail)))).
  { destruct (create_list w p l fail H) as [A _]. eexists. split; [exact A|reflexivity]. }
  cbn [pexecs]. destruct (pexec w (DCreate p fail)) as [w1 a]. cbn [fst] in F.
  assert (G := flat_run cs p w1 F Hc). destruct (pexecs w1 cs) as [w2 m]. cbn [fst] in G |- *.
  destruct G as (k & A & B). cbn. rewrite A. cbn. unfold plain_ok. rewrite B. reflexivity.
Qed.

(** Datasets. *)
Definition dflat (s : dset) : Prop := pl_layout (ds_list s) = LContiguous /\ ds_filters s = pl_filters (ds_list s) /\
  ds_fill s = pl_fill (ds_list s).
Lemma dflat_step : forall w c, Forall dflat (pw_sets w) -> Forall dflat (pw_sets (fst (pexec w c))).
Proof.
  intros w c H. destruct c as [|q y|q f|q f|q fail|q ext|d|]; cbn [pexec];
    try (destruct (nth_error (pw_lists w) q); exact H); try exact H.
  - destruct (nth_error (pw_lists w) q) as [l|]; [|exact H].
    destruct (fail || negb (under_ok (with_layout l LContiguous))); [exact H|]. cbn [fst pw_sets set_list].
    apply Forall_app. split; [exact H|]. constructor; [|constructor]. repeat split.
  - destruct (nth_error (pw_sets w) d); exact H.
  - cbn. apply Forall_map. eapply Forall_impl; [|exact H]. intros s (A & _). repeat split. exact A.
Qed.
Lemma dflat_run : forall cs w, Forall dflat (pw_sets w) -> Forall dflat (pw_sets (fst (pexecs w cs))).
Proof.
  induction cs as [|c cs IH]; intros w H; [exact H|].
  assert (F := dflat_step w c H). cbn [pexecs]. destruct (pexec w c) as [w1 x]. specialize (IH w1 F).
  destruct (pexecs w1 cs). exact IH.
Qed.
Lemma reported_flat : forall cs s, In s (pw_sets (fst (pexecs pworld0 cs))) -> pl_layout (ds_list s) = LContiguous.
Proof.
  intros cs s H. assert (F := dflat_run cs pworld0 (Forall_nil _)). rewrite Forall_forall in F. destruct (F s H) as [A _]. exact A.
Qed.
(** After reopening, for good. *)
Lemma step_old : forall c w d s, nth_error (pw_sets w) d = Some s -> dflat s -> ds_filters s = [] ->
  exists s', nth_error (pw_sets (fst (pexec w c))) d = Some s' /\ dflat s' /\ ds_filters s' = [].
Proof.
  intros c w d s H F E. destruct c as [|q y|q f|q f|q fail|q ext|e|]; cbn [pexec];
    try (destruct (nth_error (pw_lists w) q)); try (destruct (nth_error (pw_sets w) e)); try (exists s; cbn; auto; fail).
  - destruct (fail || negb (under_ok (with_layout p LContiguous))); exists s; cbn; auto. split; [apply nth_app_l; exact H|auto].
  - cbn. rewrite nth_map_inv, H. cbn. eexists. split; [reflexivity|]. destruct F as (A & B & C).
    unfold dflat. cbn. rewrite A. auto.
Qed.
Lemma run_old : forall cs w d s, nth_error (pw_sets w) d = Some s -> dflat s -> ds_filters s = [] ->
  exists s', nth_error (pw_sets (fst (pexecs w cs))) d = Some s' /\ dflat s' /\ ds_filters s' = [].
Proof.
  induction cs as [|c cs IH]; intros w d s H F E; [exists s; auto|].
  destruct (step_old c w d s H F E) as (s1 & A & B & C). cbn [pexecs]. destruct (pexec w c) as [w1 x]. cbn [fst] in A.
  destruct (IH w1 d s1 A B C) as (s2 & A2 & B2 & C2). exists s2. destruct (pexecs w1 cs). auto.
Qed.
Lemma filters_gone : forall a b d, (d < length (pw_sets (fst (pexecs pworld0 a))))%nat ->
  exists s, nth_error (pw_sets (fst (pexecs pworld0 (a ++ Reopen :: b)))) d = Some s /\
    pl_filters (ds_list s) = [] /\ ds_filters s = [].
Proof.
  intros a b d H. rewrite pexecs_app. cbn [fst].
  set (w := fst (pexecs pworld0 a)) in *.
  destruct (nth_error (pw_sets w) d) as [s|] eqn:E; [|apply nth_error_None in E; lia].
  assert (F := dflat_run a pworld0 (Forall_nil _)). fold w in F. rewrite Forall_forall in F.
  destruct (F s (nth_error_In _ _ E)) as (A & B & C).
  set (w1 := fst (pexec w Reopen)).
  assert (E1 : nth_error (pw_sets w1) d = Some (mkds (on_disk (ds_list s)) (pl_filters (on_disk (ds_list s))) (pl_fill (on_disk (ds_list s))))).
  { unfold w1. cbn. rewrite nth_map_inv, E. reflexivity. }
  destruct (run_old b w1 d _ E1) as (s2 & A2 & B2 & C2).
  { unfold dflat. cbn. auto. }
  { cbn. rewrite A. reflexivity. }
  exists s2. cbn [pexecs]. change (pexec w Reopen) with (w1, PDone). destruct (pexecs w1 b) as [w2 m] eqn:Eb. cbn [fst] in *.
  rewrite Eb. cbn [fst]. destruct B2 as (_ & B2 & _). split; [exact A2|]. split; [congruence|exact C2].
Qed.

(** Fill values: those of the list at the creation. *)
Definition optional (l : plist) : Prop := forallb snd (pl_filters l) = true.
Definition fsim (w : pworld) (r : rworld) : Prop :=
  map pl_fill (pw_lists w) = map pl_fill (rw_lists r) /\
  Forall optional (pw_lists w) /\ Forall optional (map ds_list (pw_sets w)) /\
  map (fun s => pl_fill (ds_list s)) (pw_sets w) = map pl_fill (rw_sets r) /\
  map ds_fill (pw_sets w) = map pl_fill (rw_sets r).
Lemma map_upd : forall {A B} (f : A -> B) l p x, map f (upd_nth p x l) = upd_nth p (f x) (map f l).
Proof. induction l as [|a l IH]; intros p x; destruct p; cbn; auto. f_equal. auto. Qed.
Lemma Forall_upd : forall {A} (P : A -> Prop) l p x, Forall P l -> P x -> Forall P (upd_nth p x l).
Proof.
  induction l as [|a l IH]; intros p x H Hx; destruct p; cbn; auto; inversion H; subst; constructor; auto.
Qed.
Lemma nth_rel : forall {A B C} (f : A -> C) (g : B -> C) l m p, map f l = map g m ->
  match nth_error l p, nth_error m p with
  | Some x, Some y => f x = g y
  | None, None => True
  | _, _ => False
  end.
Proof.
  induction l as [|a l IH]; intros [|b m] [|p] H; cbn in *; try discriminate; auto.
  - injection H; auto.
  - apply IH. injection H; auto.
Qed.
Definition same_answer (c : pcall) (a b : panswer) : Prop := match c with DOther _ _ => True | _ => a = b end.
Lemma fsim_step : forall c w r, fsim w r -> match c with PFilter _ f => snd f = true | _ => True end ->
  fsim (fst (pexec w c)) (fst (rexec r c)) /\ same_answer c (snd (pexec w c)) (snd (rexec r c)).
Proof.
  intros c [wl ws] [rl rs] (H1 & H2 & H3 & H4 & H5) Hc. cbn in H1, H2, H3, H4, H5.
  assert (HO : forall p l, nth_error wl p = Some l -> optional l).
  { intros p l E. rewrite Forall_forall in H2. apply H2. eapply nth_error_In. exact E. }
  destruct c as [|p y|p f|p f|p fail|p ext|d|]; cbn [pexec rexec pw_lists pw_sets rw_lists rw_sets]; unfold chg; cbn [rw_lists rw_sets];
    try (assert (R := nth_rel pl_fill pl_fill wl rl p H1); destruct (nth_error wl p) as [l|] eqn:E1; destruct (nth_error rl p) as [k|] eqn:E2;
      try contradiction; [|split; [unfold fsim; cbn; auto 6|reflexivity]]).
  - split; [|reflexivity]. unfold fsim; cbn. rewrite !map_app, H1. split; [reflexivity|]. split; [|auto].
    apply Forall_app. split; [exact H2|]. constructor; [reflexivity|constructor].
  - split; [|reflexivity]. unfold fsim; cbn. rewrite !map_upd, H1. cbn. rewrite R. split; [reflexivity|]. split; [|auto].
    apply Forall_upd; [exact H2|]. apply (HO _ _ E1).
  - split; [|reflexivity]. unfold fsim; cbn. rewrite !map_upd, H1. cbn. rewrite R. split; [reflexivity|]. split; [|auto].
    apply Forall_upd; [exact H2|]. unfold optional. cbn. rewrite forallb_app. rewrite (HO _ _ E1). cbn. rewrite Hc. reflexivity.
  - split; [|reflexivity]. unfold fsim; cbn. rewrite !map_upd, H1. cbn. split; [reflexivity|]. split; [|auto].
    apply Forall_upd; [exact H2|]. apply (HO _ _ E1).
  - assert (O := HO _ _ E1). unfold under_ok, with_layout. cbn [pl_filters]. rewrite O. cbn [negb orb]. rewrite orb_false_r.
    assert (HF : Forall optional (upd_nth p (mkpl LContiguous (pl_filters l) (pl_fill l)) wl)) by (apply Forall_upd; auto).
    assert (HM : map pl_fill (upd_nth p (mkpl LContiguous (pl_filters l) (pl_fill l)) wl) = map pl_fill rl).
    { rewrite map_upd. cbn. rewrite <- H1. apply upd_same. rewrite nth_map_inv, E1. reflexivity. }
    destruct fail; (split; [|reflexivity]); unfold fsim; cbn.
    + auto.
    + split; [exact HM|]. split; [exact HF|]. rewrite !map_app, H4, H5. cbn. split; [|rewrite R; auto].
      apply Forall_app. split; [exact H3|]. constructor; [exact O|constructor].
  - split; [unfold fsim; cbn; auto 6|exact Logic.I].
  - assert (R := nth_rel (fun s => pl_fill (ds_list s)) pl_fill ws rs d H4).
    destruct (nth_error ws d) as [s|] eqn:E1; destruct (nth_error rs d) as [k|] eqn:E2; try contradiction.
    + split; [|reflexivity]. unfold fsim; cbn. rewrite !map_app, H1. cbn. rewrite R. split; [reflexivity|]. split; [|auto].
      apply Forall_app. split; [exact H2|]. constructor; [|constructor]. rewrite Forall_forall in H3. apply H3. apply in_map.
      eapply nth_error_In. exact E1.
    + split; [unfold fsim; cbn; auto 6|reflexivity].
  - split; [|reflexivity]. unfold fsim; cbn. rewrite !map_map. cbn. split; [exact H1|]. split; [exact H2|]. split; [|auto].
    rewrite Forall_map in H3 |- *. eapply Forall_impl; [|exact H3]. intros s O. cbn. unfold optional in *. unfold on_disk. cbn.
    destruct (pl_layout (ds_list s)); auto.
Qed.
Lemma fsim_run : forall cs w r, fsim w r -> no_mandatory cs -> fsim (fst (pexecs w cs)) (fst (rexecs r cs)).
Proof.
  induction cs as [|c cs IH]; intros w r H HN; [exact H|]. inversion HN; subst.
  destruct (fsim_step c w r H) as [F _]; [auto|]. cbn [pexecs rexecs].
  destruct (pexec w c) as [w1 a]. destruct (rexec r c) as [r1 b]. cbn [fst] in F. specialize (IH w1 r1 F).
  destruct (pexecs w1 cs). destruct (rexecs r1 cs). apply IH. assumption.
Qed.
Lemma fills_kept : forall cs, no_mandatory cs ->
  map (fun s => pl_fill (ds_list s)) (pw_sets (fst (pexecs pworld0 cs))) = map pl_fill (rw_sets (fst (rexecs rworld0 cs))) /\
  map ds_fill (pw_sets (fst (pexecs pworld0 cs))) = map pl_fill (rw_sets (fst (rexecs rworld0 cs))).
Proof.
  intros cs H. destruct (fsim_run cs pworld0 rworld0) as (_ & _ & _ & A & B); auto. repeat split; constructor.
Qed.
Lemma mandatory_refused : forall w p l fail f, nth_error (pw_lists w) p = Some l -> In f (pl_filters l) -> snd f = false ->
  snd (pexec w (DCreate p fail)) = PFail /\ pw_sets (fst (pexec w (DCreate p fail))) = pw_sets w.
Proof.
  intros w p l fail f H Hf Hm. cbn [pexec]. rewrite H.
  assert (E : under_ok (with_layout l LContiguous) = false).
  { unfold under_ok. cbn. destruct (forallb snd (pl_filters l)) eqn:E; [|reflexivity].
    rewrite forallb_forall in E. rewrite (E f Hf) in Hm. discriminate. }
  rewrite E, orb_true_r. split; reflexivity.
Qed.

(** Compressed data read without filters. *)
Lemma raw_wrong : forall comp ids x y file foff, (forall z, zlib_header (comp z)) -> ids <> [] -> Forall (eq DEFLATE) ids ->
  ~ zlib_header x -> stored_data comp ids x = Ok y ->
  raw_block (put file foff y) foff (length x) <> x \/ (length x < 2)%nat.
Proof.
  intros comp ids x y file foff Hc Hi Hd Hx Hy.
  assert (Hh : zlib_header y).
  { unfold stored_data in Hy. destruct ids as [|i ids]; [congruence|]. rewrite filter_times in Hy; [|congruence|exact Hd].
    cbn [bind or_ub] in Hy. assert (E : y = times (length (i :: ids)) comp x) by congruence. rewrite E. cbn [length]. rewrite times_last. apply Hc. }
  destruct Hh as [rest ->].
  destruct (Nat.lt_ge_cases (length x) 2) as [L|L]; [right; exact L|left]. intros E. apply Hx.
  unfold raw_block in E. destruct x as [|a [|b x]]; cbn [length] in L; try lia.
  cbn [length] in E. change (S (S (length x))) with (2 + length x)%nat in E. rewrite get_app in E.
  cbn [get seq map app] in E. injection E as E1 E2 _.
  rewrite put_in in E1, E2 by (unfold Zlen; cbn [length]; lia).
  replace (Z.to_nat (_ - foff)) with 0%nat in E1 by lia.
  replace (Z.to_nat (_ - foff)) with 1%nat in E2 by lia.
  cbn in E1, E2. subst. exists x. reflexivity.
Qed.
