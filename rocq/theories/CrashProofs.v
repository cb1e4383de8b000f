(** The disk follows the open file; opening it after a close gives the reopened file. *)
From Verif Require Import Base BaseProofs Spec MetaModel QueueModel FlushModel IndexModel ReadModel SysModel
  SysSpec FlushProofs SysProofs AnySpec AnyProofs CrashModel CrashSpec.
From Coq Require Import ZifyNat ZifyN.

Definition number {A} (l : list A) : list (Z * A) := combine (map Z.of_nat (seq 0 (length l))) l.

Lemma combine_snoc : forall A B (l : list A) (l' : list B) a b, length l = length l' -> combine (l ++ [a]) (l' ++ [b]) = combine l l' ++ [(a, b)].
Proof. induction l as [|x l IH]; intros [|y l'] a b H; cbn in *; try discriminate; auto. rewrite IH; auto. Qed.
Lemma number_snoc : forall A (l : list A) x, number (l ++ [x]) = number l ++ [(Zlen l, x)].
Proof.
  intros A l x. unfold number. rewrite app_length. cbn [length]. rewrite Nat.add_1_r, seq_S, map_app. cbn [map Nat.add].
  apply combine_snoc. rewrite map_length, seq_length. reflexivity.
Qed.
Lemma number_from : forall A (l : list A) j k, find_key k (combine (map Z.of_nat (seq j (length l))) l) =
  (if k <? Z.of_nat j then None else nth_error l (Z.to_nat k - j)).
Proof.
  induction l as [|x l IH]; intros j k; cbn [length seq map combine find_key].
  - destruct (_ <? _); destruct (Z.to_nat k - j)%nat; reflexivity.
  - cbn [fst snd]. rewrite IH. destruct (Z.eqb_spec (Z.of_nat j) k) as [<-|N].
    + rewrite Z.ltb_irrefl, Nat2Z.id, Nat.sub_diag. reflexivity.
    + destruct (Z.ltb_spec k (Z.of_nat j)), (Z.ltb_spec k (Z.of_nat (S j))); auto; try lia.
      replace (Z.to_nat k - j)%nat with (S (Z.to_nat k - S j)) by lia. reflexivity.
Qed.
Lemma find_number : forall A (l : list A) k, find_key k (number l) = if k <? 0 then None else nth_error l (Z.to_nat k).
Proof. intros A l k. unfold number. rewrite number_from. change (Z.of_nat 0) with 0. rewrite Nat.sub_0_r. reflexivity. Qed.
Lemma find_next : forall A (l : list A), find_key (Zlen l) (number l) = None.
Proof. intros A l. rewrite find_number. destruct (_ <? _); auto. unfold Zlen. rewrite Nat2Z.id. apply nth_error_None. lia. Qed.
Lemma upd_from : forall A (f : A -> A) (l : list A) j k, (j <= k)%nat ->
  at_key (Z.of_nat k) f (combine (map Z.of_nat (seq j (length l))) l) =
  combine (map Z.of_nat (seq j (length l))) (match nth_error l (k - j) with Some x => upd_nth (k - j) (f x) l | None => l end).
Proof.
  induction l as [|x l IH]; intros j k H; cbn [length seq map combine].
  - destruct (k - j)%nat; reflexivity.
  - unfold at_key in *. cbn [map fst snd]. destruct (Z.eqb_spec (Z.of_nat j) (Z.of_nat k)) as [E|N].
    + apply Nat2Z.inj in E. subst k. rewrite Nat.sub_diag. cbn [nth_error upd_nth]. cbn [combine]. f_equal.
      assert (Q : forall j', (j < j')%nat -> map (fun p : Z * A => if fst p =? Z.of_nat j then (fst p, f (snd p)) else p) (combine (map Z.of_nat (seq j' (length l))) l) = combine (map Z.of_nat (seq j' (length l))) l).
      { clear. induction l as [|y l IH]; intros j' H; cbn [length seq map combine]; auto. cbn [fst]. destruct (Z.eqb_spec (Z.of_nat j') (Z.of_nat j)); [lia|]. f_equal. apply IH. lia. }
      apply Q. lia.
    + rewrite (IH (S j) k) by lia. replace (k - j)%nat with (S (k - S j)) by lia. cbn [nth_error]. destruct (nth_error l (k - S j)); reflexivity.
Qed.
Lemma upd_length : forall A k (x : A) l, length (upd_nth k x l) = length l.
Proof. induction k; intros x [|y l]; cbn; auto. Qed.
Lemma at_number : forall A (f : A -> A) l k, 0 <= k -> at_key k f (number l) = number (match nth_error l (Z.to_nat k) with Some x => upd_nth (Z.to_nat k) (f x) l | None => l end).
Proof.
  intros A f l k H. unfold number. rewrite <- (Z2Nat.id k) at 1 by lia. rewrite upd_from by lia. rewrite Nat.sub_0_r.
  destruct (nth_error l (Z.to_nat k)); [rewrite upd_length|]; reflexivity.
Qed.
Lemma upd_last : forall A (l : list A) x y, upd_nth (length l) y (l ++ [x]) = l ++ [y].
Proof. induction l; intros; cbn; auto. rewrite IHl. reflexivity. Qed.
Lemma nth_last : forall A (l : list A) x, nth_error (l ++ [x]) (length l) = Some x.
Proof. intros. rewrite nth_error_app2, Nat.sub_diag; auto. Qed.
Lemma at_last : forall A (f : A -> A) l x, at_key (Zlen l) f (number (l ++ [x])) = number (l ++ [f x]).
Proof.
  intros A f l x. rewrite at_number by (unfold Zlen; lia). unfold Zlen. rewrite Nat2Z.id, nth_last, upd_last. reflexivity.
Qed.

(** ** The disk of an open file *)

Definition set_at (cfg : Z) (i : nat) (a : anchor) (o : option dinfo) : Prop :=
  exists d, o = Some d /\ an_dims a = Some (di_dims d) /\ an_mdims a = Some (di_mdims d) /\ an_id a = Some (Z.of_nat i) /\
    create_info cfg (mkdinfo (di_esize (an_new a)) (di_dims d) (di_mdims d) (di_dsteps (an_new a)) (di_fill (an_new a))) = Ok d.
Definition sets_ok (cfg : Z) (l : list anchor) (infos : list (option dinfo)) : Prop :=
  length l = length infos /\ forall i a o, nth_error l i = Some a -> nth_error infos i = Some o -> set_at cfg i a o.
Definition md_of (m : Z * bytemap) : list Z := get (snd m) 0 (Z.to_nat (fst m)).

Record synced (g : gfile) (dk : disk) : Prop := {
  y_file : dk_file dk = g_file g;
  y_n : 0 <= g_nldset g;
  y_logs : dk_logs dk = zseq (g_nldset g);
  y_mds : exists ms, dk_mds dk = number ms /\ map md_of ms = g_mdsets g;
  y_sets : exists l, dk_sets dk = number l /\ sets_ok (g_cfg g) l (g_infos g) }.

Lemma apply_app : forall xs ys dk, apply_all dk (xs ++ ys) = do dk' <- apply_all dk xs; apply_all dk' ys.
Proof. induction xs as [|x xs IH]; intros ys dk; cbn [app apply_all bind]; auto. destruct (apply dk x); cbn [bind]; auto. Qed.

Lemma put_data : forall ps dk, apply_all dk (map (fun p : Z * rank => XData (fst p) (local_bytes (snd p))) ps) =
  Ok (mkdk (fold_left (fun f p => put f (fst p) (local_bytes (snd p))) ps (dk_file dk)) (dk_sets dk) (dk_logs dk) (dk_mds dk) (dk_att dk)).
Proof. induction ps as [|p ps IH]; intros [f a b c d]; cbn [map apply_all apply bind]; auto. rewrite IH. reflexivity. Qed.
Lemma put_mds : forall ps ms size m dk, dk_mds dk = number (ms ++ [(size, m)]) ->
  apply_all dk (map (fun p : Z * list Z => XMdPut (Zlen ms) (fst p) (snd p)) ps) =
  Ok (mkdk (dk_file dk) (dk_sets dk) (dk_logs dk) (number (ms ++ [(size, fold_left (fun f p => put f (fst p) (snd p)) ps m)])) (dk_att dk)).
Proof.
  induction ps as [|p ps IH]; intros ms size m dk H; cbn [map apply_all apply bind].
  - destruct dk. cbn in *. subst. reflexivity.
  - rewrite (IH ms size (put m (fst p) (snd p))); [reflexivity|]. cbn [dk_mds]. rewrite H, at_last. reflexivity.
Qed.

Lemma zseq_next : forall n, 0 <= n -> zseq (n + 1) = zseq n ++ [n].
Proof. intros n H. unfold zseq. replace (Z.to_nat (n + 1)) with (S (Z.to_nat n)) by lia. rewrite seq_S, map_app. cbn. rewrite Z2Nat.id; auto. Qed.
Lemma zseq_fresh : forall n m, n <= m -> existsb (Z.eqb m) (zseq n) = false.
Proof.
  intros n m H. destruct (existsb _ _) eqn:E; auto. apply existsb_exists in E. destruct E as (x & E1 & E2). apply Z.eqb_eq in E2. subst x.
  unfold zseq in E1. apply in_map_iff in E1. destruct E1 as (k & <- & E1). apply in_seq in E1. lia.
Qed.

Lemma flush_synced : forall doff g dk, synced g dk -> exists dk', apply_all dk (flush_effects doff g) = Ok dk' /\ synced (flush_writes doff g) dk' /\ dk_att dk' = dk_att dk.
Proof.
  intros doff g dk [Y1 Y2 Y3 Y4 Y5]. unfold flush_effects, flush_writes. destruct (Zsum _ =? 0).
  - exists dk. split; [reflexivity|]. split; auto. constructor; auto.
  - cbn [apply_all apply]. rewrite Y3, zseq_fresh by lia. cbn [bind]. rewrite put_data. cbn [dk_file dk_sets dk_logs dk_mds dk_att].
    eexists. split; [reflexivity|]. split; [|reflexivity]. constructor; cbn [dk_file dk_sets dk_logs dk_mds g_file g_nldset g_mdsets g_cfg g_infos]; auto.
    + rewrite Y1. reflexivity.
    + lia.
    + rewrite zseq_next; auto.
Qed.
Lemma meta_synced : forall g dk, synced g dk -> exists dk', apply_all dk (meta_effects g) = Ok dk' /\ synced (metaflush g) dk' /\ dk_att dk' = dk_att dk.
Proof.
  intros g dk [Y1 Y2 Y3 (ms & Y4 & Y4') Y5]. unfold meta_effects, metaflush. destruct (_ <? _) eqn:E.
  - cbn [apply_all apply]. assert (L : Zlen (g_mdsets g) = Zlen ms) by (rewrite <- Y4'; unfold Zlen; rewrite map_length; reflexivity). rewrite L, Y4, find_next. cbn [bind].
    rewrite <- number_snoc. erewrite (put_mds _ ms); [|reflexivity]. cbn [dk_file dk_sets dk_logs dk_mds dk_att].
    eexists. split; [reflexivity|]. split; [|reflexivity]. constructor; cbn [dk_file dk_sets dk_logs dk_mds g_file g_nldset g_mdsets g_cfg g_infos]; auto.
    eexists. split; [reflexivity|]. rewrite map_app, Y4'. reflexivity.
  - exists dk. split; [reflexivity|]. split; auto. constructor; cbn; eauto.
Qed.
Lemma meta_synced_if : forall (b : bool) g dk, synced g dk -> exists dk', apply_all dk (if b then meta_effects g else []) = Ok dk' /\ synced (if b then metaflush g else g) dk' /\ dk_att dk' = dk_att dk.
Proof. intros [] g dk Y; [apply meta_synced; auto|]. exists dk. repeat split; auto; apply Y. Qed.
Lemma flush_synced_if : forall (b : bool) doff g dk, synced g dk -> exists dk', apply_all dk (if b then flush_effects doff g else []) = Ok dk' /\ synced (if b then flush_writes doff g else g) dk' /\ dk_att dk' = dk_att dk.
Proof. intros [] doff g dk Y; [apply flush_synced; auto|]. exists dk. repeat split; auto; apply Y. Qed.

Lemma create_fields : forall cfg d d', create_info cfg d = Ok d' ->
  di_esize d' = di_esize d /\ di_dims d' = di_dims d /\ di_mdims d' = di_mdims d /\ di_fill d' = di_fill d /\
  di_dsteps d' = (if has cfg CFG_SEL_ENCODE then dsteps_of (di_dims d) else di_dsteps d) /\ (has cfg CFG_SEL_ENCODE = true -> di_ndim d <> 0%nat).
Proof.
  intros cfg d d' H. unfold create_info in H. destruct (has cfg CFG_SEL_ENCODE).
  - destruct (di_ndim d =? 0)%nat eqn:E; [discriminate|]. injection H as <-. apply Nat.eqb_neq in E. cbn. repeat split; auto.
  - injection H as <-. repeat split; auto. discriminate.
Qed.
Lemma create_idem : forall cfg d d', create_info cfg d = Ok d' -> create_info cfg d' = Ok d'.
Proof.
  intros cfg d d' H. pose proof (create_fields _ _ _ H) as (E1 & E2 & E3 & E4 & E5 & E6). unfold create_info in *. destruct (has cfg CFG_SEL_ENCODE); [|reflexivity].
  destruct (di_ndim d =? 0)%nat eqn:E; [discriminate|]. assert (Q : (di_ndim d' =? 0)%nat = false) by (unfold di_ndim in *; rewrite E2; exact E). rewrite Q.
  f_equal. destruct d'. cbn in *. congruence.
Qed.

Lemma nth_upd : forall A (l : list A) i j x, nth_error (upd_nth i x l) j = if (i =? j)%nat then (match nth_error l j with Some _ => Some x | None => None end) else nth_error l j.
Proof.
  induction l as [|y l IH]; intros [|i] [|j] x; cbn; auto.
  destruct (i =? j)%nat; reflexivity.
Qed.

Lemma step_synced : forall e s o dk, synced (s_g s) dk ->
  exists dk', apply_all dk (effects e s o) = Ok dk' /\ forall s' out, step e s o = Ok (s', out) -> synced (s_g s') dk'.
Proof.
  intros e s o dk Y. destruct o as [d|did dims|rk did sels data|doff|doff calls|doff np]; cbn [effects step].
  - destruct Y as [Y1 Y2 Y3 Y4 (l & Y5 & Y6)]. assert (L : Zlen (g_infos (s_g s)) = Zlen l) by (destruct Y6 as [E _]; unfold Zlen; congruence). rewrite L.
    cbn [apply_all apply]. rewrite Y5, find_next. cbn [bind dk_sets dk_file dk_logs dk_mds dk_att]. rewrite <- number_snoc, !at_last. cbn [an_new an_dims an_mdims an_id].
    eexists. split; [reflexivity|]. intros s' out H. destruct (create_info (g_cfg (s_g s)) d) as [d'| |] eqn:E; cbn [bind] in H; try discriminate. injection H as <- <-.
    constructor; cbn [dk_file dk_sets dk_logs dk_mds s_g set_infos g_file g_nldset g_mdsets g_cfg g_infos]; auto.
    eexists. split; [reflexivity|]. destruct Y6 as [Q1 Q2]. split; [rewrite !app_length; cbn; lia|]. intros i a o Ha Ho.
    destruct (Nat.lt_ge_cases i (length l)) as [Hi|Hi].
    + rewrite nth_error_app1 in Ha by lia. rewrite nth_error_app1 in Ho by lia. apply Q2; auto.
    + assert (i = length l). { assert (i < length (l ++ [mkan d (Some (di_dims d)) (Some (di_mdims d)) (Some (Zlen l))]))%nat by (apply nth_error_Some; congruence). rewrite app_length in *. cbn in *. lia. }
      subst i. rewrite nth_last in Ha. rewrite Q1, nth_last in Ho. injection Ha as <-. injection Ho as <-. pose proof (create_fields _ _ _ E) as (E1 & E2 & E3 & E4 & E5 & E6).
      exists d'. cbn [an_new an_dims an_mdims an_id]. rewrite E2, E3. repeat split; auto. rewrite <- E. f_equal. destruct d; reflexivity.
  - destruct (info_at (g_infos (s_g s)) did) as [[d|]|] eqn:Ei; [|exists dk; split; [reflexivity|discriminate]..].
    destruct Y as [Y1 Y2 Y3 Y4 (l & Y5 & Y6 & Y7)]. cbn [apply_all apply bind].
    assert (Hd : 0 <= did). { unfold info_at in Ei. destruct (Z.ltb_spec did 0); [discriminate|auto]. } pose proof (info_nth _ _ _ Ei) as En.
    rewrite Y5, at_number by auto. eexists. split; [reflexivity|]. intros s' out H. destruct (set_extent (g_cfg (s_g s)) d dims) as [d' okk] eqn:Es. destruct okk; [|discriminate]. injection H as <- <-.
    constructor; cbn [dk_file dk_sets dk_logs dk_mds s_g set_infos g_file g_nldset g_mdsets g_cfg g_infos fst]; auto.
    eexists. split; [reflexivity|]. destruct (nth_error l (Z.to_nat did)) as [a0|] eqn:Ea.
    2:{ apply nth_error_None in Ea. assert (Z.to_nat did < length (g_infos (s_g s)))%nat by (apply nth_error_Some; congruence). lia. }
    split; [rewrite !upd_length; auto|]. intros i a o Ha Ho. rewrite nth_upd in Ha, Ho. destruct (Z.to_nat did =? i)%nat eqn:E; [|apply Y7; auto].
    apply Nat.eqb_eq in E. subst i. rewrite Ea in Ha. rewrite En in Ho. injection Ha as <-. injection Ho as <-. destruct (Y7 _ _ _ Ea En) as (d0 & D1 & D2 & D3 & D4 & D5). injection D1 as <-.
    pose proof (create_fields _ _ _ D5) as (E1 & E2 & E3 & E4 & E5 & E6). cbn in E1, E2, E3, E4, E5, E6.
    unfold set_extent in Es. pose proof (set_dims_length (di_dims d) (di_mdims d) dims) as L. destruct (set_dims (di_dims d) (di_mdims d) dims) as [dims' ok]. destruct ok; [|discriminate]. injection Es as <-. cbn [fst] in L.
    eexists. cbn [an_new an_dims an_mdims an_id di_dims di_mdims]. split; [reflexivity|]. repeat split; auto.
    unfold create_info in *. cbn in *. destruct (has (g_cfg (s_g s)) CFG_SEL_ENCODE).
    + unfold di_ndim in *. cbn in *. rewrite L. destruct (length (di_dims d) =? 0)%nat eqn:N; [discriminate|]. rewrite <- E1, <- E4. reflexivity.
    + rewrite E1, E4, E5. reflexivity.
  - exists dk. split; [reflexivity|]. intros s' out H. destruct (nth_error _ rk) as [st|]; [|discriminate]. destruct (ds_write _ _ _ _ _ _ _); cbn [bind] in H; try discriminate. injection H as <- <-.
    destruct Y. constructor; auto.
  - destruct (flush_synced_if (any_pending (s_g s)) doff _ _ Y) as (dk' & A & B & _). exists dk'. split; auto. intros s' out H. injection H as <- <-. exact B.
  - destruct (flush_synced_if (e_coll e && any_pending (s_g s)) doff _ _ Y) as (dk1 & A & B & _).
    set (g1 := if e_coll e && any_pending (s_g s) then flush_writes doff (s_g s) else s_g s) in *.
    destruct (meta_synced_if (g_metadirty g1) _ _ B) as (dk2 & A2 & B2 & _). exists dk2. rewrite apply_app, A. cbn [bind]. split; auto.
    intros s' out H. destruct (read_each _ _ _ _) as [p| |]; cbn [bind] in H; try discriminate. injection H as <- <-. exact B2.
  - destruct (flush_synced doff _ _ Y) as (dk1 & A & B & _). destruct (meta_synced _ _ B) as (dk2 & A2 & B2 & _).
    eexists. rewrite apply_app, A. cbn [bind]. rewrite apply_app, A2. cbn [bind apply_all apply]. split; [reflexivity|]. intros s' out H.
    destruct (reopen_infos (g_cfg (s_g s)) (g_infos (s_g s))) as [infos| |] eqn:Er; cbn [bind] in H; try discriminate. injection H as <- <-.
    destruct (flush_mds doff (s_g s)) as (F1 & F2 & F3). destruct B2 as [Y1 Y2 Y3 Y4 (l & Y5 & Y6 & Y7)].
    assert (Ei : infos = g_infos (s_g s)).
    { destruct Y as [_ _ _ _ (l0 & _ & Z6 & Z7)]. clear - Er Z6 Z7.
      assert (Q : forall l1 l2, (forall o, In o l1 -> exists d d0, o = Some d /\ create_info (g_cfg (s_g s)) d0 = Ok d) -> reopen_infos (g_cfg (s_g s)) l1 = Ok l2 -> l2 = l1).
      { induction l1 as [|o t IH]; intros l2 Ho H; cbn [reopen_infos] in H; [injection H as <-; reflexivity|].
        destruct (Ho o (or_introl eq_refl)) as (d & d0 & -> & E). rewrite (create_idem _ _ _ E) in H. cbn [bind] in H.
        destruct (reopen_infos (g_cfg (s_g s)) t) as [r| |] eqn:R; cbn [bind] in H; try discriminate. injection H as <-. f_equal. apply IH; auto. intros o Hin. apply Ho. right. auto. }
      apply Q; auto. intros o Hin. apply In_nth_error in Hin. destruct Hin as [i Hi].
      destruct (nth_error l0 i) as [a|] eqn:Ea; [|apply nth_error_None in Ea; assert (i < length (g_infos (s_g s)))%nat by (apply nth_error_Some; congruence); lia].
      destruct (Z7 _ _ _ Ea Hi) as (d & -> & _ & _ & _ & E). eauto. }
    subst infos. constructor; cbn [dk_file dk_sets dk_logs dk_mds s_g g_file g_nldset g_mdsets g_cfg g_infos]; auto.
    exists l. split; auto. cbn in Y6, Y7. rewrite F1, F2 in *. split; auto.
Qed.

Lemma init_synced : forall cfg np f0, synced (s_g (init cfg np f0)) (disk0 cfg f0).
Proof.
  intros. constructor; cbn; auto; [lia|exists []; auto|]. exists []. split; auto. split; auto. intros [|i] a o H; discriminate.
Qed.

(** The disk never gets in the way: a program observes with it what SysModel.v says. *)
Lemma crun_run : forall e ops s dk, synced (s_g s) dk ->
  observed (crun e (s, dk) ops) = observed (run e s ops) /\
  forall s' outs, run e s ops = Ok (s', outs) -> exists dk', crun e (s, dk) ops = Ok ((s', dk'), outs) /\ synced (s_g s') dk' /\ apply_all dk (issued e s ops) = Ok dk'.
Proof.
  intros e. induction ops as [|o ops IH]; intros s dk Y.
  - split; [reflexivity|]. intros s' outs H. injection H as <- <-. exists dk. auto.
  - cbn [crun run issued]. unfold cstep. cbn [fst snd]. destruct (step_synced e s o dk Y) as (dk1 & A & B). rewrite apply_app, A. cbn [bind].
    destruct (step e s o) as [[s1 out]| |] eqn:E; cbn [bind fst snd]; [|split; [reflexivity|discriminate]..].
    destruct (IH s1 dk1 (B _ _ eq_refl)) as (I1 & I2). split.
    + destruct (crun e (s1, dk1) ops) as [[[s2 dk2] os]| |], (run e s1 ops) as [[s3 os']| |]; cbn [observed bind fst snd] in *; try discriminate; auto. congruence.
    + intros s' outs H. destruct (run e s1 ops) as [[s2 os]| |] eqn:R; cbn [bind fst snd] in H; try discriminate. injection H as <- <-.
      destruct (I2 _ _ eq_refl) as (dk' & C1 & C2 & C3). exists dk'. rewrite C1. cbn [bind fst snd]. auto.
Qed.

(** ** Opening after a close *)
Lemma open_anchors_ok : forall cfg l infos j pre, (forall i a o, nth_error l i = Some a -> nth_error infos i = Some o -> set_at cfg (j + i) a o) -> length l = length infos -> length pre = j ->
  open_anchors cfg (pre ++ repeat None (length l)) (combine (map Z.of_nat (seq j (length l))) l) = Ok (pre ++ infos).
Proof.
  intros cfg. induction l as [|a l IH]; intros [|o infos] j pre H L P; cbn in L; try discriminate; cbn [length seq map combine open_anchors repeat]; [reflexivity|].
  destruct (H 0%nat a o eq_refl eq_refl) as (d & -> & D2 & D3 & D4 & D5). rewrite Nat.add_0_r in D4. cbn [snd]. unfold open_anchor. rewrite D4.
  assert (Ei : info_at (pre ++ None :: repeat None (length l)) (Z.of_nat j) = Some None).
  { unfold info_at. destruct (Z.ltb_spec (Z.of_nat j) 0); [lia|]. rewrite Nat2Z.id, <- P, nth_error_app2, Nat.sub_diag by lia. reflexivity. }
  rewrite Ei, D2, D3, D5. cbn [bind]. rewrite Nat2Z.id.
  assert (Eu : upd_nth j (Some d) (pre ++ None :: repeat None (length l)) = (pre ++ [Some d]) ++ repeat None (length l)).
  { subst j. rewrite <- app_assoc. cbn [app]. clear. induction pre as [|x pre IH]; cbn [length app upd_nth]; auto. f_equal. exact IH. }
  rewrite Eu, (IH infos (S j) (pre ++ [Some d])).
  - rewrite <- app_assoc. reflexivity.
  - intros i a0 o0 Ha Ho. replace (S j + i)%nat with (j + S i)%nat by lia. apply H; auto.
  - lia.
  - rewrite app_length. cbn. lia.
Qed.
Lemma open_mds_ok : forall mds ms ns, (forall n, In n ns -> 0 <= n) -> (forall n, In n ns -> find_key n mds = nth_error ms (Z.to_nat n)) -> Forall (fun n => (Z.to_nat n < length ms)%nat) ns ->
  open_mds mds ns = Ok (map (fun n => nth (Z.to_nat n) (map md_of ms) []) ns).
Proof.
  intros mds ms. induction ns as [|n ns IH]; intros H0 H F; [reflexivity|]. cbn [open_mds map]. inversion F; subst. rewrite H by (left; auto).
  destruct (nth_error ms (Z.to_nat n)) as [m|] eqn:E; [|apply nth_error_None in E; lia]. rewrite IH; auto; [|intros; apply H0; right; auto|intros; apply H; right; auto]. cbn [bind]. do 2 f_equal.
  erewrite nth_error_nth; [reflexivity|]. rewrite nth_error_map, E. reflexivity.
Qed.
Lemma nth_zseq : forall A (l : list A) d, map (fun n => nth (Z.to_nat n) l d) (zseq (Zlen l)) = l.
Proof.
  intros A l d. unfold zseq, Zlen. rewrite Nat2Z.id, map_map. rewrite (map_ext _ (fun i => nth i l d)) by (intros; rewrite Nat2Z.id; auto).
  induction l as [|x l IH]; cbn [length seq map]; auto. f_equal. rewrite <- seq_shift, map_map. exact IH.
Qed.
Lemma zseq_range : forall n x, In x (zseq n) -> 0 <= x < n.
Proof. intros n x H. unfold zseq in H. apply in_map_iff in H. destruct H as (k & <- & H). apply in_seq in H. lia. Qed.

Lemma recover_synced : forall np g dk, synced g dk ->
  dk_att dk = mkatt (Zlen (g_infos g)) (g_nldset g) (Zlen (g_mdsets g)) (g_cfg g) ->
  recover np dk = Ok (mksys (mkg (g_cfg g) (g_infos g) (repeat rank0 np) (g_file g) (g_mdsets g) (g_nldset g) false) None).
Proof.
  intros np g dk [Y1 Y2 Y3 (ms & Y4 & Y4') (l & Y5 & Y6 & Y7)] A. unfold recover. rewrite A. cbn [at_cfg at_ndset at_nldset at_nmdset].
  rewrite Y5. unfold number. replace (Z.to_nat (Zlen (g_infos g))) with (length l) by (unfold Zlen; lia).
  pose proof (open_anchors_ok (g_cfg g) l (g_infos g) 0 [] ltac:(intros; apply Y7; auto) Y6 eq_refl) as O. cbn [app] in O. rewrite O. cbn [bind].
  rewrite Y4, (open_mds_ok _ ms).
  - cbn [bind]. rewrite Y4', nth_zseq, Y1. reflexivity.
  - intros n H. apply zseq_range in H. lia.
  - intros n H. apply zseq_range in H. rewrite find_number. destruct (Z.ltb_spec n 0); [lia|reflexivity].
  - apply Forall_forall. intros n H. apply zseq_range in H. rewrite <- Y4' in H. unfold Zlen in H. rewrite map_length in H. lia.
Qed.
