(** Lemmas behind P_Crash.v. *)
From Verif Require Import Base BaseProofs Spec MetaModel QueueModel FlushModel IndexModel ReadModel SysModel
  SysSpec History FlushProofs SysProofs DefSpec AnySpec AnyProofs TameSpec AnyClaims CrashModel CrashSpec CrashProofs.
From Coq Require Import ZifyNat ZifyN.

Lemma run_app1 : forall e ops1 ops2 s, run e s (ops1 ++ ops2) =
  do p <- run e s ops1; do q <- run e (fst p) ops2; Ok (fst q, snd p ++ snd q).
Proof. exact run_app. Qed.

Definition att_of (g : gfile) : att := mkatt (Zlen (g_infos g)) (g_nldset g) (Zlen (g_mdsets g)) (g_cfg g).

Lemma reopen_same : forall cfg l l', reopen_infos cfg l = Ok l' -> Forall2 like l l'.
Proof.
  intros cfg. induction l as [|o l IH]; intros l' H; cbn [reopen_infos] in H; [injection H as <-; constructor|]. destruct o as [d|].
  - destruct (create_info cfg d) as [d'| |] eqn:E; cbn [bind] in H; try discriminate. destruct (reopen_infos cfg l) as [r| |]; cbn [bind] in H; try discriminate. injection H as <-.
    constructor; auto. destruct (create_like _ _ _ E). auto.
  - destruct (reopen_infos cfg l) as [r| |]; cbn [bind] in H; try discriminate. injection H as <-. constructor; cbn; auto.
Qed.

Lemma step_att : forall e s doff np dk s' out dk', synced (s_g s) dk -> step e s (OReopen doff np) = Ok (s', out) -> apply_all dk (effects e s (OReopen doff np)) = Ok dk' ->
  synced (s_g s') dk' /\ dk_att dk' = att_of (s_g s') /\ s' = mksys (mkg (g_cfg (s_g s')) (g_infos (s_g s')) (repeat rank0 np) (g_file (s_g s')) (g_mdsets (s_g s')) (g_nldset (s_g s')) false) None.
Proof.
  intros e s doff np dk s' out dk' Y S A. destruct (step_synced e s (OReopen doff np) dk Y) as (dk1 & A1 & B1). rewrite A in A1. injection A1 as <-. split; [eapply B1; eauto|].
  cbn [effects step] in *. destruct (flush_synced doff _ _ Y) as (dk2 & A2 & B2 & _). destruct (meta_synced _ _ B2) as (dk3 & A3 & B3 & _).
  rewrite apply_app, A2 in A. cbn [bind] in A. rewrite apply_app, A3 in A. cbn [bind apply_all apply] in A. injection A as <-. cbn [dk_att].
  destruct (reopen_infos _ _) as [infos| |] eqn:Er; cbn [bind] in S; try discriminate. injection S as <- <-. cbn. split; [|reflexivity].
  destruct (flush_mds doff (s_g s)) as (F1 & F2 & F3). pose proof (Forall2_length _ _ _ _ _ (reopen_same _ _ _ Er)) as L. unfold att_of, Zlen. cbn. rewrite F1, F2, L. reflexivity.
Qed.

(** After any history that ends with a close, the disk opens as the reopened file. *)
Lemma close_open : forall e cfg np f0 ops doff np' s outs, run e (init cfg np f0) (ops ++ [OReopen doff np']) = Ok (s, outs) ->
  exists dk, apply_all (disk0 cfg f0) (issued e (init cfg np f0) (ops ++ [OReopen doff np'])) = Ok dk /\
    crun e (init cfg np f0, disk0 cfg f0) (ops ++ [OReopen doff np']) = Ok ((s, dk), outs) /\ synced (s_g s) dk /\ dk_att dk = att_of (s_g s) /\ recover np' dk = Ok s.
Proof.
  intros e cfg np f0 ops doff np' s outs H. destruct (crun_run e (ops ++ [OReopen doff np']) _ _ (init_synced cfg np f0)) as (_ & R). destruct (R _ _ H) as (dk & R1 & R2 & R3).
  exists dk. split; auto. split; auto. split; auto. rewrite run_app1 in H. destruct (run e (init cfg np f0) ops) as [[s0 o0]| |] eqn:E0; cbn [bind fst snd] in H; try discriminate.
  cbn [run] in H. destruct (step e s0 (OReopen doff np')) as [[s1 o1]| |] eqn:E1; cbn [bind fst snd] in H; try discriminate. injection H as <- <-.
  destruct (crun_run e ops _ _ (init_synced cfg np f0)) as (_ & R'). destruct (R' _ _ E0) as (dk0 & C1 & C2 & C3).
  assert (Ei : issued e (init cfg np f0) (ops ++ [OReopen doff np']) = issued e (init cfg np f0) ops ++ effects e s0 (OReopen doff np')).
  { clear - E0 E1. revert E0. generalize (init cfg np f0) as s. intros s. revert s o0. induction ops as [|o ops IH]; intros s o0 E0.
    - injection E0 as -> <-. cbn [app issued]. rewrite E1, app_nil_r. reflexivity.
    - cbn [run app issued] in *. destruct (step e s o) as [[s2 o2]| |]; cbn [bind fst snd] in E0; try discriminate. destruct (run e s2 ops) as [[s3 o3]| |] eqn:E; cbn [bind fst snd] in E0; try discriminate.
      injection E0 as -> <-. rewrite (IH _ _ E), app_assoc. reflexivity. }
  rewrite Ei, apply_app, C3 in R3. cbn [bind] in R3. destruct (step_att _ _ _ _ _ _ _ _ C2 E1 R3) as (T1 & T2 & T3). split; auto.
  rewrite (recover_synced np' _ _ T1 T2). f_equal. symmetry. exact T3.
Qed.

(** ** What a session leaves behind *)

Definition harmless (g : gfile) (hi : Z) (x : effect) : Prop :=
  match x with
  | XDims k v => 0 <= k /\ forall d, info_at (g_infos g) k = Some (Some d) -> length v = di_ndim d
  | XLog _ => True
  | XData off _ => hi <= off
  | XMd n _ | XMdPut n _ _ => Zlen (g_mdsets g) <= n
  | _ => False
  end.

Record remains (g : gfile) (hi : Z) (dk : disk) : Prop := {
  r_file : forall p, p < hi -> dk_file dk p = g_file g p;
  r_att : dk_att dk = att_of g;
  r_mds : exists ms, map md_of ms = g_mdsets g /\ forall n, 0 <= n < Zlen ms -> find_key n (dk_mds dk) = nth_error ms (Z.to_nat n);
  r_sets : exists l infos, dk_sets dk = number l /\ sets_ok (g_cfg g) l infos /\ Forall2 like (g_infos g) infos }.

Lemma synced_remains : forall g hi dk, synced g dk -> dk_att dk = att_of g -> remains g hi dk.
Proof.
  intros g hi dk [Y1 Y2 Y3 (ms & Y4 & Y4') (l & Y5 & Y6)] A. constructor; auto.
  - intros p _. congruence.
  - exists ms. split; auto. intros n H. rewrite Y4, find_number. destruct (Z.ltb_spec n 0); [lia|reflexivity].
  - exists l, (g_infos g). split; auto. split; auto. apply like_all.
Qed.
Lemma find_app : forall A n m (x : A) l, n <> m -> find_key n (l ++ [(m, x)]) = find_key n l.
Proof. intros A n m x l H. induction l as [|[k y] l IH]; cbn; [destruct (Z.eqb_spec m n); [congruence|reflexivity]|]. destruct (k =? n); auto. Qed.
Lemma find_at : forall A n m (f : A -> A) l, n <> m -> find_key n (at_key m f l) = find_key n l.
Proof.
  intros A n m f l H. induction l as [|[k y] l IH]; cbn [at_key map find_key]; auto. cbn [fst snd]. destruct (Z.eqb_spec k m).
  - cbn [fst snd]. destruct (Z.eqb_spec k n); [congruence|]. exact IH.
  - cbn [fst snd]. destruct (k =? n); auto.
Qed.
Lemma Forall2_like_at : forall l l' k d' b, Forall2 like l l' -> nth_error l' k = Some d' -> like d' b -> Forall2 like l (upd_nth k b l').
Proof.
  intros l l' k d' b F. revert k. induction F as [|x y l l' L F IH]; intros [|k] H B; cbn in *; try discriminate; constructor; auto.
  - injection H as ->. destruct x as [x|], d' as [d|], b as [b|]; cbn in *; try contradiction; auto. destruct L as (? & ? & ?), B as (? & ? & ?). repeat split; congruence.
Qed.

Lemma harmless_remains : forall g hi dk x dk', remains g hi dk -> harmless g hi x -> apply dk x = Ok dk' -> remains g hi dk'.
Proof.
  intros g hi dk x dk' [R1 R2 (ms & R3 & R4) (l & infos & R5 & (R6 & R7) & R8)] H A.
  assert (RS : exists l infos, dk_sets dk = number l /\ sets_ok (g_cfg g) l infos /\ Forall2 like (g_infos g) infos) by (exists l, infos; repeat split; auto).
  destruct x; cbn [harmless] in H; try contradiction; cbn [apply] in A.
  - injection A as <-. constructor; cbn [dk_file dk_att dk_mds dk_sets]; eauto. destruct H as (H0 & H). rewrite R5, at_number by auto.
    destruct (nth_error l (Z.to_nat k)) as [a|] eqn:Ea; [|exists l, infos; repeat split; auto].
    destruct (nth_error infos (Z.to_nat k)) as [o|] eqn:Eo; [|apply nth_error_None in Eo; assert (Z.to_nat k < length l)%nat by (apply nth_error_Some; congruence); lia].
    destruct (R7 _ _ _ Ea Eo) as (d & -> & D2 & D3 & D4 & D5).
    destruct (nth_error (g_infos g) (Z.to_nat k)) as [og|] eqn:Eg.
    2:{ apply nth_error_None in Eg. apply Forall2_length in R8. assert (Z.to_nat k < length infos)%nat by (apply nth_error_Some; congruence). lia. }
    assert (Lk : like og (Some d)) by (eapply (Forall2_nth_error) in R8; [|exact Eg]; destruct R8 as (b & B1 & B2); rewrite Eo in B1; injection B1 as <-; exact B2).
    destruct og as [dg|]; [|contradiction]. destruct Lk as (L1 & L2 & L3).
    assert (Lv : length dims = di_ndim d). { rewrite L2. apply H. unfold info_at. destruct (Z.ltb_spec k 0); [lia|]. exact Eg. }
    pose proof (create_fields _ _ _ D5) as (E1 & E2 & E3 & E4 & E5 & E6). cbn in E1, E2, E3, E4, E5, E6.
    set (d' := mkdinfo (di_esize d) dims (di_mdims d) (if has (g_cfg g) CFG_SEL_ENCODE then dsteps_of dims else di_dsteps d) (di_fill d)).
    eexists. exists (upd_nth (Z.to_nat k) (Some d') infos). split; [reflexivity|]. split; [split; [rewrite !upd_length; auto|]|].
    + intros i a' o Ha Ho. rewrite nth_upd in Ha, Ho. destruct (Z.to_nat k =? i)%nat eqn:E; [|apply R7; auto]. apply Nat.eqb_eq in E. subst i. rewrite Ea in Ha. rewrite Eo in Ho.
      injection Ha as <-. injection Ho as <-. exists d'. cbn [an_new an_dims an_mdims an_id]. split; [reflexivity|]. repeat split; auto.
      unfold create_info in *. unfold d'. cbn in *. unfold di_ndim in *. cbn in *. destruct (has (g_cfg g) CFG_SEL_ENCODE).
      * rewrite Lv. destruct (length (di_dims d) =? 0)%nat; [discriminate|]. rewrite E1, E4. reflexivity.
      * rewrite E1, E4, E5. reflexivity.
    + eapply Forall2_like_at; eauto. unfold d', di_ndim. cbn. auto.
  - destruct (existsb _ _); [discriminate|]. injection A as <-. constructor; cbn [dk_file dk_att dk_mds dk_sets]; eauto.
  - injection A as <-. constructor; cbn [dk_file dk_att dk_mds dk_sets]; eauto. intros p Hp. unfold put. destruct (Z.leb_spec off p); [lia|]. cbn. auto.
  - destruct (find_key n (dk_mds dk)); [discriminate|]. injection A as <-. constructor; cbn [dk_file dk_att dk_mds dk_sets]; eauto. exists ms. split; auto. intros j Hj.
    rewrite find_app; auto. rewrite <- R3 in H. unfold Zlen in *. rewrite map_length in H. lia.
  - injection A as <-. constructor; cbn [dk_file dk_att dk_mds dk_sets]; eauto. exists ms. split; auto. intros j Hj.
    rewrite find_at; auto. rewrite <- R3 in H. unfold Zlen in *. rewrite map_length in H. lia.
Qed.
Lemma harmless_all : forall g hi xs dk dk', remains g hi dk -> Forall (harmless g hi) xs -> apply_all dk xs = Ok dk' -> remains g hi dk'.
Proof.
  intros g hi. induction xs as [|x xs IH]; intros dk dk' R F A; cbn [apply_all] in A; [injection A as <-; auto|]. inversion F; subst.
  destruct (apply dk x) as [dk1| |] eqn:E; cbn [bind] in A; try discriminate. eapply IH; [|eauto|eauto]. eapply harmless_remains; eauto.
Qed.
Lemma recover_remains : forall np g hi dk, remains g hi dk ->
  exists infos, Forall2 like (g_infos g) infos /\
    recover np dk = Ok (mksys (mkg (g_cfg g) infos (repeat rank0 np) (dk_file dk) (g_mdsets g) (g_nldset g) false) None).
Proof.
  intros np g hi dk [R1 R2 (ms & R3 & R4) (l & infos & R5 & (R6 & R7) & R8)]. exists infos. split; auto. unfold recover. rewrite R2. unfold att_of. cbn [at_cfg at_ndset at_nldset at_nmdset].
  rewrite R5. unfold number. pose proof (Forall2_length _ _ _ _ _ R8) as L. replace (Z.to_nat (Zlen (g_infos g))) with (length l) by (unfold Zlen; lia).
  pose proof (open_anchors_ok (g_cfg g) l infos 0 [] ltac:(intros; apply R7; auto) R6 eq_refl) as O. cbn [app] in O. rewrite O. cbn [bind].
  assert (Lm : Zlen (g_mdsets g) = Zlen ms) by (rewrite <- R3; unfold Zlen; rewrite map_length; reflexivity).
  rewrite (open_mds_ok _ ms).
  - cbn [bind]. rewrite R3, nth_zseq. reflexivity.
  - intros n H. apply zseq_range in H. lia.
  - intros n H. apply zseq_range in H. apply R4. lia.
  - apply Forall_forall. intros n H. apply zseq_range in H. unfold Zlen in *. lia.
Qed.

(** ** The changes of a session are harmless *)
Lemma exscan_ge : forall l a x, Forall (fun n => 0 <= n) l -> In x (exscan a l) -> a <= x.
Proof.
  induction l as [|n l IH]; intros a x F H; cbn [exscan] in H; [contradiction|]. inversion F; subst. destruct H as [<-|H]; [lia|]. apply IH in H; auto. lia.
Qed.
Section Session.
Context (e : env) (cfg : Z) (cv : conv) (g0 : gfile) (hi : Z).
Let ok (x : effect) : Prop := writes_att x = true \/ harmless g0 hi x.

Lemma flush_harmless : forall s sp h n C ms grs doff, inv e cfg cv s sp h n C ms grs -> ok_flush sp h doff -> hi <= hs_hi h -> Forall ok (flush_effects doff (s_g s)).
Proof.
  intros s sp h n C ms grs doff V K H. unfold flush_effects. destruct (sizes_eq _ _ _ _ _ _ (v_ranks _ _ _ _ _ _ _ _ _ _ V)) as (S1 & _). rewrite S1, abytes_all.
  destruct (Z.eqb_spec (abytes (all_pd grs)) 0) as [|Hn]; [constructor|]. constructor; [right; exact Logic.I|].
  destruct (inv_pend _ _ _ _ _ _ _ _ _ _ V) as (P1 & _). unfold ok_flush in K. rewrite P1 in K. specialize (K Hn).
  apply Forall_map. apply Forall_forall. intros [o st] Hin. right. cbn [fst snd harmless]. apply in_combine_l in Hin. apply in_map_iff in Hin. destruct Hin as (x & <- & Hx).
  apply exscan_ge in Hx; [lia|]. apply Forall_map. apply Forall_forall. intros gr _. apply abytes_nonneg.
Qed.
Lemma meta_harmless : forall g, Zlen (g_mdsets g0) <= Zlen (g_mdsets g) -> Forall ok (meta_effects g).
Proof.
  intros g H. unfold meta_effects. destruct (_ <? _); [|constructor]. constructor; [right; exact H|]. apply Forall_map. apply Forall_forall. intros p _. right. exact H.
Qed.
Lemma step_mds : forall s o s' out, step e s o = Ok (s', out) -> Zlen (g_mdsets (s_g s)) <= Zlen (g_mdsets (s_g s')).
Proof.
  intros s o s' out H. assert (M : forall g, Zlen (g_mdsets g) <= Zlen (g_mdsets (metaflush g))).
  { intros g. unfold metaflush. cbn. destruct (_ <? _); [|lia]. unfold Zlen. rewrite app_length. lia. }
  assert (F : forall doff g, g_mdsets (flush_writes doff g) = g_mdsets g) by (intros; apply flush_mds).
  destruct o as [d|did dims|rk did sels data|doff|doff calls|doff np]; cbn [step] in H.
  - destruct (create_info _ _); cbn [bind] in H; try discriminate. injection H as <- <-. cbn. lia.
  - destruct (info_at _ _) as [[d|]|]; try discriminate. destruct (set_extent _ _ _) as [d' [|]]; try discriminate. injection H as <- <-. cbn. lia.
  - destruct (nth_error _ _); try discriminate. destruct (ds_write _ _ _ _ _ _ _); cbn [bind] in H; try discriminate. injection H as <- <-. cbn. lia.
  - injection H as <- <-. cbn [s_g]. destruct (any_pending _); rewrite ?F; lia.
  - destruct (read_each _ _ _ _); cbn [bind] in H; try discriminate. injection H as <- <-. cbn [s_g].
    assert (Q : g_mdsets (if e_coll e && any_pending (s_g s) then flush_writes doff (s_g s) else s_g s) = g_mdsets (s_g s)) by (destruct (_ && _); auto).
    destruct (g_metadirty _); [|rewrite Q; lia]. rewrite <- Q at 1. apply M.
  - destruct (reopen_infos _ _); cbn [bind] in H; try discriminate. injection H as <- <-. cbn [s_g g_mdsets]. unfold close_file. rewrite <- (F doff (s_g s)) at 1. apply M.
Qed.
Lemma like_trans : forall a b c, like a b -> like b c -> like a c.
Proof. intros [a|] [b|] [c|]; cbn; try tauto. intros (? & ? & ?) (? & ? & ?). repeat split; congruence. Qed.
Lemma like_trans_all : forall a b c, Forall2 like a b -> Forall2 like b c -> Forall2 like a c.
Proof. intros a b c F. revert c. induction F; intros c G; inversion G; subst; constructor; auto. eapply like_trans; eauto. Qed.
Lemma step_infos : forall s o s' out, creates o = false -> step e s o = Ok (s', out) -> Forall2 like (g_infos (s_g s)) (g_infos (s_g s')).
Proof.
  intros s o s' out Hc H. assert (F : forall doff g, g_infos (flush_writes doff g) = g_infos g) by (intros; apply flush_mds).
  destruct o as [d|did dims|rk did sels data|doff|doff calls|doff np]; cbn [step] in H; [discriminate|..].
  - destruct (info_at _ _) as [[d|]|] eqn:Ei; try discriminate. pose proof (extent_like (g_cfg (s_g s)) d dims) as Li. destruct (set_extent _ _ _) as [d' [|]]; try discriminate. injection H as <- <-. cbn.
    apply info_nth in Ei. eapply Forall2_like_upd; eauto.
  - destruct (nth_error _ _); try discriminate. destruct (ds_write _ _ _ _ _ _ _); cbn [bind] in H; try discriminate. injection H as <- <-. cbn. apply like_all.
  - injection H as <- <-. cbn [s_g]. destruct (any_pending _); rewrite ?F; apply like_all.
  - destruct (read_each _ _ _ _); cbn [bind] in H; try discriminate. injection H as <- <-. cbn [s_g].
    destruct (g_metadirty _), (_ && _); cbn [metaflush g_infos]; rewrite ?F; apply like_all.
  - destruct (reopen_infos _ _) as [l| |] eqn:E; cbn [bind] in H; try discriminate. injection H as <- <-. cbn [s_g g_infos]. eapply reopen_same; eauto.
Qed.

Lemma issued_harmless : forall post s sp h n C ms grs, inv e cfg cv s sp h n C ms grs -> is_sort (e_sort e) -> ok_run e cfg cv sp h post -> n + Z.of_nat (length post) < 2 ^ 30 ->
  Forall (fun o => creates o = false) post -> Forall2 like (g_infos g0) (g_infos (s_g s)) -> Zlen (g_mdsets g0) <= Zlen (g_mdsets (s_g s)) -> hi <= hs_hi h ->
  Forall ok (issued e s post).
Proof.
  induction post as [|o post IH]; intros s sp h n C ms grs V Hs K Hn Hc L M H; cbn [issued]; [constructor|]. destruct K as [K1 K2]. cbn [length] in Hn. inversion Hc as [|? ? Hc1 Hc2]; subst.
  destruct (step_ok _ _ _ _ _ _ _ _ _ _ o V Hs K1 ltac:(lia)) as (s' & C' & ms' & grs' & S1 & S2). rewrite S1.
  assert (F : forall doff g, g_mdsets (flush_writes doff g) = g_mdsets g) by (intros; apply flush_mds).
  apply Forall_app. split.
  - destruct o as [d|did dims|rk did sels data|doff|doff calls|doff np]; cbn [effects]; [discriminate|..].
    + destruct (info_at (g_infos (s_g s)) did) as [[d|]|] eqn:Ei; constructor; [|constructor]. right. cbn [harmless]. split; [unfold info_at in Ei; destruct (Z.ltb_spec did 0); [discriminate|lia]|].
      intros d1 E1. pose proof (like_at _ _ did L) as Q. rewrite E1, Ei in Q. cbn in Q. destruct Q as (_ & Q & _). pose proof (extent_like (g_cfg (s_g s)) d dims) as (_ & Q2 & _). unfold di_ndim in *. lia.
    + constructor.
    + destruct (any_pending _); [|constructor]. eapply flush_harmless; eauto.
    + destruct K1 as (K1 & _). apply Forall_app. split.
      * destruct (e_coll e); cbn [andb]; [|constructor]. destruct (any_pending _); [|constructor]. eapply flush_harmless; eauto.
      * destruct (g_metadirty _); [|constructor]. apply meta_harmless. destruct (_ && _); rewrite ?F; auto.
    + destruct K1 as (_ & _ & K1). apply Forall_app. split; [eapply flush_harmless; eauto|]. apply Forall_app. split; [apply meta_harmless; rewrite F; auto|]. constructor; [left; reflexivity|constructor].
  - eapply (IH s' _ _ (n + 1)); eauto; try lia.
    + eapply like_trans_all; eauto. eapply step_infos; eauto.
    + pose proof (step_mds _ _ _ _ S1). lia.
    + assert (Hf : forall doff, ok_flush sp h doff -> hs_hi h <= hs_hi (hflush sp h doff)).
      { intros doff Hk. unfold hflush. destruct (Z.eqb_spec (pend_bytes sp) 0) as [|Hp]; [lia|]. cbn [hs_hi]. specialize (Hk Hp). destruct (inv_pend _ _ _ _ _ _ _ _ _ _ V) as (P1 & _). pose proof (abytes_nonneg (all_pd grs)). lia. }
      destruct o as [d|did dims|rk did sels data|doff|doff calls|doff np]; cbn [hstep ok_op] in *; try (cbn; lia).
      * specialize (Hf _ K1). lia.
      * destruct K1 as (K1 & _). destruct (e_coll e); [|lia]. specialize (Hf _ K1). lia.
      * destruct K1 as (_ & _ & K1). specialize (Hf _ K1). cbn [hs_hi]. lia.
Qed.
End Session.

(** ** Reading after a crash *)
Fixpoint hrun (e : env) (sp : sstate) (h : hstate) (ops : list op) : hstate :=
  match ops with [] => h | o :: rest => hrun e (fst (sstep (e_coll e) sp o)) (hstep e sp h o) rest end.
Lemma run_inv : forall e cfg cv ops s sp h n C ms grs, inv e cfg cv s sp h n C ms grs -> is_sort (e_sort e) -> ok_run e cfg cv sp h ops -> n + Z.of_nat (length ops) < 2 ^ 30 ->
  exists s' outs C' ms' grs', run e s ops = Ok (s', outs) /\ inv e cfg cv s' (fst (srun (e_coll e) sp ops)) (hrun e sp h ops) (n + Z.of_nat (length ops)) C' ms' grs'.
Proof.
  intros e cfg cv ops. induction ops as [|o ops IH]; intros s sp h n C ms grs I Hsort Hok Hn.
  - exists s, [], C, ms, grs. split; auto. cbn. rewrite Z.add_0_r. auto.
  - destruct Hok as [H1 H2]. cbn [length] in Hn.
    destruct (step_ok _ _ _ _ _ _ _ _ _ _ o I Hsort H1 ltac:(lia)) as (s1 & C1 & ms1 & grs1 & S1 & S2).
    destruct (IH _ _ _ _ _ _ _ S2 Hsort H2 ltac:(lia)) as (s' & outs & C' & ms' & grs' & R1 & R2).
    eexists s', _, C', ms', grs'. cbn [run srun hrun]. rewrite S1. cbn [bind fst snd]. rewrite R1. cbn [bind fst snd]. split; [reflexivity|].
    destruct (sstep (e_coll e) sp o) as [sp1 out]. cbn [fst snd] in *. destruct (srun (e_coll e) sp1 ops) as [sp2 os]. cbn [fst snd] in *.
    cbn [length]. replace (n + Z.of_nat (S (length ops))) with (n + 1 + Z.of_nat (length ops)) by lia. exact R2.
Qed.
Lemma ok_run_split : forall e cfg cv a b sp h, ok_run e cfg cv sp h (a ++ b) <-> ok_run e cfg cv sp h a /\ ok_run e cfg cv (fst (srun (e_coll e) sp a)) (hrun e sp h a) b.
Proof.
  intros e cfg cv. induction a as [|o a IH]; intros b sp h; cbn [app ok_run srun hrun fst]; [tauto|]. rewrite IH.
  destruct (sstep (e_coll e) sp o) as [sp1 out]. cbn [fst]. destruct (srun (e_coll e) sp1 a) as [sp2 os]. cbn [fst]. tauto.
Qed.

Definition with_file (s : sys) (f : bytemap) : sys :=
  mksys (mkg (g_cfg (s_g s)) (g_infos (s_g s)) (g_ranks (s_g s)) f (g_mdsets (s_g s)) (g_nldset (s_g s)) (g_metadirty (s_g s))) (s_idx s).
Lemma inv_file : forall e cfg cv s sp h n C ms grs f, inv e cfg cv s sp h n C ms grs -> (forall p, p < hs_hi h -> f p = g_file (s_g s) p) -> inv e cfg cv (with_file s f) sp h n C ms grs.
Proof.
  intros e cfg cv s sp h n C ms grs f V Hf. destruct V. constructor; auto. cbn [with_file s_g g_file]. rewrite Forall_forall in *. intros p Hp. etransitivity; [|exact (v_file p Hp)].
  destruct (v_hi p Hp) as (P1 & P2). unfold get. apply map_ext_in. intros i Hi. apply in_seq in Hi. apply Hf. unfold Zlen in P2. lia.
Qed.

Definition opened (s : sys) (np : nat) : Prop := g_ranks (s_g s) = repeat rank0 np /\ g_metadirty (s_g s) = false /\ s_idx s = None.
Lemma none_pending : forall np, existsb (fun st => negb (num_pending st =? 0)%nat) (repeat rank0 np) = false.
Proof. induction np; auto. Qed.
Lemma opened_read : forall e s np doff calls, opened s np -> step e s (ORead doff calls) = do p <- read_each e (s_g s) None calls; Ok (mksys (s_g s) (snd p), fst p).
Proof.
  intros e s np doff calls (O1 & O2 & O3). cbn [step]. unfold any_pending. rewrite O1, none_pending, andb_false_r, O2, O3. reflexivity.
Qed.

Lemma crash_reads : forall e cfg np f0 pre doff np1 post np2 doff2 calls s1 dk outs1 xs dk',
  tame e cfg np (pre ++ OReopen doff np1 :: post) -> tame e cfg np (pre ++ [OReopen doff np2; ORead doff2 calls]) ->
  Forall (fun o => creates o = false) post ->
  crun e (init cfg np f0, disk0 cfg f0) (pre ++ [OReopen doff np1]) = Ok ((s1, dk), outs1) ->
  incl xs (issued e s1 post) -> Forall (fun x => writes_att x = false) xs -> apply_all dk xs = Ok dk' ->
  exists bufs, read_after_crash e np2 dk' doff2 calls = Ok bufs /\
    last_read (run e (init cfg np f0) (pre ++ [OReopen doff np2; ORead doff2 calls])) = Ok bufs.
Proof.
  intros e cfg np f0 pre doff np1 post np2 doff2 calls s1 dk outs1 xs dk' T1 T2 Hc R X Ha A.
  destruct (tame_ok _ _ _ _ T1) as (cv1 & K1). destruct (tame_ok _ _ _ _ T2) as (cv2 & K2). clear T1 T2.
  destruct K1 as (_ & N1 & N2 & N3 & Hs & K1). destruct K2 as (_ & _ & _ & M3 & _ & K2).
  change (OReopen doff np1 :: post) with ([OReopen doff np1] ++ post) in K1, N3. change [OReopen doff np2; ORead doff2 calls] with ([OReopen doff np2] ++ [ORead doff2 calls]) in K2, M3 |- *.
  rewrite !app_length in N3, M3. cbn [length] in N3, M3.
  apply ok_run_split in K1. destruct K1 as (Kp & K1). apply ok_run_split in K1. destruct K1 as (Kr & Kpost).
  apply ok_run_split in K2. destruct K2 as (Kp2 & K2). apply ok_run_split in K2. destruct K2 as (Kr2 & Kread).
  set (sp := fst (srun (e_coll e) (sinit np) pre)) in *. set (h := hrun e (sinit np) (mkhs 0 (repeat [] np)) pre) in *.
  destruct (run_inv e cfg cv1 pre _ _ _ 0 _ _ _ (inv_init e cfg cv1 np f0 N1 N2) Hs Kp ltac:(lia)) as (s & outs & C & ms & grs & Rp & V). fold sp in V. fold h in V.
  destruct (run_inv e cfg cv2 pre _ _ _ 0 _ _ _ (inv_init e cfg cv2 np f0 N1 N2) Hs Kp2 ltac:(lia)) as (s' & outs' & C2 & ms2 & grs2 & Rp2 & V2). fold sp in V2. fold h in V2.
  rewrite Rp in Rp2. injection Rp2 as <- <-.
  destruct (run_inv e cfg cv1 [OReopen doff np1] _ _ _ _ _ _ _ V Hs Kr ltac:(cbn; lia)) as (s1' & o1 & C' & ms' & grs' & R1 & V1).
  destruct (run_inv e cfg cv2 [OReopen doff np2] _ _ _ _ _ _ _ V2 Hs Kr2 ltac:(cbn; lia)) as (s0 & o0 & C0 & ms0 & grs0 & R0 & V0).
  (* the closed file *)
  assert (E1 : run e (init cfg np f0) (pre ++ [OReopen doff np1]) = Ok (s1', outs ++ o1)) by (rewrite run_app1, Rp; cbn [bind fst snd]; rewrite R1; reflexivity).
  destruct (close_open _ _ _ _ _ _ _ _ _ E1) as (dk1 & _ & Q1 & Q2 & Q3 & _). rewrite R in Q1. injection Q1 as Es Edk _. subst s1' dk1.
  pose proof R0 as R0k.
  (* what np1 and what np2 processes see *)
  cbn [run step] in R1, R0. destruct (reopen_infos (g_cfg (s_g s)) (g_infos (s_g s))) as [infos| |] eqn:Er; cbn [bind fst snd] in R1, R0; try discriminate.
  injection R1 as E1s _. injection R0 as E0s _.
  cbn [srun fst snd hrun] in V1, V0, Kpost, Kread.
  set (hi := hs_hi (hflush sp h doff)).
  assert (Hhi1 : hi <= hs_hi (hstep e sp h (OReopen doff np1))) by (cbn [hstep hs_hi]; unfold hi; lia).
  assert (Hx : Forall (harmless (s_g s1) hi) xs).
  { pose proof (issued_harmless e cfg cv1 (s_g s1) hi post _ _ _ _ _ _ _ V1 Hs Kpost ltac:(cbn [length]; lia) Hc (like_all _) ltac:(lia) Hhi1) as F.
    rewrite Forall_forall in *. intros x Hin. specialize (Ha x Hin). destruct (F x (X x Hin)) as [W|W]; [congruence|exact W]. }
  pose proof (harmless_all _ _ _ _ _ (synced_remains _ hi _ Q2 Q3) Hx A) as RM.
  destruct (recover_remains np2 _ _ _ RM) as (infos' & L & Rc).
  (* the same file, other bytes behind *)
  assert (Hf : forall p, p < hs_hi (hstep e sp h (OReopen doff np2)) -> dk_file dk' p = g_file (s_g s0) p).
  { intros p Hp. rewrite (r_file _ _ _ RM) by exact Hp. rewrite <- E1s, <- E0s. reflexivity. }
  pose proof (inv_file _ _ _ _ _ _ _ _ _ _ _ V0 Hf) as V0F.
  cbn [ok_run ok_op] in Kread. destruct Kread as (Kread & _).
  destruct (step_read _ _ _ _ _ _ _ _ _ _ doff2 calls V0 Hs Kread ltac:(cbn [length]; lia)) as (sa & Ca & ma & ga & Sa & _ & _).
  destruct (step_read _ _ _ _ _ _ _ _ _ _ doff2 calls V0F Hs Kread ltac:(cbn [length]; lia)) as (sb & Cb & mb & gb & Sb & _ & _).
  exists (snd (sstep (e_coll e) (fst (sstep (e_coll e) sp (OReopen doff np2))) (ORead doff2 calls))). split.
  - unfold read_after_crash. rewrite Rc. cbn [bind]. rewrite (opened_read _ _ np2) by (repeat split). cbn [s_g].
    rewrite (opened_read _ _ np2) in Sb by (rewrite <- E0s; repeat split).
    set (ga' := s_g (with_file s0 (dk_file dk'))) in *. match goal with |- context [read_each e ?x None calls] => set (gb' := x) end.
    assert (SL : same_log ga' gb').
    { unfold ga', gb'. rewrite <- E0s. rewrite <- E1s in L |- *. unfold same_log. cbn [s_g with_file g_cfg g_infos g_file g_mdsets] in *. repeat split; auto. }
    pose proof (read_each_fresh e ga' gb' calls None None SL Logic.I Logic.I) as F.
    destruct (read_each e ga' None calls) as [p| |]; cbn [bind] in Sb; try discriminate. injection Sb as _ Sb.
    destruct (read_each e gb' None calls) as [q| |]; try contradiction. cbn [bind snd]. destruct F as (F & _). rewrite F, Sb. reflexivity.
  - rewrite run_app1, Rp. cbn [bind fst snd]. rewrite run_app1, R0k. cbn [bind fst snd]. cbn [run]. rewrite Sa. cbn [bind fst snd last_read].
    rewrite app_assoc, last_last. reflexivity.
Qed.
