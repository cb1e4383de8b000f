(** Lemmas behind P_Fault.v, continued: H5Fclose twice, H5Dset_extent, data that were not written. *)
From Verif Require Import Base BaseProofs Spec MetaModel QueueModel FlushModel IndexModel ReadModel SysModel
  SysSpec History FlushProofs SysProofs HistoryProofs AnySpec AnyProofs TameSpec TameProofs AnyClaims CrashModel CrashSpec CrashProofs CrashClaims CrashClaims2 FaultModel FaultSpec FaultProofs FaultSim FaultClaims.
From Coq Require Import ZifyNat ZifyN.

(** ** H5Fclose, after H5Fclose failed *)
Lemma fresh_any : forall g np, g_ranks g = repeat rank0 np -> any_pending g = false.
Proof. intros g np E. unfold any_pending. rewrite E. clear. induction np; auto. Qed.
Lemma second_close : forall e cfg np f0 pre doff np1 post bad doff3 np3 bad' doff4 np2 doff2 calls x os,
  tame e cfg np (pre ++ OReopen doff np1 :: post ++ [OReopen doff3 np3]) ->
  tame e cfg np (pre ++ [OReopen doff np2; ORead doff2 calls]) ->
  Forall (fun o => creates o = false /\ closes o = false) post ->
  frun e (fstart cfg np f0) (map fine (pre ++ OReopen doff np1 :: post) ++ [Call bad (OReopen doff3 np3)]) = Ok (x, map Some os ++ [None]) ->
  exists x' bufs, frun e x [Call bad' (OReopen doff4 np2); fine (ORead doff2 calls)] = Ok (x', [Some []; Some bufs]) /\
    last_read (run e (init cfg np f0) (pre ++ [OReopen doff np2; ORead doff2 calls])) = Ok bufs.
Proof.
  intros e cfg np f0 pre doff np1 post bad doff3 np3 bad' doff4 np2 doff2 calls x os T1 T2 Hm H.
  assert (Hm1 : Forall (fun o => creates o = false) post) by (eapply Forall_impl; [|exact Hm]; cbn; intros ? [? ?]; auto).
  assert (Hm2 : Forall (fun o => closes o = false) post) by (eapply Forall_impl; [|exact Hm]; cbn; intros ? [? ?]; auto).
  pose proof T1 as T1'. change (OReopen doff np1 :: post ++ [OReopen doff3 np3]) with ((OReopen doff np1 :: post) ++ [OReopen doff3 np3]) in T1'. rewrite app_assoc in T1'.
  destruct (tame_reads _ _ _ f0 _ T1') as (s5 & o5 & R5 & _). rewrite run_app1 in R5. destruct (run e (init cfg np f0) (pre ++ OReopen doff np1 :: post)) as [[s outs]| |] eqn:R; cbn [bind] in R5; try discriminate. clear R5 T1'.
  assert (Eo : os = outs).
  { destruct (fine_start _ _ _ f0 _ _ _ R) as (dk & F1 & _). apply frun_app in H. destruct H as (x1 & o1 & o2 & H1 & H2 & H3 & _). rewrite F1 in H1. injection H1 as <- <-.
    cbn [frun] in H2. destruct (fstep _ _ _) as [[? ?]| |]; cbn [bind fst snd frun] in H2; try discriminate. injection H2 as _ <-. apply app_inj_tail in H3. destruct H3 as [H3 _].
    clear - H3. revert outs H3. induction os as [|a os IH]; intros [|b outs] H; cbn in H; try discriminate; auto. injection H as -> H. f_equal. auto. }
  subst os. destruct (fine_mid _ _ _ _ _ _ _ _ _ _ _ _ R H) as (dk & x1 & C & Y & S1 & S2). cbn [frun] in S2. injection S2 as <-.
  unfold fstep in S1. cbn [x_sys x_disk x_dead refused] in S1. destruct (attempt bad 0 dk (effects e s (OReopen doff3 np3))) as [dk' [k|]] eqn:A.
  2:{ destruct (recover _ _); cbn [bind] in S1; discriminate. }
  pose proof (attempt_bound _ _ _ _ _ _ A) as L. apply attempt_prefix in A. rewrite Nat.sub_0_r in A. injection S1 as <-. cbn [orphan closes_file orb].
  assert (Q : exists bufs, read_after_crash e np2 dk' doff2 calls = Ok bufs /\ last_read (run e (init cfg np f0) (pre ++ [OReopen doff np2; ORead doff2 calls])) = Ok bufs).
  { change (OReopen doff np1 :: post) with ([OReopen doff np1] ++ post) in C. rewrite app_assoc, crun_app in C.
    destruct (crun e (init cfg np f0, disk0 cfg f0) (pre ++ [OReopen doff np1])) as [[[s1 dk1] o1]| |] eqn:E; cbn [bind fst snd] in C; try discriminate.
    destruct (crun e (s1, dk1) post) as [[[s4 dk4] o4]| |] eqn:E'; cbn [bind fst snd] in C; try discriminate. injection C as -> -> _. destruct (crun_issued _ _ _ _ _ _ _ E') as (I1 & I2).
    apply (crash_reads e cfg np f0 pre doff np1 (post ++ [OReopen doff3 np3]) np2 doff2 calls s1 dk1 o1 (issued e s1 post ++ firstn k (effects e s (OReopen doff3 np3)))); auto.
    + apply Forall_app. split; auto.
    + rewrite (issued_app _ _ _ _ _ _ I2). cbn [issued]. intros y Hy. apply in_app_or in Hy. apply in_or_app. destruct Hy as [Hy|Hy]; auto. right. apply in_or_app. left. eapply firstn_incl; eauto.
    + apply Forall_app. split; [apply no_att; auto|apply no_att_close; lia].
    + rewrite apply_app, I1. cbn [bind]. exact A. }
  destruct Q as (bufs & Q1 & Q2). unfold read_after_crash in Q1. destruct (recover np2 dk') as [s2| |] eqn:Rc; cbn [bind] in Q1; try discriminate.
  destruct (step e s2 (ORead doff2 calls)) as [[s3 b3]| |] eqn:St; cbn [bind snd] in Q1; try discriminate. injection Q1 as ->.
  cbn [frun fstep x_dead x_disk]. rewrite Rc. cbn [bind fst snd]. unfold fstep, fine. cbn [x_sys x_disk x_dead refused effects]. pose proof (recover_fields _ _ _ Rc) as (G1 & G2 & _).
  rewrite (fresh_any _ _ G1), andb_false_r, G2. cbn [app attempt]. rewrite St. cbn [bind fst snd]. eexists _, bufs. split; [reflexivity|exact Q2].
Qed.

(** ** H5Dset_extent *)
Lemma set_dims_all : forall dims mdims new r, set_dims dims mdims new = (r, true) -> length dims = length mdims -> length new = length dims -> r = new.
Proof.
  induction dims as [|d dims IH]; intros [|m mdims] [|n new] r H L1 L2; cbn in *; try discriminate; [congruence|]. destruct (_ && _); [discriminate|]. destruct (set_dims dims mdims new) as [q b] eqn:E. injection H as <- ->. f_equal. eapply IH; eauto.
Qed.
Lemma upd_same_at : forall A n (a : A) l, (n < length l)%nat -> nth_error (upd_nth n a l) n = Some a.
Proof. induction n; intros a [|x l] H; cbn in *; auto; try lia. apply IHn. lia. Qed.
Lemma extent_trace : forall e cfg np f0 ops s outs bad did dims d x, run e (init cfg np f0) ops = Ok (s, outs) ->
  info_at (g_infos (s_g s)) did = Some (Some d) -> length (di_mdims d) = length (di_dims d) -> length dims = length (di_dims d) -> snd (set_dims (di_dims d) (di_mdims d) dims) = true ->
  frun e (fstart cfg np f0) (map fine ops ++ [Call bad (OSetExtent did dims)]) = Ok (x, map Some outs ++ [None]) ->
  reported x did = Some dims /\
  forall doff np2, exists x', fstep e x (fine (OReopen doff np2)) = Ok (x', Some []) /\ reported x' did = Some (di_dims d).
Proof.
  intros e cfg np f0 ops s outs bad did dims d x R Hd L1 L2 Ok1 H. destruct (fine_mid _ _ _ _ _ _ _ _ _ _ _ _ R H) as (dk & x1 & C & Y & S1 & S2). cbn [frun] in S2. injection S2 as <-.
  destruct (set_dims (di_dims d) (di_mdims d) dims) as [r b] eqn:Sd. cbn in Ok1. subst b. pose proof (set_dims_all _ _ _ _ Sd ltac:(congruence) L2). subst r.
  unfold fstep in S1. cbn [x_sys x_disk x_dead refused effects] in S1. rewrite Hd in S1. unfold set_extent in S1. rewrite Sd in S1. cbn [fst snd negb] in S1. cbn [attempt] in S1. destruct (bad _).
  2:{ cbn [apply] in S1. cbn [step] in S1. rewrite Hd in S1. unfold set_extent in S1. rewrite Sd in S1. cbn [bind] in S1. discriminate. }
  injection S1 as <-. cbn [orphan stopped closes_file orb]. rewrite Hd, Sd. cbn [fst].
  assert (Ln : (Z.to_nat did < length (g_infos (s_g s)))%nat /\ 0 <= did).
  { unfold info_at in Hd. destruct (Z.ltb_spec did 0); [discriminate|]. split; auto. apply nth_error_Some. congruence. }
  destruct Ln as [Ln Hp]. set (d' := mkdinfo _ dims _ _ _). split.
  - unfold reported, info_at. cbn [x_sys s_g set_infos g_infos]. destruct (Z.ltb_spec did 0); [lia|]. rewrite upd_same_at by auto. reflexivity.
  - intros doff np2. assert (St : exists s1, step e s (OReopen doff np2) = Ok (s1, []) /\ g_infos (s_g s1) = g_infos (s_g s)) by (cbn [step]; rewrite (reopen_synced _ _ Y); cbn [bind]; eexists; split; reflexivity).
    destruct St as (s1 & St & Si). destruct (fine_step _ _ _ _ _ _ Y St) as (dk' & F1 & F2 & F3). exists (mkfs s1 dk' false). split.
    + rewrite <- F1. unfold fstep, fine. cbn [x_sys x_disk x_dead refused].
      assert (E : effects e (mksys (set_infos (s_g s) (upd_nth (Z.to_nat did) (Some d') (g_infos (s_g s)))) (s_idx s)) (OReopen doff np2) = effects e s (OReopen doff np2)).
      { cbn [effects s_g]. assert (Fw : forall doff, flush_writes doff (set_infos (s_g s) (upd_nth (Z.to_nat did) (Some d') (g_infos (s_g s)))) = set_infos (flush_writes doff (s_g s)) (upd_nth (Z.to_nat did) (Some d') (g_infos (s_g s)))) by (intros; unfold flush_writes; cbn [set_infos g_cfg g_infos g_ranks g_file g_mdsets g_nldset g_metadirty]; destruct (_ =? 0); reflexivity).
        rewrite Fw. unfold Zlen at 1. unfold metaflush, set_infos, flush_effects, meta_effects. cbn [g_cfg g_infos g_ranks g_file g_mdsets g_nldset g_metadirty].
        assert (Gi : g_infos (flush_writes doff (s_g s)) = g_infos (s_g s)) by (unfold flush_writes; destruct (_ =? 0); reflexivity). rewrite Gi, upd_length. reflexivity. }
      rewrite E. rewrite (attempt_ok (fun _ => false) _ 0%nat _ _ (fun _ _ => eq_refl) F2). reflexivity.
    + unfold reported. cbn [x_sys]. rewrite Si, Hd. reflexivity.
Qed.

(** ** Reads that never return *)
From Verif Require Import FaultZero FaultClaims2.
Lemma Forall2_last : forall A B (P : A -> B -> Prop) l a l' b, Forall2 P (l ++ [a]) (l' ++ [b]) -> P a b.
Proof.
  intros A B P l a l' b H. apply Forall2_app_inv_l in H. destruct H as (l1 & l2 & _ & H2 & E). inversion H2 as [|? ? ? ? Q1 Q2]; subst. inversion Q2; subst. apply app_inj_tail in E. destruct E as [_ ->]. auto.
Qed.
Lemma closes_last : forall rest os f o, Forall2 (fun f (o : option (list (list Z))) => is_close f = true -> o <> None) rest os -> reads f -> Forall2 (fun f o => is_close f = true -> o <> None) (rest ++ [f]) (os ++ [o]).
Proof. intros rest os f o H R. apply Forall2_app; auto. constructor; auto. intros C. destruct f as [b [ | | | | | ]| |]; cbn in *; try contradiction; discriminate. Qed.
Lemma no_more_reads : forall e cfg np f0 ops s outs doff calls rest os f x bufs, run e (init cfg np f0) ops = Ok (s, outs) ->
  Forall2 (fun f o => is_close f = true -> o <> None) rest os -> reads f ->
  frun e (fstart cfg np f0) (map fine ops ++ Call puts_meta (ORead doff calls) :: rest ++ [f]) <> Ok (x, map Some outs ++ None :: os ++ [Some bufs]).
Proof.
  intros e cfg np f0 ops s outs doff calls rest os f x bufs R N Rf H. pose proof (lost_write_meta _ _ _ _ _ _ _ _ _ _ _ _ R H (closes_last _ _ _ _ N Rf)) as Q. apply Forall2_last in Q. specialize (Q Rf). discriminate.
Qed.
Lemma no_reads_after_close : forall e cfg np f0 ops rk did sels data s outs doff np2 rest os f x bufs, run e (init cfg np f0) (ops ++ [OWrite rk did sels data]) = Ok (s, outs) -> sels <> [] ->
  Forall2 (fun f o => is_close f = true -> o <> None) rest os -> reads f ->
  frun e (fstart cfg np f0) (map fine (ops ++ [OWrite rk did sels data]) ++ LostMeta doff np2 :: rest ++ [f]) <> Ok (x, map Some outs ++ Some [] :: os ++ [Some bufs]).
Proof.
  intros e cfg np f0 ops rk did sels data s outs doff np2 rest os f x bufs R Hs N Rf H. pose proof (lost_close_meta _ _ _ _ _ _ _ _ _ _ _ _ _ _ _ _ R Hs H (closes_last _ _ _ _ N Rf)) as Q. apply Forall2_last in Q. specialize (Q Rf). discriminate.
Qed.
Lemma no_more_opens : forall e cfg np f0 ops s outs bad d rest os f x out, run e (init cfg np f0) ops = Ok (s, outs) ->
  (forall k d, bad (XAnchor k d) = false) -> is_close f = true ->
  frun e (fstart cfg np f0) (map fine ops ++ Call bad (OCreate d) :: rest ++ [f]) <> Ok (x, map Some outs ++ None :: os ++ [Some out]).
Proof.
  intros e cfg np f0 ops s outs bad d rest os f x out R B C H. pose proof (create_in_part _ _ _ _ _ _ _ _ _ _ _ _ R B H) as Q. apply Forall2_last in Q. specialize (Q C). discriminate.
Qed.
Lemma failed_calls : forall e cfg np f0 fs x os, e_coll e = true ->
  Forall (fun f => exists bad o, f = Call bad o /\ forall y, bad y = true -> early y) fs ->
  Forall2 (fun f out => is_close f = true \/ is_extent f = true -> out <> None) fs os ->
  frun e (fstart cfg np f0) fs = Ok (x, os) ->
  exists ops outs s, repaired fs os ops outs /\ run e (init cfg np f0) ops = Ok (s, outs).
Proof.
  intros e cfg np f0 fs x os C G N H. assert (G' : Forall good_op fs) by (eapply Forall_impl; [|exact G]; intros f (bad & o & -> & B); exact B).
  destruct (sim_run e fs _ (init cfg np f0) _ _ C (init_J cfg np f0) G' N H) as (ops & outs & s & R1 & R2 & _). eauto.
Qed.
