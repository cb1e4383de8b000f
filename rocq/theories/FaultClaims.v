(** Lemmas behind P_Fault.v. *)
From Verif Require Import Base BaseProofs Spec MetaModel QueueModel FlushModel IndexModel ReadModel SysModel
  SysSpec FlushProofs SysProofs AnySpec AnyProofs CrashModel CrashSpec CrashProofs CrashClaims FaultModel FaultSpec FaultProofs FaultSim.
From Coq Require Import ZifyNat ZifyN.

Lemma frun_app : forall e fs x gs y os, frun e x (fs ++ gs) = Ok (y, os) ->
  exists x1 os1 os2, frun e x fs = Ok (x1, os1) /\ frun e x1 gs = Ok (y, os2) /\ os = os1 ++ os2 /\ length os1 = length fs.
Proof.
  intros e. induction fs as [|f fs IH]; intros x gs y os H; cbn [app frun] in *.
  - exists x, [], os. auto.
  - destruct (fstep e x f) as [[x1 o]| |]; cbn [bind fst snd] in *; try discriminate. destruct (frun e x1 (fs ++ gs)) as [[x2 os']| |] eqn:E; cbn [bind fst snd] in H; try discriminate. injection H as <- <-.
    destruct (IH _ _ _ _ E) as (x3 & o1 & o2 & I1 & I2 & I3 & I4). exists x3, (o :: o1), o2. rewrite I1. cbn [bind fst snd]. subst. cbn. auto.
Qed.
Lemma split_outs : forall A (a b c d : list A), a ++ b = c ++ d -> length a = length c -> a = c /\ b = d.
Proof. induction a as [|x a IH]; intros b [|y c] d E L; cbn in *; try discriminate; auto. injection E as <- E. injection L as L. destruct (IH _ _ _ E L). subst. auto. Qed.
Lemma frun_mid : forall e fs x f gs y os o os', frun e x (fs ++ f :: gs) = Ok (y, os ++ o :: os') -> length os = length fs ->
  exists x1 x2, frun e x fs = Ok (x1, os) /\ fstep e x1 f = Ok (x2, o) /\ frun e x2 gs = Ok (y, os').
Proof.
  intros e fs x f gs y os o os' H L. apply frun_app in H. destruct H as (x1 & o1 & o2 & H1 & H2 & H3 & H4). destruct (split_outs _ _ _ _ _ H3 ltac:(congruence)) as [<- <-].
  cbn [frun] in H2. destruct (fstep e x1 f) as [[x2 p]| |] eqn:E; cbn [bind fst snd] in H2; try discriminate. destruct (frun e x2 gs) as [[x3 q]| |] eqn:E2; cbn [bind fst snd] in H2; try discriminate.
  injection H2 as -> -> ->. exists x1, x2. auto.
Qed.

(** ** Nothing fails *)
Lemma fine_step : forall e s dk o s' out, synced (s_g s) dk -> step e s o = Ok (s', out) ->
  exists dk', fstep e (mkfs s dk false) (fine o) = Ok (mkfs s' dk' false, Some out) /\ apply_all dk (effects e s o) = Ok dk' /\ synced (s_g s') dk'.
Proof.
  intros e s dk o s' out Y H. destruct (step_synced e s o dk Y) as (dk' & A & B). exists dk'. split; [|eauto]. unfold fstep, fine. cbn [x_sys x_disk x_dead orb].
  assert (R : refused s o = false).
  { destruct o; auto. cbn [refused step] in *. destruct (info_at _ _) as [[d|]|]; auto. destruct (set_extent _ _ _) as [d' []]; auto. discriminate. }
  rewrite R, (attempt_ok (fun _ => false) _ _ _ dk' (fun _ _ => eq_refl) A). destruct o; try (rewrite H; reflexivity).
  specialize (B _ _ H). destruct (step_att _ _ _ _ _ _ _ _ Y H A) as (T1 & T2 & T3). rewrite (recover_synced np _ _ T1 T2), <- T3. cbn [bind].
  cbn [step] in H. destruct (reopen_infos _ _); cbn [bind] in H; try discriminate. injection H as <- <-. reflexivity.
Qed.
Lemma fine_run : forall e ops s dk s' outs, synced (s_g s) dk -> run e s ops = Ok (s', outs) ->
  exists dk', frun e (mkfs s dk false) (map fine ops) = Ok (mkfs s' dk' false, map Some outs) /\ crun e (s, dk) ops = Ok ((s', dk'), outs) /\ synced (s_g s') dk'.
Proof.
  intros e. induction ops as [|o ops IH]; intros s dk s' outs Y R; cbn [run] in R.
  - injection R as <- <-. exists dk. auto.
  - destruct (step e s o) as [[s1 out]| |] eqn:E; cbn [bind fst snd] in R; try discriminate. destruct (run e s1 ops) as [[s2 o2]| |] eqn:R2; cbn [bind fst snd] in R; try discriminate. injection R as <- <-.
    destruct (fine_step _ _ _ _ _ _ Y E) as (dk1 & F1 & F2 & F3). destruct (IH _ _ _ _ F3 R2) as (dk2 & I1 & I2 & I3). exists dk2.
    cbn [map frun crun]. rewrite F1. unfold cstep. cbn [fst snd bind]. rewrite F2, E. cbn [fst snd bind]. rewrite I1, I2. cbn [fst snd bind]. auto.
Qed.
Lemma fine_start : forall e cfg np f0 ops s outs, run e (init cfg np f0) ops = Ok (s, outs) ->
  exists dk, frun e (fstart cfg np f0) (map fine ops) = Ok (mkfs s dk false, map Some outs) /\ crun e (init cfg np f0, disk0 cfg f0) ops = Ok ((s, dk), outs) /\ synced (s_g s) dk.
Proof. intros. apply fine_run; auto. apply init_synced. Qed.
(** ... and then the rest. *)
Lemma fine_mid : forall e cfg np f0 ops s outs f rest x o os, run e (init cfg np f0) ops = Ok (s, outs) ->
  frun e (fstart cfg np f0) (map fine ops ++ f :: rest) = Ok (x, map Some outs ++ o :: os) ->
  exists dk x1, crun e (init cfg np f0, disk0 cfg f0) ops = Ok ((s, dk), outs) /\ synced (s_g s) dk /\ fstep e (mkfs s dk false) f = Ok (x1, o) /\ frun e x1 rest = Ok (x, os).
Proof.
  intros e cfg np f0 ops s outs f rest x o os R H. destruct (fine_start _ _ _ f0 _ _ _ R) as (dk & F1 & F2 & F3).
  assert (L : length (map Some outs) = length (map fine ops)).
  { rewrite !map_length. clear - R. revert R. generalize (init cfg np f0). revert s outs. induction ops as [|a ops IH]; intros s outs s0 R; cbn [run] in R; [injection R as <- <-; reflexivity|].
    destruct (step _ _ _); cbn [bind] in R; try discriminate. destruct (run e (fst a0) ops) as [[? ?]| |] eqn:E; cbn [bind fst snd] in R; try discriminate. injection R as <- <-. cbn. erewrite IH; eauto. }
  destruct (frun_mid _ _ _ _ _ _ _ _ _ H L) as (x1 & x2 & M1 & M2 & M3). rewrite F1 in M1. injection M1 as <-. eauto 10.
Qed.

(** ** A log dataset in the way *)
Lemma apply_logs : forall dk x dk', apply dk x = Ok dk' -> incl (dk_logs dk) (dk_logs dk').
Proof.
  intros dk x dk' H. destruct x; cbn [apply] in H; try (injection H as <-; cbn; apply incl_refl); try (destruct (find_key _ _); [discriminate|]; injection H as <-; cbn; apply incl_refl).
  destruct (existsb _ _); [discriminate|]. injection H as <-. cbn. apply incl_appl, incl_refl.
Qed.
Lemma attempt_logs : forall bad xs n dk dk' k, attempt bad n dk xs = (dk', k) -> incl (dk_logs dk) (dk_logs dk').
Proof.
  induction xs as [|x xs IH]; intros n dk dk' k A; cbn [attempt] in A; [injection A as <- <-; apply incl_refl|]. destruct (bad x); [injection A as <- <-; apply incl_refl|].
  destruct (apply dk x) as [d| |] eqn:E; try (injection A as <- <-; apply incl_refl). apply apply_logs in E. apply IH in A. eapply incl_tran; eauto.
Qed.
Lemma orphan_logs : forall g o dk, dk_logs (orphan g o dk) = dk_logs dk.
Proof. intros g [] dk; reflexivity. Qed.
Lemma recover_fields : forall np dk s, recover np dk = Ok s ->
  g_ranks (s_g s) = repeat rank0 np /\ g_metadirty (s_g s) = false /\ s_idx s = None /\ open_mds (dk_mds dk) (zseq (at_nmdset (dk_att dk))) = Ok (g_mdsets (s_g s)).
Proof.
  intros np dk s H. unfold recover in H. destruct (open_anchors _ _ _); cbn [bind] in H; try discriminate. destruct (open_mds _ _) eqn:E; cbn [bind] in H; try discriminate. injection H as <-. cbn. auto.
Qed.
Lemma sized_fresh : forall s np, g_ranks (s_g s) = repeat rank0 np -> sized (s_g s).
Proof. intros s np E. unfold sized. rewrite E. apply Forall_forall. intros st H. apply repeat_spec in H. subst. constructor. Qed.
Lemma sized_nowhere : forall g, sized g -> sized (flush_nowhere g).
Proof. intros g H. pose proof (sized_flush 0 g H) as Q. exact Q. Qed.
Lemma sized_halted : forall e s o k dk, sized (s_g s) -> sized (s_g (stopped e s o k dk)).
Proof.
  intros e s o k dk H. assert (M : forall k dk g, sized g -> sized (stopped_meta k dk g)) by (intros [|j] d g Q; exact Q).
  destruct o; cbn [stopped]; auto.
  - destruct (info_at _ _) as [[d|]|]; auto.
  - cbn. apply sized_stopped; auto.
  - destruct (_ <? _)%nat; cbn; [apply sized_stopped; auto|]. apply M. destruct (_ && _); auto using sized_flush.
  - cbn zeta. destruct (k <? _)%nat; cbn [s_g]; [apply sized_stopped; auto|]. destruct (k - _ <? _)%nat; cbn [s_g]; [apply M; auto using sized_flush|apply sized_meta].
Qed.
Lemma sized_fstep : forall e x f x1 o, fstep e x f = Ok (x1, o) -> sized (s_g (x_sys x)) -> sized (s_g (x_sys x1)).
Proof.
  intros e x f x1 o H Q. unfold fstep in H.
  assert (R : forall np dk dk' b o', (do s' <- recover np dk; Ok (mkfs s' dk' b, o')) = Ok (x1, o) -> sized (s_g (x_sys x1))).
  { intros np dk dk' b o' E. destruct (recover np dk) as [s'| |] eqn:Er; cbn [bind] in E; try discriminate. injection E as <- <-. cbn. apply recover_fields in Er. eapply sized_fresh; apply Er. }
  destruct f as [bad op| |doff np].
  - assert (K : forall op0, op0 = op -> (if refused (x_sys x) op0 then Ok (mkfs (stopped e (x_sys x) op0 0 (x_disk x)) (x_disk x) (x_dead x), None)
      else match attempt bad 0 (x_disk x) (effects e (x_sys x) op0) with
           | (dk', Some k) => Ok (mkfs (stopped e (x_sys x) op0 k dk') (orphan (s_g (x_sys x)) op0 dk') (x_dead x || closes_file op0), None)
           | (dk', None) => match op0 with OReopen _ np => do s' <- recover np dk'; Ok (mkfs s' dk' false, Some []) | _ => do p <- step e (x_sys x) op0; Ok (mkfs (fst p) dk' (x_dead x), Some (snd p)) end
           end) = Ok (x1, o) -> sized (s_g (x_sys x1))).
    { intros op0 -> E. destruct (refused _ _); [injection E as <- <-; cbn; apply sized_halted; auto|]. destruct (attempt _ _ _ _) as [dk' [k|]]; [injection E as <- <-; cbn; apply sized_halted; auto|].
      destruct op; try (eapply R; exact E); destruct (step e _ _) as [[s2 b2]| |] eqn:St; cbn [bind fst snd] in E; try discriminate; injection E as <- <-; cbn; eapply sized_step; eauto. }
    destruct op; try (eapply K; [reflexivity|exact H]). destruct (x_dead x); [eapply R; exact H|]. eapply K; [reflexivity|exact H].
  - destruct (any_pending _); [|injection H as <- <-; auto]. destruct (attempt _ _ _ _) as [dk' [k|]]; injection H as <- <-; cbn; auto using sized_stopped. apply sized_nowhere; auto.
  - destruct (x_dead x); [eapply R; exact H|]. destruct (apply_all _ _) as [dk'| |]; cbn [bind] in H; try discriminate. eapply R; exact H.
Qed.
Lemma sized_frun : forall e fs x x1 os, frun e x fs = Ok (x1, os) -> sized (s_g (x_sys x)) -> sized (s_g (x_sys x1)).
Proof.
  intros e. induction fs as [|f fs IH]; intros x x1 os H Q; cbn [frun] in H; [injection H as <- <-; auto|]. destruct (fstep e x f) as [[x2 o]| |] eqn:E; cbn [bind fst snd] in H; try discriminate.
  destruct (frun e x2 fs) as [[x3 o3]| |] eqn:E3; cbn [bind fst snd] in H; try discriminate. injection H as <- <-. eapply IH; eauto. eapply sized_fstep; eauto.
Qed.

Lemma jam_stopped : forall g dk dk', jammed g dk -> incl (dk_logs dk) (dk_logs dk') -> jammed (stopped_flush dk' g) dk'.
Proof. intros g dk dk' (J1 & J2) I. split; [apply I; exact J1|]. rewrite pending_assign. auto. Qed.

Lemma jam_step : forall e x f x1 o, e_coll e = true -> sized (s_g (x_sys x)) -> jammed (s_g (x_sys x)) (x_disk x) -> fstep e x f = Ok (x1, o) ->
  (uses_file f -> (is_close f = true -> x_dead x = false) -> o = None) /\ (is_close f = false -> jammed (s_g (x_sys x1)) (x_disk x1) /\ x_dead x1 = x_dead x).
Proof.
  intros e x f x1 o C Z Jm H. unfold fstep in H. pose proof Jm as (J1 & J2). assert (P : any_pending (s_g (x_sys x)) = true) by (apply pending_any; lia).
  assert (JF : forall doff bad rest, attempt bad 0 (x_disk x) (flush_effects doff (s_g (x_sys x)) ++ rest) = (x_disk x, Some 0%nat)) by (intros; apply jam_flush; auto).
  assert (JF0 : forall doff bad, attempt bad 0 (x_disk x) (flush_effects doff (s_g (x_sys x))) = (x_disk x, Some 0%nat)) by (intros; rewrite <- (JF doff bad []), app_nil_r; reflexivity).
  destruct f as [bad op| |doff np].
  - destruct op as [d|did dims|rk did sels data|doff|doff calls|doff np].
    + cbn [refused] in H. split; [intros U; cbn in U; discriminate|]. intros _. destruct (attempt bad 0 (x_disk x) _) as [dk' [k|]] eqn:A; apply attempt_logs in A.
      * injection H as <- <-. cbn [x_sys x_disk x_dead stopped closes_file]. rewrite orb_false_r. split; auto. split; auto; rewrite orphan_logs; auto.
      * cbn [step] in H. destruct (create_info _ _); cbn [bind fst snd] in H; try discriminate. injection H as <- <-. cbn [x_sys x_disk x_dead]. split; auto. split; [apply A; exact J1|exact J2].
    + split; [intros U; cbn in U; discriminate|]. intros _.
      assert (Q : jammed (s_g (stopped e (x_sys x) (OSetExtent did dims) 0 (x_disk x))) (x_disk x)) by (cbn [stopped]; destruct (info_at _ _) as [[d|]|]; cbn; auto).
      destruct (refused _ _); [injection H as <- <-; cbn [x_sys x_disk x_dead]; auto|]. destruct (attempt bad 0 (x_disk x) _) as [dk' [k|]] eqn:A; apply attempt_logs in A.
      * injection H as <- <-. cbn [x_sys x_disk x_dead orphan closes_file]. rewrite orb_false_r. split; auto. destruct Q as [Q1 Q2]. cbn [stopped] in *. destruct (info_at _ _) as [[d|]|]; (split; [apply A; exact J1|exact J2]).
      * cbn [step] in H. destruct (info_at _ _) as [[d|]|]; try discriminate. destruct (set_extent _ _ _) as [d' []]; cbn [bind fst snd] in H; try discriminate. injection H as <- <-. cbn [x_sys x_disk x_dead]. split; auto. split; [apply A; exact J1|exact J2].
    + split; [intros U; cbn in U; discriminate|]. intros _. cbn [refused effects attempt step] in H. destruct (nth_error _ _) as [st|] eqn:N; cbn [bind] in H; try discriminate. destruct (ds_write _ _ _ _ _ _ _) as [st'| |] eqn:D; cbn [bind fst snd] in H; try discriminate.
      injection H as <- <-. cbn [x_sys x_disk x_dead s_g]. split; auto. split; [exact J1|]. pose proof (pending_write _ _ _ _ _ _ _ _ _ _ N D). lia.
    + cbn [refused effects] in H. rewrite P, JF0 in H. injection H as <- <-. split; auto. intros _. cbn [x_sys x_disk x_dead orphan stopped closes_file]. rewrite orb_false_r. split; auto. cbn. eapply jam_stopped; eauto. apply incl_refl.
    + cbn [refused effects] in H. rewrite C, P in H. cbn [andb] in H. rewrite JF in H. injection H as <- <-. split; auto. intros _. cbn [x_sys x_disk x_dead orphan stopped closes_file]. rewrite orb_false_r. split; auto. rewrite C, P. cbn [andb].
      assert (L : (0 <? length (flush_effects doff (s_g (x_sys x))))%nat = true).
      { apply Nat.ltb_lt. pose proof (attempt_bound _ _ _ _ _ _ (JF0 doff bad)). lia. }
      rewrite L. cbn. eapply jam_stopped; eauto. apply incl_refl.
    + split; [|intros; discriminate]. intros _ D. rewrite D in H by reflexivity. cbn [refused effects] in H. rewrite JF in H. injection H as <- <-. reflexivity.
  - rewrite P in H. unfold nowhere_effects in H. fold (pending_bytes (s_g (x_sys x))) in H. destruct (Z.eqb_spec (pending_bytes (s_g (x_sys x))) 0) as [E|_]; [lia|].
    cbn [attempt apply] in H. replace (existsb _ _) with true in H by (symmetry; apply existsb_exists; exists (g_nldset (s_g (x_sys x))); split; auto; apply Z.eqb_refl).
    injection H as <- <-. split; auto. intros _. cbn [x_sys x_disk x_dead]. split; auto. cbn. eapply jam_stopped; eauto. apply incl_refl.
  - split; [|intros; discriminate]. intros _ D. exfalso. rewrite D in H by reflexivity. destruct (apply_all (x_disk x) _) as [dk'| |] eqn:A; cbn [bind] in H; try discriminate.
    pose proof (attempt_ok (fun _ => false) _ 0%nat _ _ (fun _ _ => eq_refl) A) as Q. rewrite JF in Q. discriminate.
Qed.

Lemma jam_run : forall e fs x x1 os, e_coll e = true -> sized (s_g (x_sys x)) -> jammed (s_g (x_sys x)) (x_disk x) -> Forall (fun f => is_close f = false) fs -> frun e x fs = Ok (x1, os) ->
  sized (s_g (x_sys x1)) /\ jammed (s_g (x_sys x1)) (x_disk x1) /\ x_dead x1 = x_dead x.
Proof.
  intros e. induction fs as [|f fs IH]; intros x x1 os C Z Jm F H; cbn [frun] in H; [injection H as <- <-; auto|]. inversion F as [|? ? F1 F2]; subst. destruct (fstep e x f) as [[x2 o]| |] eqn:E; cbn [bind fst snd] in H; try discriminate.
  destruct (frun e x2 fs) as [[x3 o3]| |] eqn:E3; cbn [bind fst snd] in H; try discriminate. injection H as <- <-.
  destruct (jam_step _ _ _ _ _ C Z Jm E) as [_ Q]. destruct (Q F1) as [Q1 Q2]. destruct (IH _ _ _ C (sized_fstep _ _ _ _ _ E Z) Q1 F2 E3) as (I1 & I2 & I3). rewrite I3. auto.
Qed.
Lemma dead_step : forall e x f x1 o, fstep e x f = Ok (x1, o) -> (is_close f = true -> o <> None) -> x_dead x = false -> x_dead x1 = false.
Proof.
  intros e x f x1 o H N D. unfold fstep in H. destruct f as [bad op| |doff np].
  - rewrite D in H. assert (H' : (if refused (x_sys x) op then Ok (mkfs (stopped e (x_sys x) op 0 (x_disk x)) (x_disk x) false, None)
      else match attempt bad 0 (x_disk x) (effects e (x_sys x) op) with
           | (dk', Some k) => Ok (mkfs (stopped e (x_sys x) op k dk') (orphan (s_g (x_sys x)) op dk') (closes_file op), None)
           | (dk', None) => match op with OReopen _ np => do s' <- recover np dk'; Ok (mkfs s' dk' false, Some []) | _ => do p <- step e (x_sys x) op; Ok (mkfs (fst p) dk' false, Some (snd p)) end
           end) = Ok (x1, o)) by (destruct op; exact H). clear H. destruct (refused _ _); [injection H' as <- <-; reflexivity|].
    destruct (attempt _ _ _ _) as [dk' [k|]].
    + injection H' as <- <-. cbn. destruct op; auto. exfalso. apply N; auto.
    + destruct op; [destruct (step _ _ _); cbn [bind] in H'; try discriminate; injection H' as <- <-; reflexivity..|destruct (recover _ _); cbn [bind] in H'; try discriminate; injection H' as <- <-; reflexivity].
  - destruct (any_pending _); [|injection H as <- <-; auto]. destruct (attempt _ _ _ _) as [dk' [k|]]; injection H as <- <-; exact D.
  - rewrite D in H. destruct (apply_all _ _); cbn [bind] in H; try discriminate. destruct (recover _ _); cbn [bind] in H; try discriminate; injection H as <- <-; reflexivity.
Qed.
Lemma dead_run : forall e fs x x1 os, frun e x fs = Ok (x1, os) -> Forall2 (fun f o => is_close f = true -> o <> None) fs os -> x_dead x = false -> x_dead x1 = false.
Proof.
  intros e. induction fs as [|f fs IH]; intros x x1 os H N D; cbn [frun] in H; [injection H as <- <-; auto|]. destruct (fstep e x f) as [[x2 o]| |] eqn:E; cbn [bind fst snd] in H; try discriminate.
  destruct (frun e x2 fs) as [[x3 o3]| |] eqn:E3; cbn [bind fst snd] in H; try discriminate. injection H as <- <-. inversion N; subst. eapply IH; eauto. eapply dead_step; eauto.
Qed.
Lemma fstart_sized : forall cfg np f0, sized (s_g (x_sys (fstart cfg np f0))).
Proof. intros. eapply (sized_fresh _ np). reflexivity. Qed.

Lemma jam_forever : forall e cfg np f0 fs os bad doff rest os1 f o x, e_coll e = true -> length os = length fs -> length os1 = length rest ->
  frun e (fstart cfg np f0) (fs ++ Call bad (OFlush doff) :: rest ++ [f]) = Ok (x, os ++ None :: os1 ++ [o]) ->
  (forall n, bad (XLog n) = false) -> Forall2 (fun g out => is_close g = true -> out <> None) fs os ->
  Forall (fun g => is_close g = false) rest -> uses_file f -> o = None.
Proof.
  intros e cfg np f0 fs os bad doff rest os1 f o x C L L1 H B N NR U. destruct (frun_mid _ _ _ _ _ _ _ _ _ H L) as (x1 & x2 & H1 & H2 & H3). destruct (frun_mid _ _ _ _ _ _ _ _ _ H3 L1) as (x3 & x4 & H4 & H5 & _).
  pose proof (sized_frun _ _ _ _ _ H1 (fstart_sized cfg np f0)) as Z1. pose proof (dead_run _ _ _ _ _ H1 N eq_refl) as D1.
  assert (Jm : jammed (s_g (x_sys x2)) (x_disk x2)).
  { unfold fstep in H2. cbn [refused effects] in H2. destruct (any_pending _) eqn:P; [|discriminate]. destruct (attempt _ _ _ _) as [dk' [k|]] eqn:A; [|discriminate]. injection H2 as <-.
    cbn [x_sys x_disk stopped orphan s_g]. unfold flush_effects in A. fold (pending_bytes (s_g (x_sys x1))) in A. destruct (Z.eqb_spec (pending_bytes (s_g (x_sys x1))) 0) as [E|E]; [discriminate|].
    pose proof (sized_pending _ Z1). split; [|rewrite pending_assign; lia]. cbn [stopped_flush g_nldset]. cbn [attempt] in A. rewrite B in A. cbn [apply] in A. destruct (existsb _ _) eqn:Ex.
    - injection A as <- _. apply existsb_exists in Ex. destruct Ex as (m & M1 & M2). apply Z.eqb_eq in M2. congruence.
    - apply attempt_logs in A. apply A. cbn. apply in_or_app. right. left. reflexivity. }
  assert (D2 : x_dead x2 = false) by (eapply dead_step; [exact H2|discriminate|exact D1]).
  destruct (jam_run _ _ _ _ _ C (sized_fstep _ _ _ _ _ H2 Z1) Jm NR H4) as (I1 & I2 & I3). destruct (jam_step _ _ _ _ _ C I1 I2 H5) as [Q _]. apply Q; auto. congruence.
Qed.
