(** Successful calls return what they return when the failing ones are left out. *)
From Verif Require Import Base BaseProofs Spec MetaModel QueueModel FlushModel IndexModel ReadModel SysModel
  SysSpec FlushProofs SysProofs AnySpec AnyProofs CrashModel CrashSpec CrashProofs CrashClaims FaultModel FaultSpec FaultProofs.
From Coq Require Import ZifyNat ZifyN.

Definition pending_bytes (g : gfile) : Z := Zsum (map (fun st => local_size (unflushed st)) (g_ranks g)).
Definition set_logs (dk : disk) (l : list Z) : disk := mkdk (dk_file dk) (dk_sets dk) l (dk_mds dk) (dk_att dk).
(** A log dataset with the next name exists and there are data to write. *)
Definition jammed (g : gfile) (dk : disk) : Prop := In (g_nldset g) (dk_logs dk) /\ 0 < pending_bytes g.

Lemma pending_any : forall g, pending_bytes g <> 0 -> any_pending g = true.
Proof.
  intros g H. destruct (any_pending g) eqn:E; auto. exfalso. apply H. unfold any_pending, pending_bytes in *. clear H. induction (g_ranks g) as [|st l IH]; auto.
  cbn [existsb map] in *. apply orb_false_iff in E. destruct E as [E1 E2]. apply negb_false_iff, Nat.eqb_eq in E1. unfold Zsum in *. cbn [fold_right]. rewrite (IH E2).
  unfold unflushed, num_pending in *. rewrite skipn_all2 by lia. reflexivity.
Qed.
Lemma jam_flush : forall doff g dk bad rest n, jammed g dk -> attempt bad n dk (flush_effects doff g ++ rest) = (dk, Some n).
Proof.
  intros doff g dk bad rest n (J1 & J2). unfold flush_effects, pending_bytes in *. destruct (Z.eqb_spec (Zsum (map (fun st => local_size (unflushed st)) (g_ranks g))) 0) as [E|_]; [lia|].
  cbn [app attempt]. destruct (bad _); auto. cbn [apply]. replace (existsb _ _) with true; auto. symmetry. apply existsb_exists. exists (g_nldset g). split; auto. apply Z.eqb_refl.
Qed.
Lemma pending_assign : forall dk g, pending_bytes (stopped_flush dk g) = pending_bytes g.
Proof.
  intros. unfold pending_bytes, stopped_flush. cbn [g_ranks]. rewrite map_map. f_equal. apply map_ext. intros a. apply ralike_size. apply assign_ralike.
Qed.
Lemma stopped_alike : forall dk a b, galike a b -> galike (stopped_flush dk a) b.
Proof.
  intros dk a b (E1 & E2 & E3 & E4 & E5 & R). repeat split; auto. cbn. clear - R. induction R; cbn; constructor; auto. eapply ralike_trans; [apply assign_ralike|auto].
Qed.

Lemma apply_set_logs : forall xs dk dk' l, Forall (fun x => match x with XLog _ => False | _ => True end) xs -> apply_all dk xs = Ok dk' -> apply_all (set_logs dk l) xs = Ok (set_logs dk' l) /\ dk_logs dk' = dk_logs dk.
Proof.
  induction xs as [|x xs IH]; intros dk dk' l F A; cbn [apply_all] in *; [injection A as <-; auto|]. inversion F as [|? ? F1 F2]; subst.
  destruct (apply dk x) as [d| |] eqn:E; cbn [bind] in A; try discriminate.
  assert (Q : apply (set_logs dk l) x = Ok (set_logs d l) /\ dk_logs d = dk_logs dk).
  { destruct x; cbn [apply set_logs dk_sets dk_file dk_logs dk_mds dk_att] in *; try contradiction;
      repeat match type of E with context [match ?y with _ => _ end] => destruct y; try discriminate end; injection E as <-; split; reflexivity. }
  destruct Q as [Q1 Q2]. rewrite Q1. cbn [bind]. destruct (IH _ _ l F2 A) as [I1 I2]. split; auto. congruence.
Qed.

(** The disk without the log dataset that is in the way. *)
Definition behind (g : gfile) (dk : disk) : Prop := synced g (set_logs dk (zseq (g_nldset g))).
Definition sound (g g' : gfile) (dk : disk) : Prop :=
  (synced g dk /\ g_file g = g_file g') \/ (behind g dk /\ jammed g dk).

Lemma set_logs_same : forall g dk, synced g dk -> set_logs dk (zseq (g_nldset g)) = dk.
Proof. intros g dk [Y1 Y2 Y3 Y4 Y5]. rewrite <- Y3. destruct dk; reflexivity. Qed.
Lemma set_logs_twice : forall dk a b, set_logs (set_logs dk a) b = set_logs dk b.
Proof. reflexivity. Qed.

(** Calls that do not flush. *)
Lemma quiet_sound : forall e s g' o dk, (match o with OCreate _ | OSetExtent _ _ | OWrite _ _ _ _ => True | _ => False end) -> sound (s_g s) g' dk ->
  exists dk', apply_all dk (effects e s o) = Ok dk' /\ (forall s' out, step e s o = Ok (s', out) ->
    (synced (s_g s) dk /\ g_file (s_g s) = g_file g' /\ synced (s_g s') dk' /\ g_file (s_g s') = g_file g') \/
    (jammed (s_g s) dk /\ behind (s_g s') dk' /\ dk_logs dk' = dk_logs dk)).
Proof.
  intros e s g' o dk Q [(Y & F)|(Y & J)].
  - destruct (step_synced e s o dk Y) as (dk' & A & B). exists dk'. split; auto. intros s' out H. left. split; auto. split; auto. split; eauto. rewrite <- F.
    destruct o; cbn [step] in H; try contradiction.
    + destruct (create_info _ _); cbn [bind] in H; try discriminate. injection H as <- <-. reflexivity.
    + destruct (info_at _ _) as [[d|]|]; try discriminate. destruct (set_extent _ _ _) as [d' []]; try discriminate. injection H as <- <-. reflexivity.
    + destruct (nth_error _ _); try discriminate. destruct (ds_write _ _ _ _ _ _ _); cbn [bind] in H; try discriminate. injection H as <- <-. reflexivity.
  - unfold behind in Y. destruct (step_synced e s o _ Y) as (dk1 & A & B).
    assert (NL : Forall (fun x => match x with XLog _ => False | _ => True end) (effects e s o)).
    { destruct o; cbn [effects]; try contradiction; [repeat constructor| |constructor]. destruct (info_at _ _) as [[d|]|]; repeat constructor. }
    destruct (apply_set_logs _ _ _ (dk_logs dk) NL A) as [A1 A2]. rewrite set_logs_twice in A1. replace (set_logs dk (dk_logs dk)) with dk in A1 by (destruct dk; reflexivity).
    eexists. split; [exact A1|]. intros s' out H. right. split; auto. split; [|reflexivity]. unfold behind. rewrite set_logs_twice.
    assert (N : g_nldset (s_g s') = g_nldset (s_g s)).
    { destruct o; cbn [step] in H; try contradiction.
      + destruct (create_info _ _); cbn [bind] in H; try discriminate. injection H as <- <-. reflexivity.
      + destruct (info_at _ _) as [[d|]|]; try discriminate. destruct (set_extent _ _ _) as [d' []]; try discriminate. injection H as <- <-. reflexivity.
      + destruct (nth_error _ _); try discriminate. destruct (ds_write _ _ _ _ _ _ _); cbn [bind] in H; try discriminate. injection H as <- <-. reflexivity. }
    specialize (B _ _ H). destruct B as [Y1 Y2 Y3 Y4 Y5]. constructor; auto; cbn; congruence.
Qed.

(** A flush that stops. *)
Lemma data_only : forall ps n dk dk' k bad, attempt bad n dk (map (fun p : Z * list Z => XData (fst p) (snd p)) ps) = (dk', k) ->
  dk_logs dk' = dk_logs dk /\ dk_sets dk' = dk_sets dk /\ dk_mds dk' = dk_mds dk /\ dk_att dk' = dk_att dk.
Proof.
  induction ps as [|p ps IH]; intros n dk dk' k bad A; cbn [map attempt] in A; [injection A as <- <-; auto|]. destruct (bad _); [injection A as <- <-; auto|]. cbn [apply] in A.
  apply IH in A. cbn in A. exact A.
Qed.
Lemma flush_stops : forall doff g g' dk bad n dk' k, sound g g' dk -> (forall x, bad x = true -> early x) -> 0 <= pending_bytes g ->
  attempt bad n dk (flush_effects doff g) = (dk', Some k) -> galike g g' ->
  sound (stopped_flush dk' g) g' dk' /\ pending_bytes g <> 0.
Proof.
  intros doff g g' dk bad n dk' k [(Y & F)|(Y & J)] B P A G.
  - unfold flush_effects in A. fold (pending_bytes g) in A. destruct (Z.eqb_spec (pending_bytes g) 0) as [E|E]; [discriminate|]. split; auto. cbn [attempt] in A. destruct (bad (XLog (g_nldset g))).
    + injection A as <- <-. left. split; [|cbn; rewrite <- F; apply Y]. destruct Y as [Y1 Y2 Y3 Y4 Y5]. constructor; auto.
    + cbn [apply] in A. rewrite (y_logs _ _ Y), zseq_fresh in A by lia.
      replace (map _ _) with (map (fun p : Z * list Z => XData (fst p) (snd p)) (map (fun p : Z * rank => (fst p, local_bytes (snd p))) (combine (map (fun o => o + doff) (exscan 0 (map (fun st => local_size (unflushed st)) (g_ranks g)))) (g_ranks g)))) in A by (rewrite map_map; reflexivity).
      apply data_only in A. cbn in A. destruct A as (A1 & A2 & A3 & A4). right. split.
      * destruct Y as [Y1 Y2 Y3 Y4 Y5]. constructor; cbn; auto; rewrite ?A2, ?A3; auto.
      * split; [rewrite A1; cbn; apply in_or_app; cbn; auto|]. rewrite pending_assign. lia.
  - pose proof (jam_flush doff g dk bad [] n J) as Q. rewrite app_nil_r in Q. rewrite Q in A. injection A as <- <-. destruct J as [J1 J2]. split; [|lia]. right. split.
    + unfold behind in *. cbn. destruct Y as [Y1 Y2 Y3 Y4 Y5]. constructor; auto.
    + split; auto. rewrite pending_assign. auto.
Qed.

(** Sizes are never negative. *)
Definition sized (g : gfile) : Prop := Forall (fun st => Forall (fun w => 0 <= h_fsize (w_hdr w)) (k_wreqs st)) (g_ranks g).
Lemma sized_assign : forall ws off, Forall (fun w => 0 <= h_fsize (w_hdr w)) ws -> Forall (fun w => 0 <= h_fsize (w_hdr w)) (assign_foff off ws).
Proof. induction ws; intros off H; cbn; auto. inversion H; subst. constructor; auto. Qed.
Lemma sized_parts : forall st, Forall (fun w => 0 <= h_fsize (w_hdr w)) (k_wreqs st) -> Forall (fun w => 0 <= h_fsize (w_hdr w)) (flushed st) /\ Forall (fun w => 0 <= h_fsize (w_hdr w)) (unflushed st).
Proof. intros st H. rewrite <- (firstn_skipn (k_nflushed st)) in H. apply Forall_app in H. exact H. Qed.
Lemma sized_pending : forall g, sized g -> 0 <= pending_bytes g.
Proof.
  intros g H. unfold pending_bytes, sized in *. induction H as [|st l H _ IH]; [cbn; lia|]. unfold Zsum in *. cbn [map fold_right]. apply sized_parts in H. destruct H as [_ H].
  assert (0 <= local_size (unflushed st)); [|lia]. unfold local_size, Zsum. clear - H. induction H; cbn; lia.
Qed.
Lemma sized_ranks : forall g l, sized g -> (forall st, In st l -> exists st0, In st0 (g_ranks g) /\ (Forall (fun w => 0 <= h_fsize (w_hdr w)) (k_wreqs st0) -> Forall (fun w => 0 <= h_fsize (w_hdr w)) (k_wreqs st))) ->
  Forall (fun st => Forall (fun w => 0 <= h_fsize (w_hdr w)) (k_wreqs st)) l.
Proof. intros g l H I. apply Forall_forall. intros st Hi. destruct (I _ Hi) as (st0 & I1 & I2). apply I2. unfold sized in H. rewrite Forall_forall in H. auto. Qed.
Lemma sized_stopped : forall dk g, sized g -> sized (stopped_flush dk g).
Proof.
  intros dk g H. unfold sized. cbn. apply (sized_ranks g); auto. intros st Hi. apply in_map_iff in Hi. destruct Hi as (st0 & <- & Hi). exists st0. split; auto. intros Q. apply sized_parts in Q. destruct Q. cbn. apply Forall_app. auto using sized_assign.
Qed.
Lemma sized_flush : forall doff g, sized g -> sized (flush_writes doff g).
Proof.
  intros doff g H. unfold flush_writes. destruct (_ =? 0); unfold sized; cbn; apply (sized_ranks g); auto; intros st Hi.
  - apply in_map_iff in Hi. destruct Hi as (st0 & <- & Hi). exists st0. split; auto. intros Q. apply sized_parts in Q. destruct Q. cbn. apply Forall_app. auto using sized_assign.
  - apply in_map_iff in Hi. destruct Hi as ([b st0] & <- & Hi). apply in_combine_r in Hi. exists st0. split; auto. intros Q. apply sized_parts in Q. destruct Q as [Q1 Q2]. cbn. apply Forall_app. split; auto.
    apply Forall_map. apply sized_assign with (off := 0) in Q2. eapply Forall_impl; [|exact Q2]. auto.
Qed.
Lemma sized_meta : forall g, sized (metaflush g).
Proof. intros g. unfold sized. cbn. apply Forall_forall. intros st Hi. apply in_map_iff in Hi. destruct Hi as (x & <- & _). constructor. Qed.
Lemma sized_write : forall z cfg infos st did sels data st', ds_write z cfg infos st did sels data = Ok st' ->
  Forall (fun w => 0 <= h_fsize (w_hdr w)) (k_wreqs st) -> Forall (fun w => 0 <= h_fsize (w_hdr w)) (k_wreqs st').
Proof.
  intros z cfg infos st did sels data st' H Q. unfold ds_write in H. destruct sels; [injection H as <-; auto|]. destruct (nth_error _ _) as [[d|]|]; try discriminate.
  destruct (finish_meta _ _ _ _) as [[[r tbl] zb]| |]; cbn [bind] in H; try discriminate. injection H as <-. cbn. apply Forall_app. split; auto. constructor; auto. cbn. unfold Zlen. lia.
Qed.
Lemma sized_step : forall e s o s' out, step e s o = Ok (s', out) -> sized (s_g s) -> sized (s_g s').
Proof.
  intros e s o s' out H Q. destruct o; cbn [step] in H.
  - destruct (create_info _ _); cbn [bind] in H; try discriminate. injection H as <- <-. exact Q.
  - destruct (info_at _ _) as [[d|]|]; try discriminate. destruct (set_extent _ _ _) as [d' []]; try discriminate. injection H as <- <-. exact Q.
  - destruct (nth_error _ _) as [st|] eqn:N; try discriminate. destruct (ds_write _ _ _ _ _ _ _) as [st'| |] eqn:D; cbn [bind] in H; try discriminate. injection H as <- <-.
    unfold sized. cbn. apply (sized_ranks (s_g s)); auto. intros x Hi. assert (x = st' \/ In x (g_ranks (s_g s))) as [->|Hx].
    { clear - Hi. revert rk Hi. induction (g_ranks (s_g s)) as [|a l IH]; intros [|k] Hi; cbn in Hi; [tauto..| |]; destruct Hi as [<-|Hi]; auto; cbn; auto. destruct (IH _ Hi); auto. }
    + exists st. split; [eapply nth_error_In; eauto|]. eapply sized_write; eauto.
    + exists x. auto.
  - injection H as <- <-. cbn. destruct (any_pending _); auto using sized_flush.
  - destruct (read_each _ _ _ _); cbn [bind] in H; try discriminate. injection H as <- <-. cbn [s_g]. destruct (g_metadirty _); auto using sized_meta. destruct (_ && _); auto using sized_flush.
  - destruct (reopen_infos _ _); cbn [bind] in H; try discriminate. injection H as <- <-. unfold sized. cbn. apply Forall_forall. intros st Hi. apply repeat_spec in Hi. subst. constructor.
Qed.

Definition J (x : fstate) (s' : sys) : Prop :=
  x_dead x = false /\ s_idx (x_sys x) = s_idx s' /\ galike (s_g (x_sys x)) (s_g s') /\ sized (s_g (x_sys x)) /\ sound (s_g (x_sys x)) (s_g s') (x_disk x).

Lemma reopen_synced : forall g dk, synced g dk -> reopen_infos (g_cfg g) (g_infos g) = Ok (g_infos g).
Proof.
  intros g dk [_ _ _ _ (l & _ & L & H)].
  assert (Q : forall l1, (forall o, In o l1 -> exists d d0, o = Some d /\ create_info (g_cfg g) d0 = Ok d) -> reopen_infos (g_cfg g) l1 = Ok l1).
  { induction l1 as [|o t IH]; intros Ho; cbn [reopen_infos]; auto. destruct (Ho o (or_introl eq_refl)) as (d & d0 & -> & E). rewrite (create_idem _ _ _ E). cbn [bind]. rewrite IH; auto. intros; apply Ho; cbn; auto. }
  apply Q. intros o Hin. apply In_nth_error in Hin. destruct Hin as [i Hi].
  destruct (nth_error l i) as [a|] eqn:Ea; [|apply nth_error_None in Ea; assert (i < length (g_infos g))%nat by (apply nth_error_Some; congruence); lia].
  destruct (H _ _ _ Ea Hi) as (d & -> & _ & _ & _ & E). eauto.
Qed.

Lemma orphan_same : forall g o dk l, dk_sets dk = number l -> length l = length (g_infos g) -> orphan g o dk = dk.
Proof.
  intros g o dk l E L. destruct o; auto. unfold orphan. assert (Q : map (fun p => if fst p =? Zlen (g_infos g) then (-1 - Zlen (dk_sets dk), snd p) else p) (dk_sets dk) = dk_sets dk).
  { transitivity (map (fun p : Z * anchor => p) (dk_sets dk)); [|apply map_id]. apply map_ext_in. intros [k a] Hi. rewrite E in Hi. unfold number in Hi. apply in_combine_l in Hi. apply in_map_iff in Hi. destruct Hi as (i & <- & Hi). apply in_seq in Hi. cbn.
    destruct (Z.eqb_spec (Z.of_nat i) (Zlen (g_infos g))) as [Q|Q]; auto. unfold Zlen in Q. lia. }
  rewrite Q. destruct dk; reflexivity.
Qed.
Lemma sound_sets : forall g g' dk, sound g g' dk -> exists l, dk_sets dk = number l /\ length l = length (g_infos g).
Proof. intros g g' dk [([_ _ _ _ (l & A & B & _)] & _)|([_ _ _ _ (l & A & B & _)] & _)]; exists l; auto. Qed.

Lemma pending_write : forall g rk st st' z cfg infos did sels data, nth_error (g_ranks g) rk = Some st -> ds_write z cfg infos st did sels data = Ok st' ->
  pending_bytes g <= pending_bytes (set_ranks g (upd_nth rk st' (g_ranks g))).
Proof.
  intros g rk st st' z cfg infos did sels data N D. unfold pending_bytes. cbn [g_ranks set_ranks].
  assert (Q : local_size (unflushed st) <= local_size (unflushed st')).
  { unfold ds_write in D. destruct sels; [injection D as <-; lia|]. destruct (nth_error infos _) as [[d|]|]; try discriminate. destruct (finish_meta _ _ _ _) as [[[r tbl] zb]| |]; cbn [bind] in D; try discriminate. injection D as <-.
    unfold unflushed. cbn [k_wreqs k_nflushed]. rewrite skipn_app. unfold local_size. rewrite map_app, Zsum_app. destruct (k_nflushed st - length (k_wreqs st))%nat as [|m]; cbn; [unfold Zlen; lia|]. rewrite skipn_nil. cbn. lia. }
  revert rk N. induction (g_ranks g) as [|a l IH]; intros [|k] N; try discriminate; cbn [nth_error] in N; cbn [upd_nth map]; unfold Zsum in *; cbn [fold_right].
  - injection N as <-. lia.
  - specialize (IH _ N). lia.
Qed.

Lemma quiet_alike : forall e s t o s' out, (match o with OCreate _ | OSetExtent _ _ | OWrite _ _ _ _ => True | _ => False end) ->
  s_idx s = s_idx t -> galike (s_g s) (s_g t) -> step e s o = Ok (s', out) ->
  exists t', step e t o = Ok (t', out) /\ s_idx s' = s_idx t' /\ galike (s_g s') (s_g t') /\ g_file (s_g s') = g_file (s_g s) /\ g_file (s_g t') = g_file (s_g t) /\
    g_nldset (s_g s') = g_nldset (s_g s) /\ pending_bytes (s_g s) <= pending_bytes (s_g s').
Proof.
  intros e s t o s' out Q I (E1 & E2 & E3 & E4 & E5 & R) H. destruct o; cbn [step] in *; try contradiction.
  - rewrite <- E1. destruct (create_info _ _); cbn [bind] in *; try discriminate. injection H as <- <-. eexists. split; [reflexivity|]. split; [auto|]. split; [unfold galike; cbn; rewrite E2; auto 8|]. repeat (split; [reflexivity|]). apply Z.le_refl.
  - rewrite <- E1, <- E2. destruct (info_at _ _) as [[d|]|]; try discriminate. destruct (set_extent _ _ _) as [d' []]; try discriminate. injection H as <- <-. eexists. split; [reflexivity|]. split; [auto|]. split; [unfold galike; cbn; auto 8|]. repeat (split; [reflexivity|]). apply Z.le_refl.
  - destruct (nth_error (g_ranks (s_g s)) rk) as [st|] eqn:N; try discriminate.
    destruct (ds_write _ _ _ _ _ _ _) as [st'| |] eqn:D; cbn [bind] in *; try discriminate. injection H as <- <-. pose proof (pending_write _ _ _ _ _ _ _ _ _ _ N D) as PW.
    assert (Q' : exists u, nth_error (g_ranks (s_g t)) rk = Some u /\ ralike st u).
    { clear - N R. revert rk N. induction R; intros [|k] N; try discriminate; cbn in *; [injection N as <-; eauto|eauto]. }
    destruct Q' as (u & N' & R'). destruct (write_alike _ _ _ _ _ _ _ _ _ R' D) as (u' & D' & R''). rewrite N', <- E1, <- E2, D'. cbn [bind]. eexists. split; [reflexivity|]. split; [auto|]. split; [|repeat (split; [reflexivity|]); exact PW]. unfold galike. cbn. repeat (split; [auto; fail|]).
    clear - R R''. revert rk. induction R; intros [|k]; cbn; constructor; auto.
Qed.

Lemma quiet_early : forall bad e s o, (forall x, bad x = true -> early x) -> (match o with OSetExtent _ _ | OWrite _ _ _ _ => True | _ => False end) -> forall x, In x (effects e s o) -> bad x = false.
Proof.
  intros bad e s o B Q x Hx. destruct (bad x) eqn:E; auto. apply B in E. destruct o; cbn [effects] in Hx; try contradiction. destruct (info_at _ _) as [[d|]|]; cbn in Hx; try contradiction. destruct Hx as [<-|[]]. contradiction.
Qed.

Lemma J_quiet : forall e x s' o s1 out dk', (match o with OCreate _ | OSetExtent _ _ | OWrite _ _ _ _ => True | _ => False end) -> J x s' ->
  step e (x_sys x) o = Ok (s1, out) -> apply_all (x_disk x) (effects e (x_sys x) o) = Ok dk' -> exists t', step e s' o = Ok (t', out) /\ J (mkfs s1 dk' false) t'.
Proof.
  intros e x s' o s1 out dk' Q (J1 & J2 & J3 & J4 & J5) St A. destruct (quiet_alike _ _ _ _ _ _ Q J2 J3 St) as (t' & T1 & T2 & T3 & T4 & T5 & T6 & T7). exists t'. split; auto.
  destruct (quiet_sound e _ _ o _ Q J5) as (dk1 & A1 & A2). rewrite A in A1. injection A1 as <-. unfold J. cbn [x_dead x_sys x_disk]. repeat (split; auto); [apply T3..|eapply sized_step; eauto|].
  destruct (A2 _ _ St) as [(B1 & B2 & B3 & B4)|(B1 & B2 & B3)].
  - left. split; auto. congruence.
  - right. split; auto. destruct B1 as [B1 B1']. split; [rewrite T6, B3; auto|lia].
Qed.

Lemma flush_equal : forall doff g g' dk, sound g g' dk -> galike g g' -> pending_bytes g = 0 \/ ~ jammed g dk -> flush_writes doff g = flush_writes doff g' /\ synced g dk.
Proof.
  intros doff g g' dk [(Y & F)|(_ & J)] G H; [split; auto using flush_alike|]. destruct H as [H|H]; [destruct J; lia|contradiction].
Qed.

Lemma sim_step : forall e x s' bad o x1 out, e_coll e = true -> J x s' -> (forall y, bad y = true -> early y) ->
  (is_close (Call bad o) = true \/ is_extent (Call bad o) = true -> out <> None) -> fstep e x (Call bad o) = Ok (x1, out) ->
  match out with
  | Some b => exists s1', step e s' o = Ok (s1', b) /\ J x1 s1'
  | None => J x1 s' \/ exists doff calls s1', o = ORead doff calls /\ step e s' (OFlush doff) = Ok (s1', []) /\ J x1 s1'
  end.
Proof.
  intros e x s' bad o x1 out C Jx B M H. pose proof Jx as (J1 & J2 & J3 & J4 & J5). unfold fstep in H. rewrite J1 in H. cbn [orb] in H.
  assert (Quiet : (match o with OSetExtent _ _ | OWrite _ _ _ _ => True | _ => False end) -> refused (x_sys x) o = false ->
    (do p <- step e (x_sys x) o; Ok (mkfs (fst p) (fst (attempt bad 0 (x_disk x) (effects e (x_sys x) o))) false, Some (snd p))) = Ok (x1, out) ->
    match out with Some b => exists s1', step e s' o = Ok (s1', b) /\ J x1 s1' | None => J x1 s' \/ exists doff calls s1', o = ORead doff calls /\ step e s' (OFlush doff) = Ok (s1', []) /\ J x1 s1' end).
  { intros Q _ H1. destruct (quiet_sound e (x_sys x) (s_g s') o (x_disk x) ltac:(destruct o; auto) J5) as (dk' & A1 & _).
    rewrite (attempt_ok _ _ _ _ _ (quiet_early bad e _ o B Q) A1) in H1. cbn [fst] in H1. destruct (step e (x_sys x) o) as [[s1 b]| |] eqn:St; cbn [bind fst snd] in H1; try discriminate. injection H1 as <- <-.
    eapply J_quiet; eauto. destruct o; auto. }
  destruct o as [d|did dims|rk did sels data|doff|doff calls|doff np].
  - cbn [refused] in H. destruct (quiet_sound e (x_sys x) (s_g s') (OCreate d) (x_disk x) Logic.I J5) as (dk' & A1 & _).
    destruct (bad (XAnchor (Zlen (g_infos (s_g (x_sys x)))) d)) eqn:Bx.
    + cbn [effects attempt] in H. rewrite Bx in H. destruct (sound_sets _ _ _ J5) as (l & L1 & L2). rewrite (orphan_same _ (OCreate d) _ l L1 L2) in H. injection H as <- <-. left. destruct x. cbn in *. subst. exact Jx.
    + rewrite (fun Q => attempt_ok bad _ 0%nat _ dk' Q A1) in H.
      * destruct (step e (x_sys x) (OCreate d)) as [[s1 b]| |] eqn:St; cbn [bind fst snd] in H; try discriminate. injection H as <- <-. eapply J_quiet; eauto.
      * intros y Hy. cbn in Hy. destruct Hy as [<-|Hy]; [exact Bx|]. destruct (bad y) eqn:E; auto. apply B in E. destruct Hy as [<-|[<-|[<-|[]]]]; contradiction.
  - destruct (refused (x_sys x) (OSetExtent did dims)) eqn:Rf; [injection H as <- <-; exfalso; apply M; auto|].
    apply Quiet; auto. destruct (quiet_sound e (x_sys x) (s_g s') (OSetExtent did dims) (x_disk x) Logic.I J5) as (dk' & A1 & _).
    rewrite (attempt_ok _ _ _ _ _ (quiet_early bad e _ (OSetExtent did dims) B Logic.I) A1) in *. cbn [fst]. exact H.
  - apply Quiet; auto.
  - cbn [refused effects] in H. cbn [step].
    destruct (attempt bad 0 (x_disk x) (if any_pending (s_g (x_sys x)) then flush_effects doff (s_g (x_sys x)) else [])) as [dk' [k|]] eqn:A.
    + injection H as <- <-. left. cbn [orphan closes_file stopped]. destruct (any_pending (s_g (x_sys x))); [|discriminate].
      destruct (flush_stops _ _ _ _ _ _ _ _ J5 B (sized_pending _ J4) A J3) as [Q1 Q2]. unfold J. cbn. repeat (split; auto); [apply stopped_alike; auto..|apply sized_stopped; auto].
    + cbn [step bind fst snd] in H. injection H as <- <-. rewrite <- (pending_alike _ _ J3). destruct (any_pending (s_g (x_sys x))) eqn:P.
      * assert (NJ : ~ jammed (s_g (x_sys x)) (x_disk x)).
        { intros Jm. pose proof (jam_flush doff _ _ bad [] 0 Jm) as Q. rewrite app_nil_r in Q. congruence. }
        destruct (flush_equal doff _ _ _ J5 J3 (or_intror NJ)) as [Q1 Q2]. apply attempt_all in A. destruct (flush_synced doff _ _ Q2) as (dk2 & F1 & F2 & _). rewrite A in F1. injection F1 as <-.
        eexists. split; [reflexivity|]. unfold J. cbn [x_dead x_sys x_disk s_g s_idx]. rewrite <- Q1. repeat (split; auto using galike_refl, sized_flush). left. auto.
      * cbn [attempt] in A. injection A as <-. eexists. split; [reflexivity|]. unfold J. cbn [x_dead x_sys x_disk s_g s_idx]. auto.
  - cbn [refused effects] in H. cbn [step]. rewrite C in *. cbn [andb] in *. rewrite attempt_app in H.
    set (g := s_g (x_sys x)) in *. set (fe := if any_pending g then flush_effects doff g else []) in *.
    destruct (attempt bad 0 (x_disk x) fe) as [dk1 [k|]] eqn:A.
    + injection H as <- <-. left. cbn [orphan closes_file stopped]. subst fe. fold g. pose proof (attempt_bound _ _ _ _ _ _ A) as K. rewrite C. cbn [andb]. destruct (any_pending g) eqn:P; [|discriminate].
      destruct (Nat.ltb_spec k (length (flush_effects doff g))) as [_|K']; [|lia].
      destruct (flush_stops _ _ _ _ _ _ _ _ J5 B (sized_pending _ J4) A J3) as [Q1 Q2]. unfold J. cbn. repeat (split; auto); [apply stopped_alike; auto..|apply sized_stopped; auto].
    + apply attempt_all in A. set (g1 := if any_pending g then flush_writes doff g else g) in *.
      assert (Q : g1 = (if any_pending (s_g s') then flush_writes doff (s_g s') else s_g s') /\ synced g1 dk1 /\ sized g1).
      { subst g1 fe. rewrite <- (pending_alike _ _ J3). fold g. destruct (any_pending g) eqn:P.
        - assert (NJ : ~ jammed g (x_disk x)).
          { intros Jm. pose proof (jam_flush doff _ _ (fun _ => false) [] 0 Jm) as Q. rewrite app_nil_r in Q. rewrite (attempt_ok (fun _ => false) _ _ _ _ ltac:(auto) A) in Q. discriminate. }
          destruct (flush_equal doff _ _ _ J5 J3 (or_intror NJ)) as [Q1 Q2]. destruct (flush_synced doff _ _ Q2) as (dk2 & F1 & F2 & _). fold g in F1, F2. rewrite A in F1. injection F1 as <-. auto using sized_flush.
        - cbn [apply_all] in A. injection A as <-. destruct J5 as [(Y & F)|(_ & Jm1 & Jm2)]; [|pose proof (pending_any g ltac:(fold g in Jm2; lia)); congruence].
          split; auto. apply none_alike; auto. }
      destruct Q as (Q1 & Q2 & Q3). rewrite <- Q1.
      destruct (attempt bad (0 + length fe) dk1 (if g_metadirty g1 then meta_effects g1 else [])) as [dk2 [k|]] eqn:A2.
      * injection H as <- <-. right. exists doff, calls. cbn [step]. rewrite <- Q1. eexists. split; [reflexivity|]. split; [reflexivity|]. cbn [orphan closes_file stopped]. fold g. rewrite C. cbn [andb].
        assert (Hk : k = length fe /\ dk2 = dk1).
        { destruct (g_metadirty g1); [|discriminate]. unfold meta_effects in A2. destruct (_ <? _) eqn:Lt; [|discriminate]. cbn [attempt] in A2. destruct (bad (XMd _ _)) eqn:Bm; [injection A2 as <- <-; auto|].
          exfalso. destruct (meta_synced _ _ Q2) as (dk3 & M1 & _). unfold meta_effects in M1. rewrite Lt in M1.
          cbn [apply_all] in M1. destruct (apply dk1 (XMd _ _)) as [d| |]; cbn [bind] in M1; try discriminate. rewrite (fun Q => attempt_ok bad _ _ _ dk3 Q M1) in A2; [discriminate|].
          intros y Hy. apply in_map_iff in Hy. destruct Hy as (p & <- & _). cbn beta. match goal with |- bad ?y = false => destruct (bad y) eqn:E; auto end. apply B in E. cbn in E. contradiction. }
        destruct Hk as [-> ->]. assert (Le : (if any_pending g then length (flush_effects doff g) else 0%nat) = length fe) by (subst fe; destruct (any_pending g); reflexivity). rewrite Le.
        rewrite Nat.ltb_irrefl, Nat.sub_diag. cbn [stopped_meta]. unfold J. cbn [x_dead x_sys x_disk s_g s_idx]. repeat (split; [auto using galike_refl; fail|]). left. auto.
      * apply attempt_all in A2. destruct (meta_synced_if (g_metadirty g1) _ _ Q2) as (dk3 & M1 & M2 & _). rewrite A2 in M1. injection M1 as <-. cbn [step] in H. fold g in H. rewrite C in H. cbn [andb] in H. fold g1 in H.
        rewrite <- J2. destruct (read_each _ _ _ _) as [p| |] eqn:Re; cbn [bind fst snd] in *; try discriminate. injection H as <- <-. eexists. split; [reflexivity|].
        unfold J. cbn [x_dead x_sys x_disk s_g s_idx]. repeat (split; [auto using galike_refl; fail|]). split; [destruct (g_metadirty g1); auto using sized_meta|]. left. auto.
  - cbn [refused] in H. destruct (attempt bad 0 (x_disk x) (effects e (x_sys x) (OReopen doff np))) as [dk' [k|]] eqn:A; [injection H as <- <-; exfalso; apply M; auto|].
    apply attempt_all in A.
    assert (NJ : ~ jammed (s_g (x_sys x)) (x_disk x)).
    { intros Jm. cbn [effects] in A. pose proof (attempt_ok (fun _ => false) _ 0%nat _ _ ltac:(auto) A) as Q. rewrite (jam_flush doff _ _ (fun _ => false) _ 0 Jm) in Q. discriminate. }
    destruct (flush_equal doff _ _ _ J5 J3 (or_intror NJ)) as [Q1 Q2].
    assert (St : exists s1, step e (x_sys x) (OReopen doff np) = Ok (s1, [])) by (cbn [step]; rewrite (reopen_synced _ _ Q2); cbn [bind]; eauto).
    destruct St as (s1 & St). destruct (step_att _ _ _ _ _ _ _ _ Q2 St A) as (T1 & T2 & T3). rewrite (recover_synced np _ _ T1 T2), <- T3 in H. cbn [bind] in H. injection H as <- <-.
    exists s1. split.
    + rewrite <- St. cbn [step]. unfold close_file. rewrite Q1. destruct J3 as (E1 & E2 & _). rewrite E1, E2. reflexivity.
    + unfold J. cbn [x_dead x_sys x_disk]. repeat (split; [auto using galike_refl; fail|]). split; [eapply sized_step; eauto|]. left. auto.
Qed.

Lemma init_J : forall cfg np f0, J (fstart cfg np f0) (init cfg np f0).
Proof.
  intros. unfold J. cbn [fstart x_dead x_sys x_disk]. repeat (split; [auto using galike_refl; fail|]). split; [|left; split; auto using init_synced].
  unfold sized. cbn. apply Forall_forall. intros st Hi. apply repeat_spec in Hi. subst. constructor.
Qed.

Definition good_op (f : fop) : Prop := match f with Call bad _ => forall x, bad x = true -> early x | _ => False end.
Lemma sim_run : forall e fs x s' x1 os, e_coll e = true -> J x s' -> Forall good_op fs ->
  Forall2 (fun f out => is_close f = true \/ is_extent f = true -> out <> None) fs os -> frun e x fs = Ok (x1, os) ->
  exists ops outs s1, repaired fs os ops outs /\ run e s' ops = Ok (s1, outs) /\ J x1 s1.
Proof.
  intros e. induction fs as [|f fs IH]; intros x s' x1 os C Jx G M H; cbn [frun] in H.
  - injection H as <- <-. exists [], [], s'. repeat split; try apply Jx. constructor.
  - destruct (fstep e x f) as [[x2 out]| |] eqn:E; cbn [bind fst snd] in H; try discriminate. destruct (frun e x2 fs) as [[x3 os3]| |] eqn:E3; cbn [bind fst snd] in H; try discriminate. injection H as <- <-.
    inversion G as [|? ? G1 G2]; subst. inversion M as [|? ? ? ? M1 M2]; subst. destruct f as [bad o| |]; try contradiction.
    pose proof (sim_step _ _ _ _ _ _ _ C Jx G1 M1 E) as Q. destruct out as [b|].
    + destruct Q as (s1 & Q1 & Q2). destruct (IH _ _ _ _ C Q2 G2 M2 E3) as (ops & outs & s2 & I1 & I2 & I3). exists (o :: ops), (b :: outs), s2. split; [constructor; auto|]. split; auto.
      cbn [run]. rewrite Q1. cbn [bind fst snd]. rewrite I2. reflexivity.
    + destruct Q as [Q|(doff & calls & s1 & -> & Q1 & Q2)].
      * destruct (IH _ _ _ _ C Q G2 M2 E3) as (ops & outs & s2 & I1 & I2 & I3). exists ops, outs, s2. split; [constructor; auto|]. auto.
      * destruct (IH _ _ _ _ C Q2 G2 M2 E3) as (ops & outs & s2 & I1 & I2 & I3). exists (OFlush doff :: ops), ([] :: outs), s2. split; [apply R_flush; auto|]. split; [|exact I3].
        cbn [run]. rewrite Q1. cbn [bind fst snd]. rewrite I2. reflexivity.
Qed.
