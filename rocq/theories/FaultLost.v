(** Data that were not written do not matter: what the program sees is the same for other data. *)
From Verif Require Import Base BaseProofs Spec MetaModel QueueModel FlushModel IndexModel ReadModel SysModel
  SysSpec FlushProofs SysProofs AnySpec AnyProofs CrashModel CrashSpec CrashProofs CrashClaims FaultModel FaultSpec FaultProofs FaultSim FaultClaims.
From Coq Require Import ZifyNat ZifyN.

Definition strip (w : wreq) : wreq := mkwreq (w_hdr w) (w_body w) (w_selpos w) (w_metaoff w) [].
Lemma strip_hdr : forall a b, strip a = strip b -> w_hdr a = w_hdr b /\ wreq_bytes a = wreq_bytes b.
Proof. intros a b H. assert (E1 : w_hdr (strip a) = w_hdr (strip b)) by congruence. assert (E2 : w_body (strip a) = w_body (strip b)) by congruence. cbn in *. unfold wreq_bytes. split; congruence. Qed.
Lemma strip_foff : forall a b z z', strip a = strip b -> z = z' -> strip (set_foff a z) = strip (set_foff b z').
Proof. intros [h b s m d] [h' b' s' m' d'] z z' H <-. unfold strip, set_foff in *. cbn in *. injection H as -> -> -> ->. reflexivity. Qed.

(** Flushed requests with other data. *)
Definition rq (a b : rank) : Prop :=
  k_nflushed a = k_nflushed b /\ k_mdsize a = k_mdsize b /\ k_hash a = k_hash b /\ k_zbsize a = k_zbsize b /\
  map strip (k_wreqs a) = map strip (k_wreqs b) /\ unflushed a = unflushed b.
Lemma rq_refl : forall a, rq a a.
Proof. intros. unfold rq. auto 8. Qed.
Lemma map_firstn : forall A B (f : A -> B) n l, map f (firstn n l) = firstn n (map f l).
Proof. induction n; intros [|x l]; cbn; auto. f_equal. auto. Qed.
Lemma rq_flushed : forall a b, rq a b -> map strip (flushed a) = map strip (flushed b).
Proof. intros a b (E1 & _ & _ & _ & E & _). unfold flushed. rewrite !map_firstn. congruence. Qed.
Lemma rq_len : forall a b, rq a b -> length (k_wreqs a) = length (k_wreqs b).
Proof. intros a b (_ & _ & _ & _ & E & _). rewrite <- (map_length strip), E, map_length. reflexivity. Qed.
Lemma rq_pending : forall a b, rq a b -> num_pending a = num_pending b.
Proof. intros a b R. pose proof (rq_len _ _ R). destruct R as (E & _). unfold num_pending. congruence. Qed.
Lemma rq_meta_len : forall a b, rq a b -> meta_len a = meta_len b.
Proof.
  intros a b (_ & _ & _ & _ & E & _). unfold meta_len. f_equal. assert (Q : forall l, map (fun w => h_size (w_hdr w)) l = map (fun w => h_size (w_hdr w)) (map strip l)) by (intros; rewrite map_map; reflexivity).
  rewrite (Q (k_wreqs a)), (Q (k_wreqs b)), E. reflexivity.
Qed.
Lemma rq_meta_bytes : forall a b, rq a b -> meta_bytes a = meta_bytes b.
Proof.
  intros a b (_ & _ & _ & _ & E & _). unfold meta_bytes. revert E. generalize (k_wreqs a) (k_wreqs b). induction l as [|x l IH]; intros [|y l'] E; cbn [map] in E; try discriminate; auto. injection E as E1 E2 E3 E4 E5. cbn [flat_map]. f_equal; auto. unfold wreq_bytes. congruence.
Qed.
Lemma rq_assign : forall a b, rq a b -> rq (rank_assign a) (rank_assign b).
Proof.
  intros a b R. pose proof (rq_flushed _ _ R) as F. pose proof (rq_len _ _ R) as L. destruct R as (E1 & E2 & E3 & E4 & E5 & E6). unfold rq, rank_assign. cbn [k_wreqs k_nflushed k_mdsize k_hash k_zbsize].
  split; auto. split; auto. split; auto. split; auto. split; [rewrite !map_app, F, E6; reflexivity|]. unfold unflushed at 1 3. cbn [k_wreqs k_nflushed]. rewrite !skipn_app, E6.
  assert (Lf : length (flushed a) = length (flushed b)) by (rewrite <- (map_length strip), F, map_length; reflexivity). rewrite Lf, E1. f_equal.
  unfold flushed. rewrite E1. rewrite !skipn_all2; auto; apply firstn_le_length.
Qed.
Lemma all_flushed : forall base a, unflushed (rank_flushed base a) = [].
Proof. intros. unfold unflushed, rank_flushed. cbn [k_wreqs k_nflushed]. apply skipn_all. Qed.
Lemma flushed_length : forall base a, k_nflushed (rank_flushed base a) = length (k_wreqs (rank_flushed base a)).
Proof. reflexivity. Qed.
Lemma rq_rank_flushed : forall base a b, k_mdsize a = k_mdsize b -> k_hash a = k_hash b -> k_zbsize a = k_zbsize b -> map strip (flushed a) = map strip (flushed b) -> map strip (unflushed a) = map strip (unflushed b) ->
  rq (rank_flushed base a) (rank_flushed base b).
Proof.
  intros base a b E2 E3 E4 F U. assert (M : map strip (k_wreqs (rank_flushed base a)) = map strip (k_wreqs (rank_flushed base b))).
  { unfold rank_flushed. cbn [k_wreqs]. rewrite !map_app, F. f_equal. revert U. generalize 0 as o. generalize (unflushed a) (unflushed b). induction l as [|x l IH]; intros [|y l'] o U; cbn [map] in U; try discriminate; auto.
    assert (Q : strip x = strip y) by congruence. destruct (strip_hdr _ _ Q) as [Q1 _]. cbn [assign_foff map]. rewrite Q1. f_equal; [|apply IH; congruence]. apply strip_foff; [|reflexivity]. apply strip_foff; auto. }
  unfold rq. rewrite !all_flushed, !flushed_length. repeat split; auto. rewrite <- (map_length strip), M, map_length. reflexivity.
Qed.

Definition gq (a b : gfile) : Prop :=
  g_cfg a = g_cfg b /\ g_infos a = g_infos b /\ g_file a = g_file b /\ g_mdsets a = g_mdsets b /\ g_nldset a = g_nldset b /\ g_metadirty a = g_metadirty b /\
  Forall2 rq (g_ranks a) (g_ranks b).
Definition xq (x y : fstate) : Prop := x_disk x = x_disk y /\ x_dead x = x_dead y /\ s_idx (x_sys x) = s_idx (x_sys y) /\ gq (s_g (x_sys x)) (s_g (x_sys y)).
Lemma gq_refl : forall g, gq g g.
Proof. intros. unfold gq. repeat (split; [reflexivity|]). induction (g_ranks g); constructor; auto using rq_refl. Qed.
Lemma xq_refl : forall x, xq x x.
Proof. intros. unfold xq. auto using gq_refl. Qed.

Lemma map_rq : forall B (f : rank -> B) l l', Forall2 rq l l' -> (forall a b, rq a b -> f a = f b) -> map f l = map f l'.
Proof. intros B f l l' R F. induction R; cbn; auto. f_equal; auto. Qed.
Lemma combine_rq : forall B (f : Z * rank -> B) l l', Forall2 rq l l' -> (forall z a b, rq a b -> f (z, a) = f (z, b)) -> forall zs, map f (combine zs l) = map f (combine zs l').
Proof. intros B f l l' R F. induction R; intros [|z zs]; cbn; auto. f_equal; auto. Qed.
Lemma rq_sizes : forall l l', Forall2 rq l l' -> map (fun st => local_size (unflushed st)) l = map (fun st => local_size (unflushed st)) l'.
Proof. intros l l' R. apply map_rq; auto. intros a b (_ & _ & _ & _ & _ & E). rewrite E. reflexivity. Qed.
Lemma rq_bytes : forall a b, rq a b -> local_bytes a = local_bytes b.
Proof. intros a b (_ & _ & _ & _ & _ & E). unfold local_bytes. rewrite E. reflexivity. Qed.
Lemma gq_effects : forall doff a b, gq a b -> flush_effects doff a = flush_effects doff b.
Proof.
  intros doff a b (_ & _ & _ & _ & E & _ & R). unfold flush_effects. rewrite (rq_sizes _ _ R), E. destruct (_ =? 0); auto. f_equal. apply combine_rq; auto. intros z p q Q. cbn. rewrite (rq_bytes _ _ Q). reflexivity.
Qed.
Lemma gq_pending : forall a b, gq a b -> any_pending a = any_pending b.
Proof. intros a b (_ & _ & _ & _ & _ & _ & R). unfold any_pending. induction R; cbn; auto. rewrite IHR, (rq_pending _ _ H). reflexivity. Qed.
Lemma gq_flush : forall doff a b, gq a b -> gq (flush_writes doff a) (flush_writes doff b).
Proof.
  intros doff a b (E1 & E2 & E3 & E4 & E5 & E6 & R). unfold flush_writes. rewrite (rq_sizes _ _ R). destruct (_ =? 0); unfold gq; cbn [g_cfg g_infos g_ranks g_file g_mdsets g_nldset g_metadirty].
  - do 6 (split; auto). clear - R. induction R; cbn; constructor; auto using rq_assign.
  - do 2 (split; auto). split; [|split; auto; split; [congruence|split; auto]].
    + rewrite E3. rewrite !(fold_map _ _ _ (fun f q => put f (fst q) (snd q)) (fun p : Z * rank => (fst p, local_bytes (snd p)))). f_equal. apply combine_rq; auto. intros z p q Q. cbn. rewrite (rq_bytes _ _ Q). reflexivity.
    + generalize (map (fun o => o + doff) (exscan 0 (map (fun st => local_size (unflushed st)) (g_ranks b)))). clear - R. induction R as [|p q l l' Q R IH]; intros [|z zs]; cbn; constructor; auto.
      pose proof (rq_flushed _ _ Q). destruct Q as (F1 & F2 & F3 & F4 & F5 & F6). apply rq_rank_flushed; auto. congruence.
Qed.
Lemma rq_meta_sizes : forall l l', Forall2 rq l l' -> meta_sizes l = meta_sizes l' /\ md_pieces l = md_pieces l' /\ Zlen l = Zlen l'.
Proof.
  intros l l' R. assert (L : Zlen l = Zlen l') by (unfold Zlen; f_equal; eapply Forall2_length; exact R).
  assert (M : meta_sizes l = meta_sizes l') by (unfold meta_sizes; rewrite (map_rq _ meta_len _ _ R rq_meta_len), L; reflexivity).
  split; auto. split; auto. unfold md_pieces, md_map. destruct R as [|a b l l' Q R]; auto. rewrite M, L, (rq_meta_bytes _ _ Q), (map_rq _ meta_bytes _ _ R rq_meta_bytes). reflexivity.
Qed.
Lemma gq_meta_effects : forall a b, gq a b -> meta_effects a = meta_effects b /\ meta_nowhere_effects a = meta_nowhere_effects b.
Proof. intros a b (_ & _ & _ & E & _ & _ & R). destruct (rq_meta_sizes _ _ R) as (M1 & M2 & M3). unfold meta_effects, meta_nowhere_effects. rewrite M1, M2, M3, E. auto. Qed.
Lemma gq_metaflush : forall a b, gq a b -> metaflush a = metaflush b.
Proof.
  intros a b (E1 & E2 & E3 & E4 & E5 & E6 & R). destruct (rq_meta_sizes _ _ R) as (M1 & M2 & M3). unfold metaflush, md_content. rewrite M1, M2, M3, E1, E2, E3, E4, E5. f_equal.
  apply map_rq; auto. intros p q (_ & _ & _ & Q & _). rewrite Q. reflexivity.
Qed.
Lemma gq_stopped_flush : forall dk a b, gq a b -> gq (stopped_flush dk a) (stopped_flush dk b).
Proof.
  intros dk a b (E1 & E2 & E3 & E4 & E5 & E6 & R). unfold gq, stopped_flush. cbn [g_cfg g_infos g_ranks g_file g_mdsets g_nldset g_metadirty]. do 6 (split; auto). clear - R. induction R; cbn; constructor; auto using rq_assign.
Qed.
Lemma gq_stopped_meta : forall k dk a b, gq a b -> gq (stopped_meta k dk a) (stopped_meta k dk b).
Proof. intros [|k] dk a b G; auto. destruct G as (E1 & E2 & E3 & E4 & E5 & E6 & R). unfold gq, stopped_meta. cbn [g_cfg g_infos g_ranks g_file g_mdsets g_nldset g_metadirty]. rewrite E4. repeat (split; auto). Qed.
Lemma read_each_gq : forall e a b, gq a b -> forall cs idx, read_each e a idx cs = read_each e b idx cs.
Proof.
  intros e a b (E1 & E2 & E3 & E4 & _) cs. induction cs as [|c cs IH]; intros idx; cbn [read_each]; auto. unfold read_one. rewrite E1, E2, E3, E4. destruct (match rc_sels c with [] => _ | _ => _ end); cbn [bind]; auto. rewrite IH. reflexivity.
Qed.
Lemma effects_gq : forall e s t o, gq (s_g s) (s_g t) -> effects e s o = effects e t o.
Proof.
  intros e s t o G. pose proof G as (E1 & E2 & E3 & E4 & E5 & E6 & R). destruct o; cbn [effects]; rewrite ?E1, ?E2, ?(gq_pending _ _ G); auto.
  - destruct (any_pending _); auto. apply gq_effects; auto.
  - destruct (_ && _).
    + rewrite (gq_effects _ _ _ G). pose proof (gq_flush doff _ _ G) as G1. pose proof G1 as (_ & _ & _ & _ & _ & D & _). rewrite D, (proj1 (gq_meta_effects _ _ G1)). reflexivity.
    + rewrite E6, (proj1 (gq_meta_effects _ _ G)). reflexivity.
  - rewrite (gq_effects _ _ _ G). pose proof (gq_flush doff _ _ G) as G1. rewrite (proj1 (gq_meta_effects _ _ G1)), (gq_metaflush _ _ G1). reflexivity.
Qed.
Lemma stopped_gq : forall e s t o k dk, gq (s_g s) (s_g t) -> s_idx s = s_idx t -> gq (s_g (stopped e s o k dk)) (s_g (stopped e t o k dk)) /\ s_idx (stopped e s o k dk) = s_idx (stopped e t o k dk).
Proof.
  intros e s t o k dk G I. pose proof G as (E1 & E2 & E3 & E4 & E5 & E6 & R). destruct o; cbn [stopped]; auto.
  - rewrite E2. destruct (info_at _ _) as [[d|]|]; auto. cbn [s_g s_idx]. split; auto. unfold gq, set_infos. cbn [g_cfg g_infos g_ranks g_file g_mdsets g_nldset g_metadirty]. repeat (split; auto).
  - cbn [s_g s_idx]. auto using gq_stopped_flush.
  - rewrite (gq_pending _ _ G), (gq_effects _ _ _ G). destruct (k <? _)%nat; cbn [s_g s_idx]; split; auto using gq_stopped_flush. destruct (_ && _); apply gq_stopped_meta; auto using gq_flush.
  - pose proof (gq_flush doff _ _ G) as G1. rewrite (gq_effects _ _ _ G), (proj1 (gq_meta_effects _ _ G1)). destruct (k <? _)%nat; [cbn [s_g s_idx]; auto using gq_stopped_flush|]. destruct (_ <? _)%nat; cbn [s_g s_idx]; split; auto using gq_stopped_meta.
    rewrite (gq_metaflush _ _ G1). apply gq_refl.
Qed.
Lemma write_rq : forall z cfg infos a b did sels data a', rq a b -> ds_write z cfg infos a did sels data = Ok a' ->
  exists b', ds_write z cfg infos b did sels data = Ok b' /\ rq a' b'.
Proof.
  intros z cfg infos a b did sels data a' R H. pose proof (rq_len _ _ R) as L. destruct R as (E1 & E2 & E3 & E4 & E5 & E6).
  unfold ds_write in *. destruct sels as [|s ss]; [injection H as <-; exists b; split; auto; unfold rq; auto 8|].
  destruct (nth_error infos _) as [[dip|]|]; try discriminate.
  assert (Em : finish_meta z cfg b (mk_wreq cfg did dip (k_mdsize b) (s :: ss)) = finish_meta z cfg a (mk_wreq cfg did dip (k_mdsize a) (s :: ss))) by (unfold finish_meta, dedup; rewrite E2, E3, E4; reflexivity).
  rewrite Em. destruct (finish_meta _ _ _ _) as [[[r tbl] zb]| |]; cbn [bind] in *; try discriminate. injection H as <-. eexists. split; [reflexivity|].
  unfold rq, unflushed in *. cbn [k_wreqs k_nflushed k_mdsize k_hash k_zbsize]. rewrite !skipn_app, !map_app, L, E1, E2, E5 in *. repeat split; auto. rewrite E6. reflexivity.
Qed.
Lemma Forall2_upd : forall A (P : A -> A -> Prop) n a b l l', Forall2 P l l' -> P a b -> Forall2 P (upd_nth n a l) (upd_nth n b l').
Proof. intros A P n a b l l' F Q. revert n. induction F; intros [|n]; cbn; constructor; auto. Qed.
Lemma Forall2_nth : forall A (P : A -> A -> Prop) n l l' a, Forall2 P l l' -> nth_error l n = Some a -> exists b, nth_error l' n = Some b /\ P a b.
Proof. intros A P n l l' a F. revert n. induction F; intros [|n] E; cbn in *; try discriminate; eauto. injection E as <-. eauto. Qed.
Lemma step_gq : forall e s t o s1 out, (match o with OReopen _ _ => False | _ => True end) -> gq (s_g s) (s_g t) -> s_idx s = s_idx t -> step e s o = Ok (s1, out) ->
  exists t1, step e t o = Ok (t1, out) /\ gq (s_g s1) (s_g t1) /\ s_idx s1 = s_idx t1.
Proof.
  intros e s t o s1 out No G I H. pose proof G as (E1 & E2 & E3 & E4 & E5 & E6 & R). destruct o; cbn [step] in *; try contradiction.
  - rewrite <- E1, <- E2. destruct (create_info _ _); cbn [bind] in *; try discriminate. injection H as <- <-. eexists. split; [reflexivity|]. cbn [s_g s_idx]. split; auto. unfold gq, set_infos. cbn. repeat (split; auto).
  - rewrite <- E1, <- E2. destruct (info_at _ _) as [[d|]|]; try discriminate. destruct (set_extent _ _ _) as [d' []]; try discriminate. injection H as <- <-. eexists. split; [reflexivity|]. cbn [s_g s_idx]. split; auto. unfold gq, set_infos. cbn. repeat (split; auto).
  - destruct (nth_error (g_ranks (s_g s)) _) as [st|] eqn:N; try discriminate. destruct (Forall2_nth _ _ _ _ _ _ R N) as (st' & N' & Q). rewrite N', <- E1, <- E2.
    destruct (ds_write _ _ _ st _ _ _) as [r| |] eqn:W; cbn [bind] in H; try discriminate. injection H as <- <-. destruct (write_rq _ _ _ _ _ _ _ _ _ Q W) as (r' & W' & Q'). rewrite W'. cbn [bind]. eexists. split; [reflexivity|].
    cbn [s_g s_idx]. split; auto. unfold gq, set_ranks. cbn [g_cfg g_infos g_ranks g_file g_mdsets g_nldset g_metadirty]. repeat (split; auto). apply Forall2_upd; auto.
  - injection H as <- <-. eexists. split; [reflexivity|]. cbn [s_g s_idx]. split; auto. rewrite (gq_pending _ _ G). destruct (any_pending _); auto using gq_flush.
  - rewrite <- (gq_pending _ _ G), <- I. assert (G1 : gq (if e_coll e && any_pending (s_g s) then flush_writes doff (s_g s) else s_g s) (if e_coll e && any_pending (s_g s) then flush_writes doff (s_g t) else s_g t)) by (destruct (_ && _); auto using gq_flush).
    revert G1 H. set (a := if _ && _ then _ else _). set (b := if _ && _ then _ else _). clearbody a b. intros G1 H. pose proof G1 as (_ & _ & _ & _ & _ & D & _). rewrite <- D.
    destruct (g_metadirty a).
    + rewrite <- (gq_metaflush _ _ G1). destruct (read_each _ _ _ _) as [[r i]| |]; cbn [bind fst snd] in *; try discriminate. injection H as <- <-. eexists. split; [reflexivity|]. cbn [s_g s_idx]. auto using gq_refl.
    + rewrite <- (read_each_gq _ _ _ G1). destruct (read_each _ _ _ _) as [[r i]| |]; cbn [bind fst snd] in *; try discriminate. injection H as <- <-. eexists. split; [reflexivity|]. cbn [s_g s_idx]. auto.
Qed.
Lemma refused_gq : forall s t o, gq (s_g s) (s_g t) -> refused s o = refused t o.
Proof. intros s t o (E1 & E2 & _). destruct o; cbn [refused]; auto. rewrite E1, E2. reflexivity. Qed.
Lemma orphan_gq : forall a b o dk, gq a b -> orphan a o dk = orphan b o dk.
Proof. intros a b o dk (E1 & E2 & _). destruct o; cbn [orphan]; auto. rewrite E2. reflexivity. Qed.
Lemma gq_nowhere : forall a b, gq a b -> nowhere_effects a = nowhere_effects b /\ gq (flush_nowhere a) (flush_nowhere b).
Proof.
  intros a b G. pose proof (gq_flush 0 _ _ G) as (F1 & F2 & F3 & F4 & F5 & F6 & F7). destruct G as (E1 & E2 & E3 & E4 & E5 & E6 & R). split.
  - unfold nowhere_effects. rewrite (rq_sizes _ _ R), E5. reflexivity.
  - unfold gq, flush_nowhere. cbn [g_cfg g_infos g_ranks g_file g_mdsets g_nldset g_metadirty]. repeat (split; auto).
Qed.

Lemma fstep_xq : forall e x y f x1 o, xq x y -> fstep e x f = Ok (x1, o) -> exists y1, fstep e y f = Ok (y1, o) /\ xq x1 y1.
Proof.
  intros e [s dk dead] [t dk' dead'] f x1 o (X1 & X2 & X3 & G) H. cbn [x_disk x_dead x_sys] in *. subst dk' dead'.
  assert (Main : forall bad op, (match op, dead with OReopen _ _, true => False | _, _ => True end) ->
    fstep e (mkfs s dk dead) (Call bad op) = Ok (x1, o) -> exists y1, fstep e (mkfs t dk dead) (Call bad op) = Ok (y1, o) /\ xq x1 y1).
  { intros bad op Nd H1.
    assert (H2 : forall u : sys, fstep e (mkfs u dk dead) (Call bad op) =
      (if refused u op then Ok (mkfs (stopped e u op 0 dk) dk dead, None)
       else match attempt bad 0 dk (effects e u op) with
            | (dk', Some k) => Ok (mkfs (stopped e u op k dk') (orphan (s_g u) op dk') (dead || closes_file op), None)
            | (dk', None) => match op with OReopen _ np => do s' <- recover np dk'; Ok (mkfs s' dk' false, Some []) | _ => do p <- step e u op; Ok (mkfs (fst p) dk' dead, Some (snd p)) end
            end)) by (intros u; unfold fstep; cbn [x_sys x_disk x_dead]; destruct op, dead; try contradiction; reflexivity).
    rewrite H2 in H1 |- *. clear H2. rewrite (refused_gq _ _ _ G) in H1. destruct (refused t op).
    - injection H1 as <- <-. eexists. split; [reflexivity|]. destruct (stopped_gq e _ _ op 0%nat dk G X3) as [S1 S2]. repeat split; auto; apply S1.
    - rewrite (effects_gq e _ _ op G) in H1. destruct (attempt bad 0 dk (effects e t op)) as [dk' [k|]].
      + injection H1 as <- <-. eexists. split; [reflexivity|]. destruct (stopped_gq e _ _ op k dk' G X3) as [S1 S2]. split; [|split; [reflexivity|split; auto]]. cbn [x_disk]. apply orphan_gq; auto.
      + assert (St : (match op with OReopen _ _ => False | _ => True end) -> (do p <- step e s op; Ok (mkfs (fst p) dk' dead, Some (snd p))) = Ok (x1, o) ->
          exists y1, (do p <- step e t op; Ok (mkfs (fst p) dk' dead, Some (snd p))) = Ok (y1, o) /\ xq x1 y1).
        { intros No H2. destruct (step e s op) as [[s1 out]| |] eqn:St; cbn [bind fst snd] in H2; try discriminate. injection H2 as <- <-. destruct (step_gq _ _ _ _ _ _ No G X3 St) as (t1 & T1 & T2 & T3). rewrite T1. cbn [bind fst snd].
          eexists. split; [reflexivity|]. repeat split; auto; apply T2. }
        destruct op; try (apply St; auto; fail). destruct (recover _ _); cbn [bind] in *; try discriminate. injection H1 as <- <-. eexists. split; [reflexivity|]. apply xq_refl. }
  destruct f as [bad op| |doff np].
  - destruct dead; [|apply Main; auto; destruct op; auto]. destruct op; try (apply Main; auto; fail). cbn [fstep x_dead x_disk] in *. destruct (recover _ _); cbn [bind] in *; try discriminate. injection H as <- <-. eexists. split; [reflexivity|]. apply xq_refl.
  - cbn [fstep x_dead x_disk x_sys] in *. rewrite <- (gq_pending _ _ G). destruct (gq_nowhere _ _ G) as [N1 N2]. rewrite <- N1. destruct (any_pending (s_g s)).
    + destruct (attempt _ _ _ _) as [dk' [k|]]; injection H as <- <-; (eexists; split; [reflexivity|]).
      * pose proof (gq_stopped_flush dk' _ _ G) as S1. repeat split; auto; apply S1.
      * repeat split; auto; apply N2.
    + injection H as <- <-. eexists. split; [reflexivity|]. repeat split; auto; apply G.
  - cbn [fstep x_dead x_disk x_sys] in *. pose proof (gq_flush doff _ _ G) as G1. rewrite <- (gq_effects _ _ _ G), <- (proj2 (gq_meta_effects _ _ G1)), <- (gq_metaflush _ _ G1). exists x1. split; auto. apply xq_refl.
Qed.
Lemma frun_xq : forall e fs x y x1 os, xq x y -> frun e x fs = Ok (x1, os) -> exists y1, frun e y fs = Ok (y1, os) /\ xq x1 y1.
Proof.
  intros e. induction fs as [|f fs IH]; intros x y x1 os Q H; cbn [frun] in *; [injection H as <- <-; eauto|]. destruct (fstep e x f) as [[x2 o]| |] eqn:E; cbn [bind fst snd] in H; try discriminate.
  destruct (frun e x2 fs) as [[x3 o3]| |] eqn:E3; cbn [bind fst snd] in H; try discriminate. injection H as <- <-. destruct (fstep_xq _ _ _ _ _ _ Q E) as (y2 & F1 & F2). destruct (IH _ _ _ _ F2 E3) as (y3 & F3 & F4).
  rewrite F1. cbn [bind fst snd]. rewrite F3. cbn [bind fst snd]. eauto.
Qed.

(** ** Before the flush *)
Definition wq (a b : wreq) : Prop := a = b \/ (strip a = strip b /\ 0 < h_fsize (w_hdr a)).
Definition rp (a b : rank) : Prop :=
  k_nflushed a = k_nflushed b /\ k_mdsize a = k_mdsize b /\ k_hash a = k_hash b /\ k_zbsize a = k_zbsize b /\ Forall2 wq (k_wreqs a) (k_wreqs b).
Definition gp (a b : gfile) : Prop :=
  g_cfg a = g_cfg b /\ g_infos a = g_infos b /\ g_file a = g_file b /\ g_mdsets a = g_mdsets b /\ g_nldset a = g_nldset b /\ g_metadirty a = g_metadirty b /\
  Forall2 rp (g_ranks a) (g_ranks b).
Definition xp (x y : fstate) : Prop := x_disk x = x_disk y /\ x_dead x = x_dead y /\ s_idx (x_sys x) = s_idx (x_sys y) /\ gp (s_g (x_sys x)) (s_g (x_sys y)).
Lemma rp_refl : forall a, rp a a.
Proof. intros. unfold rp. do 4 (split; auto). induction (k_wreqs a); constructor; auto. left. auto. Qed.
Lemma xp_refl : forall x, xp x x.
Proof. intros. unfold xp, gp. do 3 (split; auto). do 6 (split; auto). induction (g_ranks _); constructor; auto using rp_refl. Qed.
Lemma wq_strip : forall a b, wq a b -> strip a = strip b.
Proof. intros a b [->|[H _]]; auto. Qed.
Lemma write_rp : forall z cfg infos a b did sels data data' a', rp a b -> length data = length data' -> ds_write z cfg infos a did sels data = Ok a' ->
  exists b', ds_write z cfg infos b did sels data' = Ok b' /\ rp a' b'.
Proof.
  intros z cfg infos a b did sels data data' a' (E1 & E2 & E3 & E4 & E5) L H.
  unfold ds_write in *. destruct sels as [|s ss]; [injection H as <-; exists b; split; auto; unfold rp; auto 8|].
  destruct (nth_error infos _) as [[dip|]|]; try discriminate.
  assert (Em : finish_meta z cfg b (mk_wreq cfg did dip (k_mdsize b) (s :: ss)) = finish_meta z cfg a (mk_wreq cfg did dip (k_mdsize a) (s :: ss))) by (unfold finish_meta, dedup; rewrite E2, E3, E4; reflexivity).
  rewrite Em. destruct (finish_meta _ _ _ _) as [[[r tbl] zb]| |]; cbn [bind] in *; try discriminate. injection H as <-. eexists. split; [reflexivity|].
  unfold rp. cbn [k_wreqs k_nflushed k_mdsize k_hash k_zbsize]. rewrite E1, E2. do 4 (split; auto). apply Forall2_app; auto. constructor; auto. unfold wq, strip, set_data, Zlen. cbn [w_hdr w_body w_selpos w_metaoff w_data h_fsize].
  rewrite L. destruct data as [|x data]; destruct data' as [|x' data']; try discriminate; auto. right. split; auto. cbn [length]. lia.
Qed.
Lemma fstep_xp : forall e x y o o' x1 out, xp x y -> other_data o o' -> fstep e x (fine o) = Ok (x1, out) -> exists y1, fstep e y (fine o') = Ok (y1, out) /\ xp x1 y1.
Proof.
  intros e [s dk dead] [t dk' dead'] o o' x1 out (X1 & X2 & X3 & G) O H. cbn [x_disk x_dead x_sys] in *. subst dk' dead'. pose proof G as (E1 & E2 & E3 & E4 & E5 & E6 & R).
  destruct o, o'; cbn [other_data] in O; try contradiction; unfold fstep, fine in *; cbn [x_sys x_disk x_dead refused effects] in *.
  - subst. rewrite <- E2. destruct (attempt _ _ _ _) as [dk' [k|]].
    + injection H as <- <-. eexists. split; [reflexivity|]. split; [cbn [x_disk orphan]; rewrite E2; reflexivity|]. split; auto.
    + cbn [step] in *. rewrite <- E1, <- E2. destruct (create_info _ _); cbn [bind fst snd] in *; try discriminate. injection H as <- <-. eexists. split; [reflexivity|]. split; [reflexivity|]. split; [reflexivity|]. split; auto. cbn [x_sys s_g]. unfold gp, set_infos. cbn. repeat (split; auto).
  - destruct O as [<- <-]. rewrite <- E1, <- E2. set (rf := match info_at (g_infos (s_g s)) did with Some (Some d) => _ | _ => _ end) in *. destruct rf.
    + injection H as <- <-. eexists. split; [reflexivity|]. cbn [stopped]. rewrite <- E2. destruct (info_at _ _) as [[d|]|]; (split; [reflexivity|split; [reflexivity|split; auto]]). cbn [x_sys s_g]. unfold gp, set_infos. cbn. repeat (split; auto).
    + destruct (attempt _ _ _ _) as [dk' [k|]].
      * injection H as <- <-. eexists. split; [reflexivity|]. cbn [stopped orphan]. rewrite <- E2. destruct (info_at _ _) as [[d|]|]; (split; [reflexivity|split; [reflexivity|split; auto]]). cbn [x_sys s_g]. unfold gp, set_infos. cbn. repeat (split; auto).
      * cbn [step] in *. rewrite <- E1, <- E2. destruct (info_at _ _) as [[d|]|]; cbn [bind] in *; try discriminate. destruct (set_extent _ _ _) as [d' []]; cbn [bind fst snd] in *; try discriminate. injection H as <- <-. eexists. split; [reflexivity|].
        split; [reflexivity|split; [reflexivity|split; auto]]. cbn [x_sys s_g]. unfold gp, set_infos. cbn. repeat (split; auto).
  - destruct O as (<- & <- & <- & L). cbn [attempt] in *. cbn [step] in *. destruct (nth_error (g_ranks (s_g s)) _) as [st|] eqn:N; cbn [bind] in H; try discriminate. destruct (Forall2_nth _ _ _ _ _ _ R N) as (st' & N' & Q). rewrite N', <- E1, <- E2.
    destruct (ds_write _ _ _ st _ _ _) as [r| |] eqn:W; cbn [bind fst snd] in H; try discriminate. injection H as <- <-. destruct (write_rp _ _ _ _ _ _ _ _ _ _ Q L W) as (r' & W' & Q'). rewrite W'. cbn [bind fst snd]. eexists. split; [reflexivity|].
    split; [reflexivity|split; [reflexivity|split; auto]]. cbn [x_sys s_g]. unfold gp, set_ranks. cbn [g_cfg g_infos g_ranks g_file g_mdsets g_nldset g_metadirty]. repeat (split; auto). apply Forall2_upd; auto.
Qed.
Lemma frun_xp : forall e ws ws' x y x1 os, xp x y -> Forall2 other_data ws ws' -> frun e x (map fine ws) = Ok (x1, os) -> exists y1, frun e y (map fine ws') = Ok (y1, os) /\ xp x1 y1.
Proof.
  intros e ws ws' x y x1 os Q O. revert x y x1 os Q. induction O as [|o o' ws ws' O1 O2 IH]; intros x y x1 os Q H; cbn [map frun] in *; [injection H as <- <-; eauto|]. destruct (fstep e x (fine o)) as [[x2 p]| |] eqn:E; cbn [bind fst snd] in H; try discriminate.
  destruct (frun e x2 _) as [[x3 o3]| |] eqn:E3; cbn [bind fst snd] in H; try discriminate. injection H as <- <-. destruct (fstep_xp _ _ _ _ _ _ _ Q O1 E) as (y2 & F1 & F2). destruct (IH _ _ _ _ F2 E3) as (y3 & F3 & F4).
  rewrite F1. cbn [bind fst snd]. rewrite F3. cbn [bind fst snd]. eauto.
Qed.

Lemma Forall2_firstn : forall A (P : A -> A -> Prop) n l l', Forall2 P l l' -> Forall2 P (firstn n l) (firstn n l') /\ Forall2 P (skipn n l) (skipn n l').
Proof. intros A P n l l' F. revert n. induction F; intros [|n]; cbn; auto. destruct (IHF n). auto. Qed.
Lemma wq_maps : forall l l', Forall2 wq l l' -> map strip l = map strip l' /\ map (fun w => h_fsize (w_hdr w)) l = map (fun w => h_fsize (w_hdr w)) l' /\ length l = length l'.
Proof. induction 1 as [|a b l l' Q _ (I1 & I2 & I3)]; cbn; auto. apply wq_strip in Q. destruct (strip_hdr _ _ Q) as [Q1 _]. rewrite Q, Q1, I1, I2, I3. auto. Qed.
Lemma rp_pending : forall a b, gp a b -> any_pending a = any_pending b /\ map (fun st => local_size (unflushed st)) (g_ranks a) = map (fun st => local_size (unflushed st)) (g_ranks b).
Proof.
  intros a b (_ & _ & _ & _ & _ & _ & R). unfold any_pending. induction R as [|p q l l' Q R (I1 & I2)]; cbn; auto. destruct Q as (E1 & _ & _ & _ & F). rewrite I1, I2. destruct (wq_maps _ _ F) as (_ & _ & L). unfold num_pending. rewrite E1, L. split; auto.
  f_equal. unfold local_size, unflushed. rewrite E1. destruct (Forall2_firstn _ _ (k_nflushed q) _ _ F) as [_ F2]. destruct (wq_maps _ _ F2) as (_ & M & _). rewrite M. reflexivity.
Qed.
Lemma rp_rq : forall a b, rp a b -> unflushed a = unflushed b -> rq a b.
Proof. intros a b (E1 & E2 & E3 & E4 & F) U. unfold rq. destruct (wq_maps _ _ F) as (M & _). auto 8. Qed.
Lemma small_equal : forall l l', Forall2 wq l l' -> Forall (fun w => 0 <= h_fsize (w_hdr w)) l -> local_size l = 0 -> l = l'.
Proof.
  intros l l' F. unfold local_size, Zsum. induction F as [|a b l l' Q F IH]; intros P S; auto. inversion P as [|? ? P1 P2]; subst. cbn [map fold_right] in S.
  assert (0 <= fold_right Z.add 0 (map (fun w => h_fsize (w_hdr w)) l)) by (clear - P2; induction P2; cbn; lia). destruct Q as [->|[_ Q]]; [|lia]. f_equal. apply IH; auto. lia.
Qed.
Lemma zero_each : forall l, Forall (fun st => Forall (fun w => 0 <= h_fsize (w_hdr w)) (k_wreqs st)) l -> Zsum (map (fun st => local_size (unflushed st)) l) = 0 -> Forall (fun st => local_size (unflushed st) = 0) l.
Proof.
  intros l H. unfold Zsum. induction H as [|st l P H IH]; intros S; constructor; cbn [map fold_right] in S.
  - pose proof (sized_pending (mkg 0 [] l (fun _ => 0) [] 0 false) H) as A. unfold pending_bytes, Zsum in A. cbn [g_ranks] in A. pose proof (sized_pending (mkg 0 [] [st] (fun _ => 0) [] 0 false) ltac:(unfold sized; cbn; auto)) as B. unfold pending_bytes, Zsum in B. cbn in B. lia.
  - apply IH. pose proof (sized_pending (mkg 0 [] l (fun _ => 0) [] 0 false) H) as A. unfold pending_bytes, Zsum in A. cbn [g_ranks] in A. pose proof (sized_pending (mkg 0 [] [st] (fun _ => 0) [] 0 false) ltac:(unfold sized; cbn; auto)) as B. unfold pending_bytes, Zsum in B. cbn in B. lia.
Qed.
Lemma nowhere_gp : forall a b, gp a b -> sized a -> gq (flush_nowhere a) (flush_nowhere b).
Proof.
  intros a b G Sz. destruct (rp_pending _ _ G) as [_ P]. destruct G as (E1 & E2 & E3 & E4 & E5 & E6 & R). unfold gq, flush_nowhere, flush_writes. rewrite <- P. destruct (Z.eqb_spec (Zsum (map (fun st => local_size (unflushed st)) (g_ranks a))) 0) as [Z0|Z0];
    cbn [g_cfg g_infos g_ranks g_file g_mdsets g_nldset g_metadirty].
  - repeat (split; auto). pose proof (zero_each _ Sz Z0) as Ze. unfold sized in Sz. clear - R Sz Ze. induction R as [|p q l l' Q R IH]; cbn; constructor; inversion Sz; inversion Ze; subst; auto. apply rq_assign, rp_rq; auto.
    destruct Q as (F1 & _ & _ & _ & F). unfold unflushed in *. rewrite <- F1. destruct (Forall2_firstn _ _ (k_nflushed p) _ _ F) as [_ F2]. apply small_equal; auto. apply sized_parts in H1. apply H1.
  - repeat (split; auto). { congruence. }
    generalize (map (fun o => o + 0) (exscan 0 (map (fun st => local_size (unflushed st)) (g_ranks a)))). clear - R. induction R as [|p q l l' Q R IH]; intros [|z zs]; cbn; constructor; auto.
    destruct Q as (F1 & F2 & F3 & F4 & F). destruct (Forall2_firstn _ _ (k_nflushed p) _ _ F) as [G1 G2]. destruct (wq_maps _ _ G1) as (M1 & _). destruct (wq_maps _ _ G2) as (M2 & _). apply rq_rank_flushed; auto; unfold flushed, unflushed; congruence.
Qed.
Lemma none_gp : forall a b, gp a b -> any_pending a = false -> gq a b.
Proof.
  intros a b (E1 & E2 & E3 & E4 & E5 & E6 & R) P. unfold gq. repeat (split; auto). unfold any_pending in P. clear - R P. induction R as [|p q l l' Q R IH]; cbn in *; constructor; apply orb_false_iff in P; destruct P as [P1 P2]; auto.
  apply rp_rq; auto. apply negb_false_iff, Nat.eqb_eq in P1. unfold num_pending in P1. destruct Q as (F1 & _ & _ & _ & F). destruct (wq_maps _ _ F) as (_ & _ & L). unfold unflushed. rewrite !skipn_all2 by lia. reflexivity.
Qed.

Lemma lost_data : forall e cfg np f0 fs ws ws' rest os os1 os2 x, Forall2 other_data ws ws' ->
  frun e (fstart cfg np f0) (fs ++ map fine ws ++ LostData :: rest) = Ok (x, os ++ os1 ++ Some [] :: os2) -> length os = length fs -> length os1 = length ws ->
  exists x', frun e (fstart cfg np f0) (fs ++ map fine ws' ++ LostData :: rest) = Ok (x', os ++ os1 ++ Some [] :: os2).
Proof.
  intros e cfg np f0 fs ws ws' rest os os1 os2 x O H L1 L2. rewrite app_assoc in H. rewrite (app_assoc os) in H. apply frun_mid in H. 2:{ rewrite !app_length, map_length. congruence. }
  destruct H as (x1 & x2 & H1 & H2 & H3). pose proof (sized_frun _ _ _ _ _ H1 (fstart_sized _ _ _)) as Sz. apply frun_app in H1. destruct H1 as (x0 & o1 & o2 & A1 & A2 & A3 & A4).
  assert (Eo : o1 = os /\ o2 = os1).
  { clear - A3 A4 L1. assert (L : length o1 = length os) by congruence. clear A4 L1. revert o1 A3 L. induction os as [|a os IH]; intros [|b o1] A3 L; cbn in *; try discriminate; auto. injection A3 as -> A3. destruct (IH o1 A3 ltac:(lia)). subst; auto. }
  destruct Eo as [-> ->]. destruct (frun_xp _ _ _ _ _ _ _ (xp_refl x0) O A2) as (y1 & B1 & B2).
  assert (Q : exists y2, fstep e y1 LostData = Ok (y2, Some []) /\ xq x2 y2).
  { destruct x1 as [s dk dead], y1 as [t dk' dead']. destruct B2 as (X1 & X2 & X3 & G). cbn [x_disk x_dead x_sys] in *. subst dk' dead'. destruct (rp_pending _ _ G) as [P1 P2]. cbn [fstep x_sys x_disk x_dead] in *. rewrite <- P1.
    destruct (any_pending (s_g s)) eqn:P.
    - assert (N : nowhere_effects (s_g t) = nowhere_effects (s_g s)) by (unfold nowhere_effects; rewrite P2; destruct G as (_ & _ & _ & _ & -> & _); reflexivity). rewrite N. destruct (attempt _ _ _ _) as [dk' [k|]]; [discriminate|].
      injection H2 as <-. eexists. split; [reflexivity|]. pose proof (nowhere_gp _ _ G Sz) as N2. repeat split; auto; apply N2.
    - injection H2 as <-. eexists. split; [reflexivity|]. pose proof (none_gp _ _ G P) as N2. repeat split; auto; apply N2. }
  destruct Q as (y2 & C1 & C2). destruct (frun_xq _ _ _ _ _ _ C2 H3) as (y3 & D1 & _). exists y3.
  assert (App : forall gs hs u v w p q, frun e u gs = Ok (v, p) -> frun e v hs = Ok (w, q) -> frun e u (gs ++ hs) = Ok (w, p ++ q)).
  { clear. induction gs as [|g gs IH]; intros hs u v w p q A B; cbn [frun app] in *; [injection A as <- <-; auto|]. destruct (fstep e u g) as [[u1 r]| |]; cbn [bind fst snd] in *; try discriminate.
    destruct (frun e u1 gs) as [[u2 r2]| |] eqn:E; cbn [bind fst snd] in *; try discriminate. injection A as <- <-. rewrite (IH _ _ _ _ _ _ E B). reflexivity. }
  eapply App; [exact A1|]. eapply App; [exact B1|]. cbn [frun]. rewrite C1. cbn [bind fst snd]. rewrite D1. reflexivity.
Qed.

(** ** Success is reported *)
Lemma frun_cat : forall e gs hs u v w p q, frun e u gs = Ok (v, p) -> frun e v hs = Ok (w, q) -> frun e u (gs ++ hs) = Ok (w, p ++ q).
Proof.
  intros e. induction gs as [|g gs IH]; intros hs u v w p q A B; cbn [frun app] in *; [injection A as <- <-; auto|]. destruct (fstep e u g) as [[u1 r]| |]; cbn [bind fst snd] in *; try discriminate.
  destruct (frun e u1 gs) as [[u2 r2]| |] eqn:E; cbn [bind fst snd] in *; try discriminate. injection A as <- <-. rewrite (IH _ _ _ _ _ _ E B). reflexivity.
Qed.
Lemma lost_success : forall e cfg np f0 ops s outs f, run e (init cfg np f0) ops = Ok (s, outs) -> f = LostData \/ (exists doff np2, f = LostMeta doff np2) ->
  exists x, frun e (fstart cfg np f0) (map fine ops ++ [f]) = Ok (x, map Some outs ++ [Some []]).
Proof.
  intros e cfg np f0 ops s outs f R F. destruct (fine_start _ _ _ f0 _ _ _ R) as (dk & F1 & _ & Y).
  assert (Q : exists x, fstep e (mkfs s dk false) f = Ok (x, Some [])).
  { destruct F as [->|(doff & np2 & ->)]; cbn [fstep x_sys x_disk x_dead].
    - destruct (any_pending _); [|eauto]. unfold nowhere_effects. destruct (_ =? 0); cbn [attempt]; [eauto|]. cbn [apply]. rewrite (y_logs _ _ Y), zseq_fresh by (pose proof (y_n _ _ Y); lia). cbn [attempt]. eauto.
    - destruct (flush_synced doff _ _ Y) as (dk1 & A1 & Y1 & _). rewrite apply_app, A1. cbn [bind]. rewrite apply_app. set (g1 := flush_writes doff (s_g s)) in *.
      assert (M : exists dk2 g2, apply_all dk1 (meta_nowhere_effects g1) = Ok dk2 /\ synced g2 dk2 /\ Zlen (g_infos g2) = Zlen (g_infos (metaflush g1)) /\ g_nldset g2 = g_nldset (metaflush g1) /\ Zlen (g_mdsets g2) = Zlen (g_mdsets (metaflush g1)) /\ g_cfg g2 = g_cfg (metaflush g1)).
      { unfold meta_nowhere_effects. unfold metaflush. cbn [g_infos g_nldset g_mdsets g_cfg]. destruct (_ <? _).
        - destruct (y_mds _ _ Y1) as (ms & M1 & M2). assert (L : Zlen (g_mdsets g1) = Zlen ms) by (rewrite <- M2; unfold Zlen; rewrite map_length; reflexivity).
          cbn [apply_all apply]. rewrite L, M1, find_next. cbn [bind]. eexists. set (sz := Zsum _). exists (mkg (g_cfg g1) (g_infos g1) [] (g_file g1) (g_mdsets g1 ++ [md_of (sz, fun _ => 0)]) (g_nldset g1) false). split; [reflexivity|].
          cbn [g_infos g_nldset g_mdsets g_cfg]. destruct Y1 as [Y1 Y2 Y3 Y4 Y5]. split; [|repeat split; unfold Zlen; rewrite !app_length; reflexivity]. constructor; cbn [dk_file dk_sets dk_logs dk_mds g_file g_nldset g_mdsets g_cfg g_infos]; auto.
          exists (ms ++ [(sz, fun _ => 0)]). rewrite number_snoc, map_app, M2. auto.
        - exists dk1, g1. repeat split; auto; apply Y1. }
      destruct M as (dk2 & g2 & M1 & M2 & M3 & M4 & M5 & M6). rewrite M1. cbn [bind apply_all apply].
      assert (S2 : synced g2 (mkdk (dk_file dk2) (dk_sets dk2) (dk_logs dk2) (dk_mds dk2) (mkatt (Zlen (g_infos (metaflush g1))) (g_nldset (metaflush g1)) (Zlen (g_mdsets (metaflush g1))) (g_cfg (metaflush g1))))) by (destruct M2 as [Z1 Z2 Z3 Z4 Z5]; constructor; auto).
      rewrite (recover_synced np2 g2 _ S2) by (cbn [dk_att]; rewrite M3, M4, M5, M6; reflexivity). cbn [bind]. eauto. }
  destruct Q as (x & Q). exists x. eapply frun_cat; [exact F1|]. cbn [frun]. rewrite Q. reflexivity.
Qed.
