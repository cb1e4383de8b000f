(** What P_Load states. *)
From Verif Require Import Base LoadModel LoadSpec LoadProofs.
From Coq Require Import ZifyNat ZifyN.

(** ** The optional operations *)
Ltac ld := try solve [congruence | intros X; elim X; congruence | intros _ X; elim X; congruence | intros X; elim X; discriminate | let X := fresh in intros X; exfalso; apply X; reflexivity | let X := fresh in intros X; exfalso; congruence].
Definition opsinv (w : world) : Prop := 1024 <= w_nextop w /\
  (loaded w -> w_flag w = true /\ w_ops w = [(ReadN, w_rn w); (WriteN, w_wn w)] /\ 1024 <= w_wn w /\ w_wn w < w_rn w) /\ (~ loaded w -> w_flag w = false /\ w_ops w = []).
Lemma register_ops : forall w w1 a, opsinv w -> hdf_register w false false = (w1, a) -> opsinv w1 /\ loaded w1 /\ (exists id, a = AId id /\ live w1 id = true).
Proof.
  intros w w1 a (A & B & C) H. unfold hdf_register in H. unfold loaded in *. destruct (w_conn w) as [[id n]|] eqn:E.
  - injection H as <- <-. split; [|split; [cbn; discriminate|exists id; unfold live; cbn; rewrite Z.eqb_refl; auto]]. split; [exact A|]. split; unfold loaded; cbn; [intros _; apply B; discriminate|ld].
  - destruct C as [C1 C2]; [congruence|]. destruct (conn_init w false false) as [w2 ok] eqn:IE. destruct (init_ops _ _ _ C1 C2 IE) as (-> & I2 & I3 & I4 & I5 & I6). injection H as <- <-.
    split; [|split; [cbn; discriminate|eexists; split; [reflexivity|]; unfold live; cbn; apply Z.eqb_refl]]. split; [cbn; lia|]. split; unfold loaded; cbn; [|ld].
    intros _. rewrite I2, I3, I4, I6. repeat split; lia.
Qed.
Lemma drop_ops : forall w id k f, opsinv w -> drop_ref w id k f = BadMpi \/ (exists w1, opsinv w1 /\ drop_ref w id k f = k w1) \/ drop_ref w id k f = f.
Proof.
  intros w id k f (A & B & C). unfold drop_ref. unfold loaded in *. destruct (w_conn w) as [[i n]|] eqn:E; auto. destruct (i =? id); auto. destruct B as (B1 & B2 & B3); [discriminate|]. destruct (n =? 1).
  - pose proof (term_ops w _ _ B1 B2) as T. pose proof (term_mpi w) as TM. destruct (conn_term w) as [w1|]; auto. right. left. eexists. split; [|reflexivity]. destruct TM as (_ & TN & _). split; [cbn; lia|]. split; unfold loaded; cbn; [ld|auto].
  - right. left. eexists. split; [|reflexivity]. split; [exact A|]. split; unfold loaded; cbn; [auto|ld].
Qed.
Lemma exec_ops : forall w c w1 a, opsinv w -> no_fault c = true -> exec w c = Done w1 a -> opsinv w1.
Proof.
  intros w c w1 a O N H. destruct c as [| |f1 f2|f1 f2|id|p id|p|p| | |]; cbn [exec] in H; cbn [no_fault] in N.
  - destruct (w_mpi w); try discriminate. injection H as <- _. exact O.
  - destruct (w_mpi w); try discriminate. injection H as <- _. exact O.
  - destruct (w_g w); [injection H as <- _; exact O|]. destruct f1, f2; try discriminate. destruct (hdf_register w false false) as [w2 a2] eqn:E. injection H as <- _. apply (register_ops _ _ _ O E).
  - destruct f1, f2; try discriminate. destruct (hdf_register w false false) as [w2 a2] eqn:E. injection H as <- _. apply (register_ops _ _ _ O E).
  - destruct (drop_ops w id (fun w1 => Done w1 AOk) (Done w AFail) O) as [D|[(w2 & O2 & D)|D]]; rewrite D in H; [discriminate| |]; injection H as <- _; auto.
  - destruct (held w p); [injection H as <- _; exact O|]. destruct O as (A & B & C). unfold loaded in *. destruct (w_conn w) as [[i n]|] eqn:E; [|injection H as <- _; split; [exact A|]; split; unfold loaded; [rewrite E; ld|auto]].
    destruct (i =? id); injection H as <- _; (split; [exact A|]); split; unfold loaded; cbn; rewrite ?E; ld; intros _; apply B; discriminate.
  - destruct (held w p) as [id|]; [|injection H as <- _; exact O]. set (w0 := set_fapls _ _) in H. assert (O0 : opsinv w0) by exact O.
    destruct (drop_ops w0 id (fun w1 => Done w1 AOk) (Done w0 AFail) O0) as [D|[(w2 & O2 & D)|D]]; rewrite D in H; [discriminate| |]; injection H as <- _; auto.
  - destruct (held w p) as [id|]; [|injection H as <- _; exact O]. destruct (live w id); [|injection H as <- _; exact O]. destruct (w_mpi w); try discriminate. injection H as <- _. exact O.
  - injection H as <- _. exact O.
  - injection H as <- _. exact O.
  - destruct O as (A & B & C). unfold loaded in *. destruct (w_conn w) as [[i n]|] eqn:E; [|injection H as <- _; split; [exact A|]; split; unfold loaded; [rewrite E; ld|auto]].
    destruct B as (B1 & B2 & B3); [discriminate|]. pose proof (term_ops w _ _ B1 B2) as T. pose proof (term_mpi w) as TM. destruct (conn_term w) as [w2|]; [|discriminate]. injection H as <- _. destruct TM as (_ & TN & _).
    split; [cbn; lia|]. split; unfold loaded; cbn; [ld|auto].
Qed.
Lemma opsinv0 : opsinv world0.
Proof. split; [cbn; lia|]. split; unfold loaded; cbn; [ld|auto]. Qed.

Theorem operations_while_loaded : forall cs w, forallb no_fault cs = true -> ends_in cs w ->
  (loaded w -> exists vw vr, exec w CWriteN = Done w (AOp vw) /\ exec w CReadN = Done w (AOp vr) /\
     In (WriteN, vw) (w_ops w) /\ In (ReadN, vr) (w_ops w) /\ vw <> vr /\ length (w_ops w) = 2%nat) /\
  (~ loaded w -> w_ops w = []).
Proof.
  intros cs w N (a & ans & E). pose proof (execs_inv opsinv no_fault exec_ops cs world0 w a ans opsinv0 N E) as (A & B & C). split.
  - intros L. exists (w_wn w), (w_rn w). split; [reflexivity|]. split; [reflexivity|]. destruct (B L) as (_ & -> & _ & B3). cbn. repeat split; auto. lia.
  - intros L. apply C. auto.
Qed.

(** ** MPI initialised by the connector *)
Definition owned (w : world) : Prop := (w_mpi w = MNone -> ~ loaded w) /\ (w_mpi w = MOn -> loaded w /\ w_inited w = false) /\ (w_mpi w = MOff -> loaded w -> w_inited w = true).
Definition next_mpi (m : mpi) (l : bool) : mpi := if l then match m with MNone => MOn | m => m end else match m with MOn => MOff | m => m end.
Lemma register_owned : forall w w1 a, owned w -> opsinv w -> hdf_register w false false = (w1, a) -> owned w1 /\ w_mpi w1 = next_mpi (w_mpi w) true /\ is_loaded w1 = true.
Proof.
  intros w w1 a (A & B & C) (_ & _ & O) H. unfold hdf_register in H. unfold loaded in *. destruct (w_conn w) as [[id n]|] eqn:E.
  - injection H as <- _. unfold owned, loaded, is_loaded. cbn. destruct (w_mpi w) eqn:M; cbn.
    + elim (A eq_refl). discriminate.
    + repeat split; try congruence. apply B. reflexivity.
    + repeat split; try congruence. intros _ _. apply C; auto. discriminate.
  - destruct O as [C1 C2]; [congruence|]. destruct (conn_init w false false) as [w2 ok] eqn:IE. destruct (init_ops _ _ _ C1 C2 IE) as (-> & _). destruct (init_mpi _ _ _ _ _ IE) as (_ & I2 & I3). injection H as <- _.
    unfold owned, loaded, is_loaded. cbn. rewrite I2, I3. destruct (w_mpi w) eqn:M; cbn; repeat split; try congruence. destruct (B eq_refl). congruence.
Qed.
Lemma term_owned : forall w, owned w -> opsinv w -> loaded w -> exists w1, conn_term w = Some w1 /\ w_mpi w1 = next_mpi (w_mpi w) false /\ w_mpi w1 = MOff.
Proof.
  intros w (A & B & C) (_ & O & _) L. unfold conn_term. destruct (O L) as (O1 & O2 & _). rewrite O1. unfold unreg_op. rewrite O2. cbn. destruct (w_mpi w) eqn:M.
  - elim (A eq_refl L).
  - destruct (B eq_refl) as [_ ->]. cbn. rewrite ?M. cbn. eauto.
  - rewrite (C eq_refl L). cbn. rewrite ?M. eauto.
Qed.
Lemma drop_owned : forall w id k f, owned w -> opsinv w -> (exists w1, owned w1 /\ w_mpi w1 = next_mpi (w_mpi w) (is_loaded w1) /\ drop_ref w id k f = k w1) \/ drop_ref w id k f = f.
Proof.
  intros w id k f W O. unfold drop_ref. destruct (w_conn w) as [[i n]|] eqn:E; auto. destruct (i =? id); auto. left. assert (L : loaded w) by (unfold loaded; congruence). destruct (n =? 1).
  - destruct (term_owned w W O L) as (w1 & -> & T1 & T2). eexists. split; [|split; [|reflexivity]]; [|cbn; exact T1]. split; cbn; [congruence|]. split; [congruence|]. intros _ X. elim X. reflexivity.
  - eexists. split; [|split; [|reflexivity]].
    + destruct W as (A & B & C). split; [|split]; unfold loaded; cbn; intros X; [elim (A X L)|split; [discriminate|apply B; auto]|intros _; apply C; auto].
    + cbn. destruct W as (A & _). destruct (w_mpi w); cbn; auto. elim (A eq_refl L).
Qed.
Lemma keep_owned : forall w, owned w -> w_mpi w = next_mpi (w_mpi w) (is_loaded w).
Proof. intros w (A & B & C). unfold next_mpi, is_loaded, loaded in *. destruct (w_conn w); destruct (w_mpi w) eqn:M; auto; [elim (A eq_refl); discriminate|destruct (B eq_refl) as [X _]; elim X; auto]. Qed.
Lemma exec_owned : forall w c, owned w -> opsinv w -> no_fault c = true -> mpi_call c = false ->
  (exists w1 a, exec w c = Done w1 a /\ owned w1 /\ w_mpi w1 = next_mpi (w_mpi w) (is_loaded w1)) \/ (file_call c = true /\ w_mpi w = MOff /\ exec w c = BadMpi).
Proof.
  intros w c W O N M. pose proof (keep_owned w W) as K. destruct c as [| |f1 f2|f1 f2|id|p id|p|p| | |]; try discriminate M; cbn [exec]; cbn [no_fault] in N.
  - left. destruct (w_g w); [eauto 6|]. destruct f1, f2; try discriminate. destruct (hdf_register w false false) as [w2 a2] eqn:E. destruct (register_owned _ _ _ W O E) as (R1 & R2 & R3). do 2 eexists. split; [reflexivity|]. split; [exact R1|]. change (is_loaded (set_g w2 _)) with (is_loaded w2). rewrite R3. exact R2.
  - left. destruct f1, f2; try discriminate. destruct (hdf_register w false false) as [w2 a2] eqn:E. destruct (register_owned _ _ _ W O E) as (R1 & R2 & R3). do 2 eexists. split; [reflexivity|]. split; [exact R1|]. rewrite R3. exact R2.
  - left. destruct (drop_owned w id (fun w1 => Done w1 AOk) (Done w AFail) W O) as [(w1 & A & B & ->)| ->]; eauto 6.
  - left. destruct (held w p); [eauto 6|]. destruct (w_conn w) as [[i n]|] eqn:E; [|eauto 6]. destruct (i =? id); [|eauto 6]. assert (L : loaded w) by (unfold loaded; congruence).
    do 2 eexists. split; [reflexivity|]. split.
    + destruct W as (A & B & C). split; [|split]; unfold loaded; cbn; intros X; [elim (A X L)|split; [discriminate|apply B; auto]|intros _; apply C; auto].
    + unfold is_loaded in K. rewrite E in K. exact K.
  - left. destruct (held w p) as [id|]; [|eauto 6]. set (w0 := set_fapls _ _). assert (W0 : owned w0) by exact W. assert (O0 : opsinv w0) by exact O.
    destruct (drop_owned w0 id (fun w1 => Done w1 AOk) (Done w0 AFail) W0 O0) as [(w1 & A & B & ->)| ->]; eauto 6.
  - destruct (held w p) as [id|]; [|left; eauto 6]. unfold live. destruct (w_conn w) as [[i n]|] eqn:E; [|left; eauto 6]. destruct (i =? id); [|left; eauto 6].
    destruct (w_mpi w) eqn:Q; [|left; do 2 eexists; split; [reflexivity|split; [exact W|congruence]]|right; auto]. destruct W as (A & _). elim (A Q). unfold loaded. congruence.
  - left. eauto 6.
  - left. eauto 6.
  - left. destruct (w_conn w) as [[i n]|] eqn:E; [|eauto 6]. assert (L : loaded w) by (unfold loaded; congruence). destruct (term_owned w W O L) as (w1 & -> & T1 & T2).
    do 2 eexists. split; [reflexivity|]. split; [|exact T1]. split; cbn; [congruence|]. split; [congruence|]. intros _ X. elim X. reflexivity.
Qed.
Lemma owned0 : owned world0.
Proof. unfold owned, loaded. cbn. repeat split; congruence. Qed.
Lemma trace_step : forall l m b, mpi_expected m (b :: l) = mpi_expected (next_mpi m b) l.
Proof. intros l m []; reflexivity. Qed.
Lemma owned_trace : forall cs w w1 a ans, owned w -> opsinv w -> forallb no_fault cs = true -> forallb (fun c => negb (mpi_call c)) cs = true -> execs w cs = (Done w1 a, ans) ->
  owned w1 /\ opsinv w1 /\ w_mpi w1 = mpi_expected (w_mpi w) (load_trace w cs).
Proof.
  induction cs as [|c cs IH]; intros w w1 a ans W O N M E; cbn [execs load_trace forallb] in *; rewrite trace_step, <- (keep_owned w W).
  - injection E as <- _ _. auto.
  - apply andb_true_iff in N, M. destruct N as [N1 N2], M as [M1 M2]. destruct (exec_owned w c W O N1) as [(w2 & a2 & E2 & W2 & K2)|(X & Y & Z0)]; [destruct (mpi_call c); [discriminate|reflexivity]| |rewrite Z0 in E; discriminate].
    pose proof (exec_ops _ _ _ _ O N1 E2) as O2. rewrite E2 in E |- *. destruct (execs w2 cs) as [o l] eqn:E3. injection E as -> _. destruct (IH w2 w1 a l W2 O2 N2 M2 E3) as (I1 & I2 & I3). split; auto. split; auto.
    rewrite I3. destruct cs; cbn [load_trace]; rewrite !trace_step, <- K2, <- (keep_owned w2 W2); reflexivity.
Qed.

Theorem mpi_of_connector : forall cs, forallb no_fault cs = true -> forallb (fun c => negb (mpi_call c)) cs = true ->
  (forall w, ends_in cs w -> w_mpi w = mpi_expected MNone (load_trace world0 cs) /\ (loaded w -> w_mpi w <> MNone)) /\
  (forall w c, ends_in cs w -> no_fault c = true -> mpi_call c = false -> exec w c = BadMpi -> file_call c = true /\ mpi_expected MNone (load_trace world0 cs) = MOff).
Proof.
  intros cs N M. split.
  - intros w (a & ans & E). destruct (owned_trace cs world0 w a ans owned0 opsinv0 N M E) as (I1 & I2 & I3). split; [exact I3|]. intros L X. destruct I1 as (I1 & _). apply (I1 X L).
  - intros w c (a & ans & E) N1 M1 B. destruct (owned_trace cs world0 w a ans owned0 opsinv0 N M E) as (I1 & I2 & I3). destruct (exec_owned w c I1 I2 N1 M1) as [(w1 & a1 & X & _)|(X & Y & _)]; [congruence|]. split; auto. cbn in I3. congruence.
Qed.
