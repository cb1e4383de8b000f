(** Lemmas behind P_Load. *)
From Verif Require Import Base LoadModel LoadSpec.
From Coq Require Import ZifyNat ZifyN.

Lemma execs_app : forall a b w, execs w (a ++ b) =
  match execs w a with
  | (Done w1 _, l) => let '(o, l') := execs w1 b in (o, l ++ l')
  | (o, l) => (o, l)
  end.
Proof.
  induction a as [|c a IH]; intros b w; cbn [app execs]; [destruct (execs w b); reflexivity|].
  destruct (exec w c) as [w1 an| |]; auto. rewrite IH. destruct (execs w1 a) as [[w2 ?| |] l]; auto. destruct (execs w2 b). reflexivity.
Qed.

(** An invariant of single calls is one of programs. *)
Lemma execs_inv : forall (I : world -> Prop) (P : call -> bool), (forall w c w1 a, I w -> P c = true -> exec w c = Done w1 a -> I w1) ->
  forall cs w w1 a ans, I w -> forallb P cs = true -> execs w cs = (Done w1 a, ans) -> I w1.
Proof.
  intros I P H. induction cs as [|c cs IH]; intros w w1 a ans Hw HP HE; cbn [execs] in HE; [injection HE as <- <- <-; auto|].
  cbn [forallb] in HP. apply andb_true_iff in HP. destruct HP as [P1 P2]. destruct (exec w c) as [w2 a2| |] eqn:E; try discriminate.
  destruct (execs w2 cs) as [o l] eqn:E2. injection HE as -> <-. apply (IH w2 w1 a l (H _ _ _ _ Hw P1 E) P2 E2).
Qed.

(** What one call does, field by field. *)
Lemma reg_op_fields : forall w n f w1 v, reg_op w n f = Some (w1, v) -> w_mpi w1 = w_mpi w /\ w_inited w1 = w_inited w /\ w_flag w1 = w_flag w /\ w_ops w1 = (n, v) :: w_ops w /\ v = w_nextop w /\ w_nextop w1 = v + 1 /\
  w_wn w1 = w_wn w /\ w_rn w1 = w_rn w /\ w_g w1 = w_g w /\ w_conn w1 = w_conn w /\ w_nextid w1 = w_nextid w /\ w_fapls w1 = w_fapls w.
Proof. intros w n f w1 v H. unfold reg_op in H. destruct (f || _); [discriminate|]. injection H as <- <-. cbn. repeat split. Qed.

Ltac cases H := repeat match type of H with
  | context [match ?x with _ => _ end] => destruct x eqn:?; try discriminate
  end.

Definition rest_same (w w1 : world) : Prop := w_g w1 = w_g w /\ w_conn w1 = w_conn w /\ w_nextid w1 = w_nextid w /\ w_fapls w1 = w_fapls w.

Lemma init_mpi : forall w f1 f2 w1 ok, conn_init w f1 f2 = (w1, ok) -> rest_same w w1 /\ w_inited w1 = mpi_initialized (w_mpi w) /\
  w_mpi w1 = match w_mpi w with MNone => MOn | m => m end.
Proof.
  intros w f1 f2 w1 ok H. unfold conn_init in H.
  set (w2 := if mpi_initialized (w_mpi w) then set_inited w (mpi_initialized (w_mpi w)) else set_mpi (set_inited w (mpi_initialized (w_mpi w))) MOn) in H.
  assert (W : rest_same w w2 /\ w_inited w2 = mpi_initialized (w_mpi w) /\ w_mpi w2 = match w_mpi w with MNone => MOn | m => m end).
  { unfold w2, rest_same. destruct (w_mpi w) eqn:E; cbn; rewrite ?E; auto 10. }
  clearbody w2. destruct W as (W1 & W2 & W3). unfold rest_same in *. destruct (w_flag w2); [injection H as <- _; auto|].
  destruct (reg_op w2 WriteN f1) as [[w3 v]|] eqn:R1; [|injection H as <- _; auto]. apply reg_op_fields in R1.
  destruct (reg_op (set_vals w3 v (w_rn w3)) ReadN f2) as [[w5 v']|] eqn:R2.
  - apply reg_op_fields in R2. injection H as <- _. cbn in *. intuition congruence.
  - injection H as <- _. cbn in *. intuition congruence.
Qed.
Lemma init_ops : forall w w1 ok, w_flag w = false -> w_ops w = [] -> conn_init w false false = (w1, ok) -> ok = true /\ w_flag w1 = true /\ w_wn w1 = w_nextop w /\ w_rn w1 = w_nextop w + 1 /\ w_nextop w1 = w_nextop w + 2 /\
  w_ops w1 = [(ReadN, w_nextop w + 1); (WriteN, w_nextop w)].
Proof.
  intros w w1 ok F O H. unfold conn_init in H.
  set (w2 := if mpi_initialized (w_mpi w) then set_inited w (mpi_initialized (w_mpi w)) else set_mpi (set_inited w (mpi_initialized (w_mpi w))) MOn) in H.
  assert (W : w_flag w2 = w_flag w /\ w_ops w2 = w_ops w /\ w_nextop w2 = w_nextop w) by (unfold w2; destruct (w_mpi w); cbn; auto).
  clearbody w2. destruct W as (W1 & W2 & W3). rewrite W1, F in H. unfold reg_op in H. rewrite W2, O in H. cbn in H. rewrite W3 in H. injection H as <- <-. cbn. repeat split; try lia.
Qed.
Lemma unreg_fields : forall w n w1, unreg_op w n = Some w1 -> w_mpi w1 = w_mpi w /\ w_inited w1 = w_inited w /\ w_flag w1 = w_flag w /\ w_nextop w1 = w_nextop w /\ rest_same w w1 /\ w_wn w1 = w_wn w /\ w_rn w1 = w_rn w.
Proof. intros w n w1 H. unfold unreg_op in H. destruct (existsb _ _); [|discriminate]. injection H as <-. unfold rest_same. cbn. repeat split. Qed.
Lemma term_mpi : forall w, match conn_term w with
  | Some w1 => rest_same w w1 /\ w_nextop w1 = w_nextop w /\ w_wn w1 = w_wn w /\ w_rn w1 = w_rn w /\ (w_inited w = true -> w_inited w1 = true /\ w_mpi w1 = w_mpi w) /\ (w_mpi w1 = w_mpi w \/ w_mpi w = MOn /\ w_mpi w1 = MOff)
  | None => w_inited w = false
  end.
Proof.
  intros w. unfold conn_term.
  set (u := if w_flag w then match unreg_op w WriteN with None => (w, false) | Some w1 => match unreg_op w1 ReadN with None => (w1, false) | Some w2 => (set_flag w2 false, true) end end else (w, true)).
  assert (U : rest_same w (fst u) /\ w_nextop (fst u) = w_nextop w /\ w_wn (fst u) = w_wn w /\ w_rn (fst u) = w_rn w /\ w_inited (fst u) = w_inited w /\ w_mpi (fst u) = w_mpi w).
  { unfold u. destruct (w_flag w); [|unfold rest_same; cbn; auto 10]. destruct (unreg_op w WriteN) as [w1|] eqn:R1; [|unfold rest_same; cbn; auto 10]. apply unreg_fields in R1. unfold rest_same in *.
    destruct (unreg_op w1 ReadN) as [w2|] eqn:R2; [apply unreg_fields in R2; unfold rest_same in *|]; cbn; intuition congruence. }
  clearbody u. destruct u as [w3 ok]. cbn [fst] in U. destruct U as (U1 & U2 & U3 & U4 & U5 & U6). unfold rest_same in *.
  destruct ok; cbn [negb orb]; [|intuition congruence]. destruct (w_inited w3) eqn:E; [intuition congruence|].
  cbn. rewrite U6. destruct (w_mpi w); cbn; try (intuition congruence).
Qed.
Lemma term_ops : forall w a b, w_flag w = true -> w_ops w = [(ReadN, a); (WriteN, b)] -> match conn_term w with Some w1 => w_flag w1 = false /\ w_ops w1 = [] | None => True end.
Proof.
  intros w a b F O. unfold conn_term. rewrite F. unfold unreg_op. rewrite O. cbn. destruct (w_inited w); cbn; auto. destruct (w_mpi w); cbn; auto.
Qed.

(** ** MPI initialised by the program *)
Definition started (w : world) : Prop := w_mpi w <> MNone /\ (loaded w -> w_inited w = true).
Lemma init_started : forall w f1 f2 w1 a, started w -> hdf_register w f1 f2 = (w1, a) -> started w1 /\ w_mpi w1 = w_mpi w.
Proof.
  intros w f1 f2 w1 a [A B] H. unfold hdf_register in H. unfold loaded in B. destruct (w_conn w) as [[id n]|] eqn:C.
  - injection H as <- _. split; [|reflexivity]. split; cbn; auto. intros _. apply B. discriminate.
  - destruct (conn_init w f1 f2) as [w2 ok] eqn:E. apply init_mpi in E. destruct E as ((_ & E1 & _) & E2 & E3).
    assert (M : w_mpi w2 = w_mpi w) by (rewrite E3; destruct (w_mpi w); congruence).
    assert (IN : w_inited w2 = true) by (rewrite E2; destruct (w_mpi w); cbn; congruence).
    destruct ok; injection H as <- _; (split; [split|]); cbn; try congruence.
Qed.
Lemma drop_started : forall w id k f, started w -> (exists w1, started w1 /\ w_mpi w1 = w_mpi w /\ drop_ref w id k f = k w1) \/ drop_ref w id k f = f.
Proof.
  intros w id k f [A B]. unfold drop_ref. unfold loaded in B. destruct (w_conn w) as [[i n]|] eqn:C; auto. destruct (i =? id); auto. left. destruct (n =? 1).
  - pose proof (term_mpi w) as T. assert (I0 : w_inited w = true) by (apply B; discriminate). destruct (conn_term w) as [w1|]; [|congruence].
    destruct T as (_ & _ & _ & _ & T & _). destruct (T I0) as [T1 T2]. eexists. split; [|split; [|reflexivity]]; [split; cbn; [congruence|intros _; exact T1]|exact T2].
  - eexists. split; [|split; [|reflexivity]]; [split; cbn; auto; intros _; apply B; discriminate|reflexivity].
Qed.
Lemma exec_started : forall w c, started w -> mpi_call c = false ->
  (exists w1 a, exec w c = Done w1 a /\ started w1 /\ w_mpi w1 = w_mpi w) \/ (file_call c = true /\ w_mpi w = MOff).
Proof.
  intros w c S0 M. destruct c as [| |f1 f2|f1 f2|id|p id|p|p| | |]; try discriminate M; cbn [exec].
  - left. destruct (w_g w); [eauto 6|]. destruct (hdf_register w f1 f2) as [w1 a] eqn:E. destruct (init_started _ _ _ _ _ S0 E) as [[A B] C]. do 2 eexists. split; [reflexivity|]. split; auto. split; auto.
  - left. destruct (hdf_register w f1 f2) as [w1 a] eqn:E. destruct (init_started _ _ _ _ _ S0 E). eauto 6.
  - left. destruct (drop_started w id (fun w1 => Done w1 AOk) (Done w AFail) S0) as [(w1 & A & B & ->)| ->]; eauto 6.
  - left. destruct (held w p); [eauto 6|]. destruct S0 as [A B]. unfold loaded in B. destruct (w_conn w) as [[i n]|] eqn:C; [|do 2 eexists; split; [reflexivity|]; split; auto; split; auto; unfold loaded; congruence].
    destruct (i =? id); do 2 eexists; (split; [reflexivity|]); (split; [|reflexivity]); split; cbn; auto; intros _; apply B; discriminate.
  - left. destruct (held w p) as [id|]; [|eauto 6]. set (w0 := set_fapls _ _). assert (S1 : started w0) by (destruct S0; split; auto).
    destruct (drop_started w0 id (fun w1 => Done w1 AOk) (Done w0 AFail) S1) as [(w1 & A & B & ->)| ->]; eauto 6.
  - destruct (held w p) as [id|]; [|left; eauto 6]. destruct (live w id); [|left; eauto 6]. destruct (w_mpi w) eqn:E; [destruct S0; congruence|left; eauto 6|right; auto].
  - left. eauto 6.
  - left. eauto 6.
  - left. destruct S0 as [A B]. unfold loaded in B. destruct (w_conn w) as [[i n]|] eqn:C; [|do 2 eexists; split; [reflexivity|]; split; auto; split; auto; unfold loaded; congruence].
    pose proof (term_mpi w) as T. assert (I0 : w_inited w = true) by (apply B; discriminate). destruct (conn_term w) as [w1|]; [|congruence].
    destruct T as (_ & _ & _ & _ & T & _). destruct (T I0) as [T1 T2]. do 2 eexists. split; [reflexivity|]. split; [split; cbn; [congruence|auto]|exact T2].
Qed.
Lemma execs_started : forall cs w, started w -> forallb (fun c => negb (mpi_call c)) cs = true -> (w_mpi w = MOff -> forallb (fun c => negb (file_call c)) cs = true) ->
  exists w1 a ans, execs w cs = (Done w1 a, ans) /\ started w1 /\ w_mpi w1 = w_mpi w.
Proof.
  induction cs as [|c cs IH]; intros w S0 M F; cbn [execs forallb] in *; [eauto 8|]. apply andb_true_iff in M. destruct M as [M1 M2].
  destruct (exec_started w c S0) as [(w1 & a & E & S1 & EM)|[X Y]].
  - destruct (mpi_call c); [discriminate|reflexivity].
  - rewrite E. destruct (IH w1 S1 M2) as (w2 & a2 & ans & -> & S2 & EM2); [|do 3 eexists; split; [reflexivity|split; auto; congruence]].
    intros Q. rewrite EM in Q. specialize (F Q). apply andb_true_iff in F. tauto.
  - specialize (F Y). rewrite X in F. discriminate.
Qed.

Theorem mpi_of_program : forall cs cs', forallb (fun c => negb (mpi_call c)) cs = true -> forallb (fun c => negb (mpi_call c)) cs' = true -> forallb (fun c => negb (file_call c)) cs' = true ->
  (exists w, ends_in (CMpiInit :: cs) w /\ w_mpi w = MOn) /\ (exists w, ends_in (CMpiInit :: cs ++ CMpiFinalize :: cs') w /\ w_mpi w = MOff).
Proof.
  intros cs cs' M M' F'. assert (S0 : started (set_mpi world0 MOn)) by (split; cbn; [discriminate|intros X; elim X; reflexivity]).
  destruct (execs_started cs _ S0 M) as (w1 & a1 & ans1 & E1 & S1 & M1); [discriminate|]. cbn in M1. split.
  - exists w1. split; auto. unfold ends_in. cbn [execs exec world0 w_mpi]. change (mkw MOn false false [] 1024 0 0 None None 1 []) with (set_mpi world0 MOn) in *. rewrite E1. eauto.
  - assert (S2 : started (set_mpi w1 MOff)) by (destruct S1 as [_ S1]; split; cbn; [discriminate|exact S1]).
    destruct (execs_started cs' _ S2 M') as (w2 & a2 & ans2 & E2 & _ & M2); auto. cbn in M2. exists w2. split; auto. unfold ends_in.
    cbn [execs exec world0 w_mpi]. change (mkw MOn false false [] 1024 0 0 None None 1 []) with (set_mpi world0 MOn). rewrite execs_app, E1. cbn [execs exec]. rewrite M1, E2. eauto.
Qed.
