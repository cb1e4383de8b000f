(** References to the connector, and what goes wrong. *)
From Verif Require Import Base LoadModel LoadSpec LoadProofs LoadClaims.
From Coq Require Import ZifyNat ZifyN.

(** ** Programs that count their references *)
Record counted (n : Z) (id : option Z) (lists : list Z) (w : world) : Prop := {
  ct_n : 0 <= n; ct_nodup : NoDup lists; ct_mpi : w_mpi w = MOn; ct_st : started w; ct_ops : opsinv w;
  ct_none : n + Z.of_nat (length lists) = 0 -> w_conn w = None;
  ct_some : 0 < n + Z.of_nat (length lists) -> exists i, w_conn w = Some (i, n + Z.of_nat (length lists)) /\ id = Some i /\ w_fapls w = map (fun p => (p, i)) lists;
  ct_nil : lists = [] -> w_fapls w = [] }.
Lemma held_map : forall w i lists p, w_fapls w = map (fun p => (p, i)) lists -> held w p = if in_dec Z.eq_dec p lists then Some i else None.
Proof.
  intros w i lists p H. unfold held. rewrite H. clear H. induction lists as [|q l IH]; [reflexivity|]. cbn [map find fst]. destruct (Z.eqb_spec q p) as [->|N].
  - cbn [option_map snd]. destruct (in_dec Z.eq_dec p (p :: l)) as [_|X]; [reflexivity|]. elim X. left. reflexivity.
  - rewrite IH. destruct (in_dec Z.eq_dec p l), (in_dec Z.eq_dec p (q :: l)) as [Y|Y]; auto; [elim Y; right; auto|destruct Y; [congruence|contradiction]].
Qed.
Lemma filter_map_remove : forall (i p : Z) lists, filter (fun q : Z * Z => negb (fst q =? p)) (map (fun p => (p, i)) lists) = map (fun p => (p, i)) (remove Z.eq_dec p lists).
Proof. intros i p. induction lists as [|q l IH]; [reflexivity|]. cbn [map filter fst remove]. destruct (Z.eqb_spec q p), (Z.eq_dec p q); cbn [negb]; try congruence. cbn [map]. congruence. Qed.
Lemma remove_length_in : forall (p : Z) l, NoDup l -> In p l -> length l = S (length (remove Z.eq_dec p l)).
Proof.
  intros p. induction l as [|q l IH]; intros ND Hin; [destruct Hin|]. inversion ND; subst. cbn [remove]. destruct (Z.eq_dec p q) as [->|N].
  - rewrite notin_remove by auto. reflexivity.
  - destruct Hin as [->|Hin]; [congruence|]. cbn [length]. rewrite IH by auto. reflexivity.
Qed.
Lemma remove_nodup : forall (p : Z) l, NoDup l -> NoDup (remove Z.eq_dec p l).
Proof. intros p l H. induction H as [|q l H1 H2 IH]; [constructor|]. cbn [remove]. destruct (Z.eq_dec p q); auto. constructor; auto. intros X. apply in_remove in X. tauto. Qed.

Lemma exec_counted : forall n id lists w c, counted n id lists w ->
  match c with
  | CByName false false => exists w1 i, exec w c = Done w1 (AId i) /\ counted (n + 1) (Some i) lists w1
  | CClose i => 0 < n -> id = Some i -> exists w1, exec w c = Done w1 AOk /\ counted (n - 1) id lists w1
  | CSetVol p i => 0 < n -> id = Some i -> ~ In p lists -> exists w1, exec w c = Done w1 AOk /\ counted n id (p :: lists) w1
  | CCloseList p => In p lists -> exists w1, exec w c = Done w1 AOk /\ counted n id (remove Z.eq_dec p lists) w1
  | CFile p => In p lists -> exec w c = Done w AOk
  | CWriteN | CReadN => exists v, exec w c = Done w (AOp v)
  | _ => True
  end.
Proof.
  intros n id lists w c [C1 C2 C3 C4 C5 C6 C7 C8].
  assert (DROP : forall w0 i m l, 0 < m -> w_mpi w0 = MOn -> started w0 -> opsinv w0 -> w_conn w0 = Some (i, m) -> w_fapls w0 = map (fun p => (p, i)) l -> 0 <= m - 1 - Z.of_nat (length l) -> NoDup l -> forall f,
    exists w1, drop_ref w0 i (fun w1 => Done w1 AOk) f = Done w1 AOk /\ counted (m - 1 - Z.of_nat (length l)) (Some i) l w1).
  { intros w0 i m l Hm M S0 O E FE HL ND f. pose proof (drop_started w0 i (fun w1 => Done w1 AOk) BadProg S0) as DS. pose proof (drop_ops w0 i (fun w1 => Done w1 AOk) BadProg O) as DO.
    unfold drop_ref in *. rewrite E, Z.eqb_refl in *. destruct (Z.eqb_spec m 1) as [->|N1].
    - pose proof (term_mpi w0) as TM. destruct (conn_term w0) as [w1|]; [|destruct DS as [(? & _ & _ & X)|X]; discriminate].
      destruct DS as [(w2 & S2 & M2 & X)|X]; [|discriminate]. destruct DO as [Y|[(w3 & O3 & Y)|Y]]; try discriminate. injection X as <-. injection Y as <-.
      exists (set_conn w1 None (w_nextid w1)). split; [reflexivity|]. destruct l; [|cbn [length] in HL; lia]. destruct TM as ((_ & _ & _ & FA) & _). cbn [length] in *. constructor; auto; try lia; try congruence.
      + cbn. lia.
      + intros _. cbn. rewrite FA. exact FE.
    - destruct DS as [(w2 & S2 & M2 & X)|X]; [|discriminate]. destruct DO as [Y|[(w3 & O3 & Y)|Y]]; try discriminate. injection X as <-. injection Y as <-.
      eexists. split; [reflexivity|]. constructor; auto; try lia; try congruence.
      + intros _. exists i. cbn. repeat split; auto. f_equal. f_equal. lia.
      + intros ->. cbn. exact FE. }
  destruct c as [| |f1 f2|[] []|i|p i|p|p| | |]; auto; cbn [exec].
  - destruct (hdf_register w false false) as [w1 a] eqn:E. destruct (register_ops _ _ _ C5 E) as (O1 & L1 & i & -> & V). destruct (init_started _ _ _ _ _ C4 E) as (S1 & M1). exists w1, i. split; [reflexivity|].
    unfold hdf_register in E. destruct (Z.eq_dec (n + Z.of_nat (length lists)) 0) as [Z0|Z0].
    + rewrite (C6 Z0) in E. destruct (conn_init w false false) as [w2 ok] eqn:IE. destruct (init_mpi _ _ _ _ _ IE) as ((_ & _ & _ & FA) & _). destruct ok; [|discriminate]. injection E as <- <-.
      assert (lists = []) by (destruct lists; auto; cbn [length] in Z0; lia). subst lists. cbn [length] in *. constructor; auto; try lia; try congruence; try (cbn; congruence).
      * intros _. eexists. cbn. replace (n + 1 + 0) with 1 by lia. repeat split. rewrite FA. apply C8. auto.
      * intros _. cbn. rewrite FA. auto.
    + destruct (C7 ltac:(lia)) as (j & D1 & D2 & D3). rewrite D1 in E. injection E as <- <-. constructor; auto; try lia; try congruence; try (cbn; congruence).
      intros _. exists j. cbn. repeat split; auto. f_equal. f_equal. lia.
  - intros Hn Hid. destruct (C7 ltac:(lia)) as (j & D1 & D2 & D3). assert (j = i) by congruence. subst j. rewrite Hid.
    destruct (DROP w i (n + Z.of_nat (length lists)) lists ltac:(lia) C3 C4 C5 D1 D3 ltac:(lia) C2 (Done w AFail)) as (w1 & X & Y). exists w1. split; auto. replace (n - 1) with (n + Z.of_nat (length lists) - 1 - Z.of_nat (length lists)) by lia. exact Y.
  - intros Hn Hid Hp. destruct (C7 ltac:(lia)) as (j & D1 & D2 & D3). assert (j = i) by congruence. subst j. rewrite (held_map w i lists p D3). destruct (in_dec Z.eq_dec p lists) as [X|_]; [contradiction|]. rewrite D1, Z.eqb_refl.
    eexists. split; [reflexivity|]. constructor; auto; try congruence; try (cbn; congruence).
    + constructor; auto.
    + destruct C4 as [A B]. split; auto. intros _. apply B. unfold loaded. congruence.
    + destruct C5 as (A & B & _). split; [exact A|]. split; unfold loaded; cbn; [intros _; apply B; unfold loaded; congruence|ld].
    + cbn [length]. lia.
    + intros _. exists i. cbn. rewrite D3. repeat split; auto. f_equal. f_equal. lia.
  - intros Hp. assert (HL : (0 < length lists)%nat) by (destruct lists; [destruct Hp|cbn; lia]). destruct (C7 ltac:(lia)) as (j & D1 & D2 & D3). rewrite (held_map w j lists p D3). destruct (in_dec Z.eq_dec p lists) as [_|X]; [|contradiction].
    pose proof (remove_length_in p lists C2 Hp) as RL. set (w0 := set_fapls w _).
    assert (FA : w_fapls w0 = map (fun p => (p, j)) (remove Z.eq_dec p lists)) by (unfold w0; cbn; rewrite D3; apply filter_map_remove).
    destruct (DROP w0 j (n + Z.of_nat (length lists)) (remove Z.eq_dec p lists) ltac:(lia) C3 C4 C5 D1 FA ltac:(lia) (remove_nodup p lists C2) (Done w0 AFail)) as (w1 & X & Y).
    exists w1. split; auto. rewrite D2. replace n with (n + Z.of_nat (length lists) - 1 - Z.of_nat (length (remove Z.eq_dec p lists))) at 1 by lia. exact Y.
  - intros Hp. assert (HL : (0 < length lists)%nat) by (destruct lists; [destruct Hp|cbn; lia]). destruct (C7 ltac:(lia)) as (j & D1 & D2 & D3). rewrite (held_map w j lists p D3). destruct (in_dec Z.eq_dec p lists) as [_|X]; [|contradiction].
    unfold live. rewrite D1, Z.eqb_refl, C3. reflexivity.
  - eauto.
  - eauto.
Qed.

Lemma execs_counted : forall cs n id lists w ans w1 a, counted n id lists w -> execs w cs = (Done w1 a, ans) -> careful n id lists cs ans ->
  ~ In AFail ans /\ forall p, In p (open_lists lists cs) -> exec w1 (CFile p) = Done w1 AOk.
Proof.
  induction cs as [|c cs IH]; intros n id lists w ans w1 a C E K; cbn [execs] in E.
  - injection E as <- _ <-. split; [intros []|]. intros p Hp. exact (exec_counted n id lists w (CFile p) C Hp).
  - pose proof (exec_counted n id lists w c C) as X. destruct c as [| |f1 f2|f1 f2|i|p i|p|p| | |]; cbn [careful open_lists] in *; try (destruct ans; contradiction).
    + destruct (exec w (CByName f1 f2)) as [w2 a2| |] eqn:E1; try discriminate. destruct (execs w2 cs) as [o l] eqn:E2. injection E as -> <-. destruct a2; try contradiction. destruct K as (-> & -> & K).
      destruct X as (w3 & j & X1 & X2). injection X1 as -> ->. destruct (IH _ _ _ _ _ _ _ X2 E2 K) as [Y1 Y2]. split; auto. intros [Q|Q]; [discriminate|contradiction].
    + destruct (exec w (CClose i)) as [w2 a2| |] eqn:E1; try discriminate. destruct (execs w2 cs) as [o l] eqn:E2. injection E as -> <-. destruct K as (K1 & K2 & K).
      destruct (X K1 K2) as (w3 & X1 & X2). injection X1 as -> ->. destruct (IH _ _ _ _ _ _ _ X2 E2 K) as [Y1 Y2]. split; auto. intros [Q|Q]; [discriminate|contradiction].
    + destruct (exec w (CSetVol p i)) as [w2 a2| |] eqn:E1; try discriminate. destruct (execs w2 cs) as [o l] eqn:E2. injection E as -> <-. destruct K as (K1 & K2 & K3 & K).
      destruct (X K1 K2 K3) as (w3 & X1 & X2). injection X1 as -> ->. destruct (IH _ _ _ _ _ _ _ X2 E2 K) as [Y1 Y2]. split; auto. intros [Q|Q]; [discriminate|contradiction].
    + destruct (exec w (CCloseList p)) as [w2 a2| |] eqn:E1; try discriminate. destruct (execs w2 cs) as [o l] eqn:E2. injection E as -> <-. destruct K as (K1 & K).
      destruct (X K1) as (w3 & X1 & X2). injection X1 as -> ->. destruct (IH _ _ _ _ _ _ _ X2 E2 K) as [Y1 Y2]. split; auto. intros [Q|Q]; [discriminate|contradiction].
    + destruct (exec w (CFile p)) as [w2 a2| |] eqn:E1; try discriminate. destruct (execs w2 cs) as [o l] eqn:E2. injection E as -> <-. destruct K as (K1 & K).
      specialize (X K1). injection X as -> ->. destruct (IH _ _ _ _ _ _ _ C E2 K) as [Y1 Y2]. split; auto. intros [Q|Q]; [discriminate|contradiction].
    + destruct X as (v & X). rewrite X in E. destruct (execs w cs) as [o l] eqn:E2. injection E as -> <-. destruct (IH _ _ _ _ _ _ _ C E2 K) as [Y1 Y2]. split; auto. intros [Q|Q]; [discriminate|contradiction].
    + destruct X as (v & X). rewrite X in E. destruct (execs w cs) as [o l] eqn:E2. injection E as -> <-. destruct (IH _ _ _ _ _ _ _ C E2 K) as [Y1 Y2]. split; auto. intros [Q|Q]; [discriminate|contradiction].
Qed.
Theorem counting_program : forall cs ans w a, execs world0 (CMpiInit :: cs) = (Done w a, AOk :: ans) -> careful 0 None [] cs ans ->
  ~ In AFail ans /\ forall p, In p (open_lists [] cs) -> exec w (CFile p) = Done w AOk.
Proof.
  intros cs ans w a E K. assert (E1 : execs world0 (CMpiInit :: cs) = let '(o, l) := execs (set_mpi world0 MOn) cs in (o, AOk :: l)) by reflexivity. rewrite E1 in E.
  destruct (execs (set_mpi world0 MOn) cs) as [o l] eqn:E2. injection E as -> ->.
  apply (execs_counted cs 0 None [] _ ans w a) with (2 := E2); auto. constructor; cbn; auto; try lia; try constructor.
  - cbn. discriminate.
  - unfold loaded. cbn. congruence.
  - cbn. lia.
  - split; unfold loaded; cbn; [congruence|auto].
Qed.

(** ** What goes wrong *)

(** MPI stays off. *)
Lemma exec_off : forall w c w1 a, w_mpi w = MOff -> exec w c = Done w1 a -> w_mpi w1 = MOff.
Proof.
  intros w c w1 a M H.
  assert (HR : forall f1 f2 w2 b, hdf_register w f1 f2 = (w2, b) -> w_mpi w2 = MOff).
  { intros f1 f2 w2 b R. unfold hdf_register in R. destruct (w_conn w) as [[i n]|]; [injection R as <- _; exact M|]. destruct (conn_init w f1 f2) as [w3 ok] eqn:E. destruct (init_mpi _ _ _ _ _ E) as (_ & _ & X). rewrite M in X. destruct ok; injection R as <- _; exact X. }
  assert (HD : forall w0 i f w2 b, w_mpi w0 = MOff -> drop_ref w0 i (fun w1 => Done w1 AOk) f = Done w2 b -> (f = Done w2 b -> w_mpi w2 = MOff) -> w_mpi w2 = MOff).
  { intros w0 i f w2 b M0 D F. unfold drop_ref in D. destruct (w_conn w0) as [[j n]|]; auto. destruct (j =? i); auto. destruct (n =? 1); [|injection D as <- _; exact M0].
    pose proof (term_mpi w0) as T. destruct (conn_term w0) as [w3|]; [|discriminate]. injection D as <- _. destruct T as (_ & _ & _ & _ & _ & [T|[T _]]); cbn; congruence. }
  destruct c as [| |f1 f2|f1 f2|id|p id|p|p| | |]; cbn [exec] in H.
  - rewrite M in H. discriminate.
  - rewrite M in H. discriminate.
  - destruct (w_g w); [injection H as <- _; exact M|]. destruct (hdf_register w f1 f2) as [w2 a2] eqn:E. injection H as <- _. cbn. eapply HR; eauto.
  - destruct (hdf_register w f1 f2) as [w2 a2] eqn:E. injection H as <- _. eapply HR; eauto.
  - eapply HD; eauto. intros X. injection X as <- _. exact M.
  - destruct (held w p); [injection H as <- _; exact M|]. destruct (w_conn w) as [[i n]|]; [|injection H as <- _; exact M]. destruct (i =? id); injection H as <- _; exact M.
  - destruct (held w p) as [id|]; [|injection H as <- _; exact M]. eapply HD; [| exact H |]; [exact M|]. intros X. injection X as <- _. exact M.
  - destruct (held w p) as [id|]; [|injection H as <- _; exact M]. destruct (live w id); [|injection H as <- _; exact M]. rewrite M in H. discriminate.
  - injection H as <- _. exact M.
  - injection H as <- _. exact M.
  - destruct (w_conn w) as [[i n]|]; [|injection H as <- _; exact M]. pose proof (term_mpi w) as T. destruct (conn_term w) as [w3|]; [|discriminate]. injection H as <- _. destruct T as (_ & _ & _ & _ & _ & [T|[T _]]); cbn; congruence.
Qed.
Theorem no_second_time : forall cs w, forallb no_fault cs = true -> forallb (fun c => negb (mpi_call c)) cs = true -> ends_in cs w -> mpi_expected MNone (load_trace world0 cs) = MOff ->
  forall cs' w' p, (exists a ans, execs w cs' = (Done w' a, ans)) -> forall w2, exec w' (CFile p) <> Done w2 AOk.
Proof.
  intros cs w N M E X cs' w' p (a & ans & E') w2 H. destruct (mpi_of_connector cs N M) as [T _]. destruct (T w E) as [T1 _]. rewrite X in T1.
  pose proof (execs_inv (fun w => w_mpi w = MOff) (fun _ => true) (fun w c w1 a I _ => exec_off w c w1 a I) cs' w w' a ans T1 ltac:(apply forallb_forall; reflexivity) E') as Q. cbn beta in Q.
  cbn [exec] in H. destruct (held w' p) as [id|]; [|discriminate]. destruct (live w' id); [|discriminate]. rewrite Q in H. discriminate.
Qed.

(** The identifier kept by H5VL_log_register outlives the connector. *)
Definition stale (id : Z) (w : world) : Prop := w_g w = Some id /\ id < w_nextid w /\ live w id = false /\ match w_conn w with Some (i, _) => i < w_nextid w | None => True end.
Lemma exec_stale : forall id w c w1 a, stale id w -> exec w c = Done w1 a -> stale id w1.
Proof.
  intros id w c w1 a (A & B & L & D) H.
  assert (HR : forall f1 f2 w2 b, hdf_register w f1 f2 = (w2, b) -> stale id w2).
  { intros f1 f2 w2 b R. unfold hdf_register in R. unfold live in L. destruct (w_conn w) as [[i n]|] eqn:C; [injection R as <- _; unfold stale, live; cbn; auto|].
    destruct (conn_init w f1 f2) as [w3 ok] eqn:E. destruct (init_mpi _ _ _ _ _ E) as ((E1 & E2 & E3 & _) & _).
    destruct ok; injection R as <- _; unfold stale, live; cbn; rewrite ?E1, ?E2, ?E3, ?C; (split; [auto|]); (split; [lia|]); split; auto; try lia; apply Z.eqb_neq; lia. }
  assert (HD : forall w0 i f w2 b, stale id w0 -> drop_ref w0 i (fun w1 => Done w1 AOk) f = Done w2 b -> (f = Done w2 b -> stale id w2) -> stale id w2).
  { intros w0 i f w2 b (A0 & B0 & L0 & D0) DD F. unfold drop_ref in DD. unfold live in L0. destruct (w_conn w0) as [[j n]|] eqn:C; auto. destruct (j =? i); auto. destruct (n =? 1).
    - pose proof (term_mpi w0) as T. destruct (conn_term w0) as [w3|]; [|discriminate]. injection DD as <- _. destruct T as ((T1 & T2 & T3 & _) & _). unfold stale, live. cbn. rewrite T1, T3. auto.
    - injection DD as <- _. unfold stale, live. cbn. auto. }
  destruct c as [| |f1 f2|f1 f2|i|p i|p|p| | |]; cbn [exec] in H.
  - destruct (w_mpi w); try discriminate. injection H as <- _. split; auto.
  - destruct (w_mpi w); try discriminate. injection H as <- _. split; auto.
  - rewrite A in H. injection H as <- _. split; auto.
  - destruct (hdf_register w f1 f2) as [w2 a2] eqn:E. injection H as <- _. eapply HR; eauto.
  - eapply HD; [|exact H|]; [split; auto|]. intros X. injection X as <- _. split; auto.
  - destruct (held w p); [injection H as <- _; split; auto|]. unfold live in L. destruct (w_conn w) as [[j n]|] eqn:C; [|injection H as <- _; unfold stale, live; rewrite C; auto]. destruct (j =? i); injection H as <- _; unfold stale, live; cbn; rewrite ?C; auto.
  - destruct (held w p) as [i|]; [|injection H as <- _; split; auto]. eapply HD; [|exact H|]; [split; auto|]. intros X. injection X as <- _. split; auto.
  - destruct (held w p) as [i|]; [|injection H as <- _; split; auto]. destruct (live w i); [|injection H as <- _; split; auto]. destruct (w_mpi w); try discriminate. injection H as <- _. split; auto.
  - injection H as <- _. split; auto.
  - injection H as <- _. split; auto.
  - destruct (w_conn w) as [[j n]|] eqn:C; [|injection H as <- _; unfold stale; rewrite C; auto]. pose proof (term_mpi w) as T. destruct (conn_term w) as [w3|]; [|discriminate]. injection H as <- _. destruct T as ((T1 & T2 & T3 & _) & _). unfold stale, live. cbn. rewrite T1, T3. auto.
Qed.
Theorem stale_identifier : exists w, ends_in [CMpiInit; CRegister false false; CSetVol 5 1; CClose 1; CFile 5; CCloseList 5] w /\
  forall cs w1 a ans, execs w cs = (Done w1 a, ans) -> (forall f1 f2, exec w1 (CRegister f1 f2) = Done w1 (AId 1)) /\ forall q, exec w1 (CSetVol q 1) = Done w1 AFail.
Proof.
  exists (mkw MOn true false [] 1026 1024 1025 (Some 1) None 2 []). split; [exists AOk, [AOk; AId 1; AOk; AOk; AOk; AOk]; vm_compute; reflexivity|].
  intros cs w1 a ans E. match type of E with execs ?w _ = _ => assert (S0 : stale 1 w) by (unfold stale, live; cbn; repeat split; lia) end.
  destruct (execs_inv (stale 1) (fun _ => true) (fun w c w1 a I _ => exec_stale 1 w c w1 a I) cs _ w1 a ans S0 ltac:(apply forallb_forall; reflexivity) E) as (A & B & L & D).
  split; [intros; cbn [exec]; rewrite A; reflexivity|]. intros q. cbn [exec]. destruct (held w1 q); [reflexivity|]. unfold live in L. destruct (w_conn w1) as [[i n]|]; [|reflexivity]. rewrite L. reflexivity.
Qed.

(** A failed registration. *)
Definition jammed (w : world) : Prop := w_conn w = None /\ w_flag w = false /\ In WriteN (map fst (w_ops w)) /\ w_g w = None.
Lemma jammed_init : forall w f1 f2, jammed w -> exists w1, conn_init w f1 f2 = (w1, false) /\ jammed w1 /\ w_g w1 = None.
Proof.
  intros w f1 f2 (A & B & C & D). unfold conn_init.
  set (w2 := if mpi_initialized (w_mpi w) then set_inited w (mpi_initialized (w_mpi w)) else set_mpi (set_inited w (mpi_initialized (w_mpi w))) MOn).
  assert (W : w_flag w2 = w_flag w /\ w_ops w2 = w_ops w /\ w_conn w2 = w_conn w /\ w_g w2 = w_g w) by (unfold w2; destruct (w_mpi w); cbn; auto). clearbody w2. destruct W as (W1 & W2 & W3 & W4).
  rewrite W1, B. unfold reg_op. assert (E : existsb (fun p => same_op (fst p) WriteN) (w_ops w2) = true).
  { rewrite W2. apply existsb_exists. apply in_map_iff in C. destruct C as ([n v] & C1 & C2). exists (n, v). cbn in *. subst n. auto. }
  rewrite E, orb_true_r. exists w2. split; [reflexivity|]. unfold jammed. rewrite W1, W2, W3, W4. auto.
Qed.
Lemma exec_jammed : forall w c w1 a, jammed w -> exec w c = Done w1 a -> jammed w1 /\ match c with CRegister _ _ | CByName _ _ => a = AFail | _ => True end.
Proof.
  intros w c w1 a J H. pose proof J as (A & B & C & D). destruct c as [| |f1 f2|f1 f2|i|p i|p|p| | |]; cbn [exec] in H.
  - destruct (w_mpi w); try discriminate. injection H as <- _. auto.
  - destruct (w_mpi w); try discriminate. injection H as <- _. auto.
  - rewrite D in H. unfold hdf_register in H. rewrite A in H. destruct (jammed_init w f1 f2 J) as (w2 & E & (J1 & J2 & J3 & J4) & _). rewrite E in H. injection H as <- <-. split; auto. split; auto.
  - unfold hdf_register in H. rewrite A in H. destruct (jammed_init w f1 f2 J) as (w2 & E & J2 & _). rewrite E in H. injection H as <- <-. auto.
  - unfold drop_ref in H. rewrite A in H. injection H as <- _. auto.
  - destruct (held w p); [|rewrite A in H]; injection H as <- _; auto.
  - destruct (held w p); [|injection H as <- _; auto]. unfold drop_ref in H. cbn in H. rewrite A in H. injection H as <- _. auto.
  - destruct (held w p); [|injection H as <- _; auto]. unfold live in H. rewrite A in H. injection H as <- _. auto.
  - injection H as <- _. auto.
  - injection H as <- _. auto.
  - rewrite A in H. injection H as <- _. auto.
Qed.
Theorem one_failure : exists w, execs world0 [CMpiInit; CByName false true] = (Done w AOk, [AOk; AFail]) /\
  forall cs w1 a ans f1 f2, execs w cs = (Done w1 a, ans) -> (exists w2, exec w1 (CByName f1 f2) = Done w2 AFail) /\ (exists w2, exec w1 (CRegister f1 f2) = Done w2 AFail).
Proof.
  exists (mkw MOn true false [(WriteN, 1024)] 1025 1024 0 None None 1 []). split; [vm_compute; reflexivity|]. intros cs w1 a ans f1 f2 E. match type of E with execs ?w _ = _ => assert (S0 : jammed w) by (unfold jammed; cbn; auto) end.
  pose proof (execs_inv jammed (fun _ => true) (fun w c w1 a I _ H => proj1 (exec_jammed w c w1 a I H)) cs _ w1 a ans S0 ltac:(apply forallb_forall; reflexivity) E) as J. pose proof J as (A & B & C & D).
  destruct (jammed_init w1 f1 f2 J) as (w2 & E2 & _). cbn [exec]. rewrite D. unfold hdf_register. rewrite A, E2. eauto.
Qed.

(** MPI initialised by the connector, finalised or initialised by the program. *)
Theorem program_mpi : forall cs w, forallb no_fault cs = true -> forallb (fun c => negb (mpi_call c)) cs = true -> ends_in cs w -> mpi_expected MNone (load_trace world0 cs) = MOn ->
  exec w CMpiInit = BadProg /\ exists w1, exec w CMpiFinalize = Done w1 AOk /\ exec w1 CExit = BadMpi.
Proof.
  intros cs w N M (a & ans & E) X. destruct (owned_trace cs world0 w a ans owned0 opsinv0 N M E) as ((_ & I1 & _) & (_ & I2 & _) & I3). cbn in I3. rewrite X in I3. destruct (I1 I3) as [L IN]. destruct (I2 L) as (F & O & _).
  cbn [exec]. rewrite I3. split; [reflexivity|]. eexists. split; [reflexivity|]. unfold loaded in L. cbn [exec set_mpi w_conn]. destruct (w_conn w); [|congruence]. unfold conn_term. cbn [w_flag set_mpi]. rewrite F. unfold unreg_op. cbn [w_ops set_mpi]. rewrite O. cbn. rewrite IN. reflexivity.
Qed.
(** The identifier of H5VL_log_register, obtained twice and closed twice, while a property list is in use. *)
Theorem closed_twice : exists w w1, execs world0 [CMpiInit; CRegister false false; CSetVol 5 1; CRegister false false; CClose 1; CFile 5] = (Done w AOk, [AOk; AId 1; AOk; AId 1; AOk; AOk]) /\
  exec w (CClose 1) = Done w1 AOk /\ exec w1 (CFile 5) = Done w1 AFail.
Proof.
  exists (mkw MOn true true [(ReadN, 1025); (WriteN, 1024)] 1026 1024 1025 (Some 1) (Some (1, 1)) 2 [(5, 1)]), (mkw MOn true false [] 1026 1024 1025 (Some 1) None 2 [(5, 1)]). vm_compute. auto.
Qed.
Theorem failed_load : exists w, execs world0 [CByName true false; CByName false false; CClose 1] = (Done w AOk, [AFail; AId 1; AOk]) /\ w_mpi w = MOn /\ ~ loaded w.
Proof. exists (mkw MOn true false [] 1026 1024 1025 None None 2 []). split; [vm_compute; reflexivity|]. split; [reflexivity|]. unfold loaded. cbn. congruence. Qed.
Theorem before_loading : exec world0 CWriteN = Done world0 (AOp 0) /\ exec world0 CReadN = Done world0 (AOp 0).
Proof. split; reflexivity. Qed.

(** Examples. *)
Definition prog1 : list call := [CByName false false; CSetVol 5 1; CByName false false; CClose 1; CFile 5; CClose 1; CFile 5; CCloseList 5; CByName false false; CSetVol 6 2; CClose 2; CWriteN].
Definition ans1 : list answer := [AId 1; AOk; AId 1; AOk; AOk; AOk; AOk; AOk; AId 2; AOk; AOk; AOp 1026].
Lemma prog1_ok : exists w a, execs world0 (CMpiInit :: prog1) = (Done w a, AOk :: ans1) /\ careful 0 None [] prog1 ans1 /\ open_lists [] prog1 = [6].
Proof.
  exists (mkw MOn true true [(ReadN, 1027); (WriteN, 1026)] 1028 1026 1027 None (Some (2, 1)) 3 [(6, 2)]), AOk. split; [vm_compute; reflexivity|]. split; [|reflexivity].
  cbn [careful prog1 ans1 remove]. repeat split; auto; try lia; try (intros []); cbn; auto.
Qed.
Definition prog2 : list call := [CByName false false; CSetVol 5 1; CFile 5; CCloseList 5].
Lemma prog2_ok : load_trace world0 prog2 = [false; true; true; true; true] /\ mpi_expected MNone (load_trace world0 prog2) = MOn /\
  load_trace world0 (prog2 ++ [CClose 1; CByName false false]) = [false; true; true; true; true; false; true] /\ mpi_expected MNone (load_trace world0 (prog2 ++ [CClose 1; CByName false false])) = MOff /\
  fst (execs world0 (prog2 ++ [CClose 1; CByName false false; CSetVol 6 2; CFile 6])) = BadMpi.
Proof. vm_compute. auto 10. Qed.
