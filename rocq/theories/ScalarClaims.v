(** Scalar datasets with selection encoding. *)
From Verif Require Import Base BaseProofs Spec MetaModel QueueModel FlushModel IndexModel ReadModel SysModel AnyProofs DelProofs.

Lemma run_cfg : forall e ops s s' outs, run e s ops = Ok (s', outs) -> g_cfg (s_g s') = g_cfg (s_g s).
Proof.
  induction ops as [|o ops IH]; intros s s' outs H; cbn [run] in H; [inversion H; reflexivity|].
  destruct (step e s o) as [[s1 out]| |] eqn:S; cbn [bind fst snd] in H; try discriminate H.
  destruct (run e s1 ops) as [[s2 outs2]| |] eqn:R; cbn [bind fst snd] in H; inversion H; subst.
  rewrite (IH _ _ _ R). eapply step_cfg. exact S.
Qed.
Lemma scalar_encoded : forall e cfg np f0 pre es fill rest, has cfg CFG_SEL_ENCODE = true ->
  match run e (init cfg np f0) pre with
  | Ok _ => run e (init cfg np f0) (pre ++ OCreate (mkdinfo es [] [] [] fill) :: rest) = UB
  | _ => True
  end.
Proof.
  intros e cfg np f0 pre es fill rest H. destruct (run e (init cfg np f0) pre) as [[s outs]| |] eqn:R; auto.
  rewrite run_app, R. cbn [bind fst snd run step]. unfold create_info. rewrite (run_cfg _ _ _ _ _ R).
  cbn [init s_g g_cfg]. rewrite H. reflexivity.
Qed.
Lemma scalar_encoded_run : forall e cfg np f0 pre es fill rest s outs, has cfg CFG_SEL_ENCODE = true ->
  run e (init cfg np f0) pre = Ok (s, outs) ->
  run e (init cfg np f0) (pre ++ OCreate (mkdinfo es [] [] [] fill) :: rest) = UB.
Proof. intros e cfg np f0 pre es fill rest s outs H R. pose proof (scalar_encoded e cfg np f0 pre es fill rest H) as K. rewrite R in K. exact K. Qed.
