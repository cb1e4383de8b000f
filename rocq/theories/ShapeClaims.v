(** Statements about the shape of datasets in the form used by P_Shape. *)
From Verif Require Import Base BaseProofs MetaModel SysModel ShapeModel ShapeSpec ShapeProofs.
From Coq Require Import ZifyNat.

Lemma reported : forall cfg os, proper cfg [] [] os -> ~ In OFailed (snd (spec_run [] os)) ->
  exists l, shape_run cfg [] os = Ok (l, snd (spec_run [] os)).
Proof.
  intros cfg os P N. apply (shape_ok cfg os [] [] []); auto.
  - split; [reflexivity|constructor].
  - intros l' outs E. rewrite E in N. exact N.
Qed.

(** A rejected change of a dataset just created. *)
Lemma rejected_reported : forall cfg d new,
  length (di_mdims d) = di_ndim d -> (has cfg CFG_SEL_ENCODE = true -> di_ndim d <> 0%nat) ->
  length new = di_ndim d -> allowed (di_mdims d) new = false ->
  exists k l, (k < di_ndim d)%nat /\
    shape_run cfg [] [SCreate d; SExtent 0 new; SSpace 0; SReopen; SOpen 0; SSpace 0] =
    Ok (l, [ODone; OFailed; OSpace (firstn k new ++ skipn k (di_dims d)) (di_mdims d); ODone; ODone;
            OSpace (di_dims d) (di_mdims d)]).
Proof.
  intros cfg d new H1 H2 H3 H4. unfold di_ndim in *.
  destruct (set_dims_rejected (di_dims d) (di_mdims d) new) as (k & Hk & Ek); [lia|lia|exact H4|].
  assert (C : exists i, create_info cfg d = Ok i /\ di_dims i = di_dims d /\ di_mdims i = di_mdims d).
  { unfold create_info, di_ndim. destruct (has cfg CFG_SEL_ENCODE); [|eauto].
    destruct (Nat.eqb_spec (length (di_dims d)) 0) as [Z0|Z0]; [elim (H2 eq_refl Z0)|].
    eexists. split; [reflexivity|]. cbn. auto. }
  destruct C as (i & C0 & C1 & C2).
  set (d0 := mkdset (di_dims d) (di_mdims d) (di_esize d) (di_fill d) None).
  destruct (load_info_ok cfg d0 (di_dims d, di_mdims d) false) as (i2 & L0 & L1 & L2).
  { unfold agrees, d0. cbn. repeat split; auto; try discriminate.
    intros He G. apply (H2 He). rewrite G. reflexivity. }
  exists k. eexists. split; [exact Hk|].
  cbn [shape_run shape_step]. rewrite C0. cbn [bind app nth_error ds_info].
  unfold set_extent. rewrite C1, C2, Ek. cbn [bind nth_error upd_nth set_info ds_info di_dims di_mdims map].
  match goal with |- context [load_info cfg ?x] => change x with d0 end. rewrite L0. cbn [bind nth_error upd_nth set_info ds_info]. rewrite L1, L2. reflexivity.
Qed.

Definition s_d : dinfo := mkdinfo 4 [2; 3] [UNLIMITED; 5] [] None.
Definition s_ops : list sop :=
  [SCreate s_d; SExtent 0 [7; 5]; SSpace 0; SReopen; SOpen 0; SSpace 0; SExtent 0 [1; 0]; SSpace 0].

Lemma s_ops_proper : proper 10 [] [] s_ops /\
  snd (spec_run [] s_ops) =
    [ODone; ODone; OSpace [7; 5] [UNLIMITED; 5]; ODone; ODone; OSpace [7; 5] [UNLIMITED; 5]; ODone;
     OSpace [1; 0] [UNLIMITED; 5]].
Proof. split; [|reflexivity]. cbn. intuition (try reflexivity; try discriminate; lia). Qed.
