(** Proofs about the shape of datasets. *)
From Verif Require Import Base BaseProofs FlushProofs MetaModel SysModel ShapeModel ShapeSpec.
From Coq Require Import ZifyNat.

(** A dataset of the model agrees with its shape; its description, if any, reports it. *)
Definition agrees (cfg : Z) (d : dset) (s : list Z * list Z) (op : bool) : Prop :=
  ds_dims d = fst s /\ ds_mdims d = snd s /\ length (fst s) = length (snd s) /\
  (has cfg CFG_SEL_ENCODE = true -> fst s <> []) /\
  (op = true -> ds_info d <> None) /\
  forall i, ds_info d = Some i -> di_dims i = fst s /\ di_mdims i = snd s.

Lemma set_dims_allowed : forall dims mdims new, length dims = length mdims -> length new = length dims ->
  allowed mdims new = true -> set_dims dims mdims new = (new, true).
Proof.
  induction dims as [|d dims IH]; intros [|m mdims] [|n new] H1 H2 H; cbn in H1, H2; try discriminate; [reflexivity|].
  unfold allowed in H. cbn [combine forallb fst snd] in H. apply andb_true_iff in H. destruct H as [H H'].
  cbn [set_dims].
  assert (E : negb (m =? UNLIMITED) && (m <? n) = false).
  { apply orb_true_iff in H. destruct H as [H|H]; [rewrite H; reflexivity|].
    apply Z.leb_le in H. destruct (Z.ltb_spec m n); [lia|]. apply andb_false_r. }
  rewrite E, (IH mdims new) by (try lia; exact H'). reflexivity.
Qed.

Lemma set_dims_rejected : forall dims mdims new, length dims = length mdims -> length new = length dims ->
  allowed mdims new = false ->
  exists k, (k < length dims)%nat /\ set_dims dims mdims new = (firstn k new ++ skipn k dims, false).
Proof.
  induction dims as [|d dims IH]; intros [|m mdims] [|n new] H1 H2 H; cbn in H1, H2; try discriminate.
  unfold allowed in H. cbn [combine forallb fst snd] in H. cbn [set_dims].
  destruct (negb (m =? UNLIMITED) && (m <? n)) eqn:E.
  - exists O. split; [cbn; lia|reflexivity].
  - assert (A : (m =? UNLIMITED) || (n <=? m) = true).
    { apply andb_false_iff in E. destruct E as [E|E].
      - apply negb_false_iff in E. rewrite E. reflexivity.
      - apply Z.ltb_ge in E. apply orb_true_iff. right. apply Z.leb_le. exact E. }
    rewrite A in H. cbn [andb] in H.
    destruct (IH mdims new) as (k & Hk & Ek); [lia|lia|exact H|].
    exists (S k). split; [cbn; lia|]. rewrite Ek. reflexivity.
Qed.

Lemma nth_Forall3 : forall cfg l s op did d, Forall2 (fun p o => agrees cfg (fst p) (snd p) o) (combine l s) op ->
  length l = length s -> nth_error l did = Some d ->
  exists sh o, nth_error s did = Some sh /\ nth_error op did = Some o /\ agrees cfg d sh o.
Proof.
  induction l as [|x l IH]; intros [|y s] op [|did] d F L H; cbn in L, H; try discriminate;
    cbn [combine] in F; inversion F as [|? o ? op' A F']; subst.
  - injection H as <-. exists y, o. split; [reflexivity|split; [reflexivity|exact A]].
  - destruct (IH s op' did d F') as (sh & o' & E1 & E2 & E3); [lia|exact H|]. exists sh, o'. auto.
Qed.

Definition inv (cfg : Z) (l : list dset) (s : list (list Z * list Z)) (op : list bool) : Prop :=
  length l = length s /\ Forall2 (fun p o => agrees cfg (fst p) (snd p) o) (combine l s) op.

Lemma inv_length : forall cfg l s op, inv cfg l s op -> length l = length op.
Proof.
  intros cfg l s op [L F]. revert s op L F. induction l as [|x l IH]; intros [|y s] op L F; cbn in L; try lia;
    cbn [combine] in F; inversion F; subst; [reflexivity|]. cbn [length]. f_equal. apply (IH s); auto.
Qed.

Lemma inv_upd : forall cfg l s op did d sh o, inv cfg l s op -> (did < length l)%nat -> agrees cfg d sh o ->
  inv cfg (upd_nth did d l) (upd_nth did sh s) (upd_nth did o op).
Proof.
  intros cfg l s op did d sh o [L F] Hd A. split; [rewrite !upd_nth_length; exact L|].
  revert s op did L F Hd. induction l as [|x l IH]; intros [|y s] op did L F Hd; cbn in L, Hd; try lia.
  cbn [combine] in F. inversion F as [|? o' ? op' A' F']; subst. destruct did as [|did]; cbn [upd_nth combine].
  - constructor; auto.
  - constructor; auto. apply IH; auto; lia.
Qed.

Lemma upd_nth_id : forall {A} (l : list A) i x, nth_error l i = Some x -> upd_nth i x l = l.
Proof. induction l as [|y l IH]; intros [|i] x H; cbn in *; try discriminate; [congruence|]. rewrite IH; auto. Qed.

Lemma inv_app : forall cfg l s op d sh o, inv cfg l s op -> agrees cfg d sh o ->
  inv cfg (l ++ [d]) (s ++ [sh]) (op ++ [o]).
Proof.
  intros cfg l s op d sh o [L F] A. split; [rewrite !app_length; cbn; lia|].
  revert s op L F. induction l as [|x l IH]; intros [|y s] op L F; cbn in L; try lia.
  - inversion F; subst. cbn. constructor; [exact A|constructor].
  - cbn [combine] in F. inversion F; subst. cbn [app combine]. constructor; auto.
Qed.

Lemma nth_nth_error : forall {A} (l : list A) i x d, nth_error l i = Some x -> nth i l d = x.
Proof. induction l as [|y l IH]; intros [|i] x d H; cbn in *; try discriminate; [congruence|auto]. Qed.

Lemma load_info_ok : forall cfg d sh o, agrees cfg d sh o ->
  exists i, load_info cfg d = Ok i /\ di_dims i = fst sh /\ di_mdims i = snd sh.
Proof.
  intros cfg d sh o (A1 & A2 & A3 & A4 & A5 & A6). unfold load_info.
  destruct (ds_info d) as [i|] eqn:E; [exists i; split; [reflexivity|apply A6; reflexivity]|].
  unfold create_info. destruct (has cfg CFG_SEL_ENCODE) eqn:He.
  - unfold di_ndim. cbn [di_dims di_esize di_mdims di_fill]. rewrite A1.
    destruct (Nat.eqb_spec (length (fst sh)) 0) as [Z0|Z0].
    + elim (A4 eq_refl). apply length_zero_iff_nil. exact Z0.
    + eexists. split; [reflexivity|]. cbn. auto.
  - eexists. split; [reflexivity|]. cbn. auto.
Qed.

Lemma shape_ok : forall cfg os l s op, inv cfg l s op -> proper cfg s op os ->
  (forall l' outs, spec_run s os = (l', outs) -> ~ In OFailed outs) ->
  exists l', shape_run cfg l os = Ok (l', snd (spec_run s os)).
Proof.
  intros cfg. induction os as [|o os IH]; intros l s op I P NF; [exists l; reflexivity|].
  cbn [proper] in P. destruct P as [P1 P2].
  assert (STEP : exists l1, shape_step cfg l o = Ok (l1, snd (spec_step s o)) /\
            inv cfg l1 (fst (spec_step s o)) (opened_step op o)).
  { pose proof I as [L F]. destruct o as [d|did new| |did|did]; cbn [proper_step] in P1.
    - destruct P1 as [P1 P3]. cbn [shape_step spec_step opened_step fst snd].
      assert (C : exists i, create_info cfg d = Ok i /\ di_dims i = di_dims d /\ di_mdims i = di_mdims d).
      { unfold create_info. destruct (has cfg CFG_SEL_ENCODE); [|eauto].
        destruct (Nat.eqb_spec (di_ndim d) 0) as [Z0|Z0]; [elim (P3 eq_refl Z0)|].
        eexists. split; [reflexivity|]. cbn. auto. }
      destruct C as (i & -> & C1 & C2). cbn [bind]. eexists. split; [reflexivity|].
      apply inv_app; auto. unfold agrees. cbn. unfold di_ndim in *. repeat split; auto; try discriminate.
      + intros He G. apply (P3 He). rewrite G. reflexivity.
      + intros; congruence.
      + intros; congruence.
    - destruct P1 as [P1 P3].
      assert (Hd : (did < length l)%nat).
      { assert (B : (did < length op)%nat) by (apply nth_error_Some; congruence).
        rewrite (inv_length _ _ _ _ I). exact B. }
      destruct (nth_error l did) as [d|] eqn:El; [|apply nth_error_None in El; lia].
      destruct (nth_Forall3 _ _ _ _ _ _ F L El) as ([dims mdims] & o' & E1 & E2 & A).
      rewrite (nth_nth_error _ _ _ ([], []) E1) in P3. cbn [fst] in P3.
      cbn [shape_step spec_step]. rewrite El, (nth_nth_error _ _ _ ([], []) E1).
      destruct A as (A1 & A2 & A3 & A4 & A5 & A6). cbn [fst snd] in *.
      assert (o' = true) by congruence. subst o'.
      destruct (ds_info d) as [i|] eqn:Ei; [|elim (A5 eq_refl); reflexivity].
      destruct (A6 i eq_refl) as [A7 A8].
      destruct (allowed mdims new) eqn:Al.
      + unfold set_extent. rewrite A7, A8, (set_dims_allowed dims mdims new) by auto.
        cbn [fst snd opened_step di_dims]. eexists. split; [reflexivity|].
        rewrite <- (upd_nth_id op did true P1). apply inv_upd; auto.
        unfold agrees. cbn. repeat split; auto; try discriminate.
        * lia.
        * intros He G. apply (A4 He). apply length_zero_iff_nil. rewrite <- P3, G. reflexivity.
        * match goal with G : Some _ = Some _ |- _ => injection G as <- end. reflexivity.
        * match goal with G : Some _ = Some _ |- _ => injection G as <- end. reflexivity.
      + exfalso. cbn [spec_run spec_step] in NF. rewrite (nth_nth_error _ _ _ ([], []) E1), Al in NF.
        destruct (spec_run s os) as [s2 outs] eqn:Er. apply (NF s2 (OFailed :: outs)); [reflexivity|].
        left. reflexivity.
    - cbn [shape_step spec_step opened_step fst snd]. eexists. split; [reflexivity|].
      split; [rewrite map_length; exact L|]. clear - F L.
      revert s op L F. induction l as [|x l IH]; intros [|y s] op L F; cbn in L; try lia.
      + inversion F; subst. constructor.
      + cbn [combine] in F. inversion F as [|? o' ? op' A F']; subst. cbn [map combine]. constructor; [|apply IH; auto; lia].
        destruct A as (A1 & A2 & A3 & A4 & _ & _). unfold agrees. cbn. repeat split; auto; discriminate.
    - cbn [shape_step spec_step opened_step fst snd].
      destruct (nth_error l did) as [d|] eqn:El; [|apply nth_error_None in El; lia].
      destruct (nth_Forall3 _ _ _ _ _ _ F L El) as (sh & o' & E1 & E2 & A).
      destruct (load_info_ok _ _ _ _ A) as (i & Ei & I1 & I2). rewrite Ei. cbn [bind].
      eexists. split; [reflexivity|].
      rewrite <- (upd_nth_id s did sh E1). apply inv_upd; auto; [lia|].
      destruct A as (A1 & A2 & A3 & A4 & A5 & A6). unfold agrees. cbn. repeat split; auto; try discriminate.
      + match goal with G : Some _ = Some _ |- _ => injection G as <- end. exact I1.
      + match goal with G : Some _ = Some _ |- _ => injection G as <- end. exact I2.
    - assert (Hd : (did < length l)%nat).
      { assert (B : (did < length op)%nat) by (apply nth_error_Some; congruence).
        rewrite (inv_length _ _ _ _ I). exact B. }
      destruct (nth_error l did) as [d|] eqn:El; [|apply nth_error_None in El; lia].
      destruct (nth_Forall3 _ _ _ _ _ _ F L El) as ([dims mdims] & o' & E1 & E2 & A).
      destruct A as (A1 & A2 & A3 & A4 & A5 & A6). cbn [fst snd] in *.
      assert (o' = true) by congruence. subst o'.
      cbn [shape_step spec_step opened_step]. rewrite El, (nth_nth_error _ _ _ ([], []) E1).
      destruct (ds_info d) as [i|] eqn:Ei; [|elim (A5 eq_refl); reflexivity].
      destruct (A6 i eq_refl) as [A7 A8]. rewrite A7, A8. cbn [fst snd]. exists l. split; [reflexivity|]. exact I. }
  destruct STEP as (l1 & E1 & I1).
  destruct (IH l1 (fst (spec_step s o)) (opened_step op o) I1 P2) as (l2 & E2).
  { intros s2 outs Er Hin. cbn [spec_run] in NF. destruct (spec_step s o) as [s1 out]. cbn [fst] in Er.
    rewrite Er in NF. apply (NF s2 (out :: outs)); [reflexivity|]. right. exact Hin. }
  cbn [shape_run spec_run]. rewrite E1. destruct (spec_step s o) as [s1 out]. cbn [fst snd bind] in *.
  rewrite E2. cbn [bind]. destruct (spec_run s1 os) as [s2 outs]. cbn [snd]. eauto.
Qed.
