(** sortoffsets returns the rows sorted by file offset. *)
From Verif Require Import Base BaseProofs Spec MetaModel QueueModel FlushModel IndexModel ReadModel.
From Coq Require Import ZifyNat ZifyN.

Definition rle (a b : row) : Prop := ro_f a <= ro_f b.
Notation rsorted := (StronglySorted rle).

Lemma SSorted_app : forall A (R : A -> A -> Prop) l1 l2,
  StronglySorted R (l1 ++ l2) <->
  StronglySorted R l1 /\ StronglySorted R l2 /\ (forall x y, In x l1 -> In y l2 -> R x y).
Proof.
  induction l1 as [|a l1 IH]; intros l2; cbn.
  - split; [intros; repeat split; auto; [constructor|tauto]|tauto].
  - split.
    + intros H. inversion H; subst. apply IH in H2. destruct H2 as (H2 & H4 & H5).
      rewrite Forall_app in H3. destruct H3. repeat split; auto.
      * constructor; auto.
      * intros x y [<-|Hx] Hy; auto. rewrite Forall_forall in H1. auto.
    + intros (H1 & H2 & H3). inversion H1; subst. constructor.
      * apply IH. repeat split; auto.
      * rewrite Forall_app. split; auto. apply Forall_forall. auto.
Qed.

(** ** The small case *)
Lemma bubble_from_perm : forall t a, Permutation (a :: t) (fst (bubble_from a t)).
Proof.
  induction t as [|b t IH]; intros a; cbn; auto.
  destruct (ro_f b <? ro_f a).
  - specialize (IH a). destruct (bubble_from a t) as [t' s]. cbn in *.
    rewrite perm_swap. constructor. auto.
  - specialize (IH b). destruct (bubble_from b t) as [t' s]. cbn in *. constructor. auto.
Qed.

(** A pass over [l] followed by larger sorted elements: the largest element of [l] goes last. *)
Lemma bubble_from_pass : forall t a tl, rsorted tl ->
  (forall x y, In x (a :: t) -> In y tl -> rle x y) ->
  exists l1 m, fst (bubble_from a (t ++ tl)) = l1 ++ m :: tl /\ length l1 = length t /\
    (forall x, In x l1 -> rle x m) /\ Permutation (a :: t) (l1 ++ [m]) /\
    (snd (bubble_from a (t ++ tl)) = false -> rsorted l1 /\ l1 ++ [m] = a :: t).
Proof.
  induction t as [|b t IH]; intros a tl Hs Ht.
  - cbn [app].
    assert (E : bubble_from a tl = (a :: tl, false)).
    { assert (Ha : forall y, In y tl -> rle a y) by (intros; apply Ht; [left; auto|auto]). clear Ht.
      revert a Ha. induction tl as [|b tl IHt]; intros a Ha; cbn; auto.
      destruct (Z.ltb_spec (ro_f b) (ro_f a)).
      - pose proof (Ha b (or_introl eq_refl)). unfold rle in *. lia.
      - inversion Hs; subst. rewrite IHt; auto. intros y Hy. rewrite Forall_forall in H3. auto. }
    rewrite E. exists [], a. cbn. repeat split; auto; try tauto. constructor.
  - cbn [app bubble_from]. destruct (Z.ltb_spec (ro_f b) (ro_f a)) as [H|H].
    + destruct (IH a tl Hs) as (l1 & m & E1 & E2 & E3 & E4 & E5).
      { intros x y [<-|Hx] Hy; apply Ht; auto; [left; auto|right; right; auto]. }
      destruct (bubble_from a (t ++ tl)) as [t' s] eqn:EB. cbn [fst snd] in *. subst t'.
      exists (b :: l1), m. cbn. repeat split; auto; try discriminate.
      * intros x [<-|Hx]; auto.
        assert (Hm : rle a m).
        { assert (In a (l1 ++ [m])) by (apply (Permutation_in _ E4); left; auto).
          apply in_app_or in H0. destruct H0 as [H0|[<-|[]]]; auto. unfold rle; lia. }
        unfold rle in *. lia.
      * rewrite perm_swap. constructor. auto.
    + destruct (IH b tl Hs) as (l1 & m & E1 & E2 & E3 & E4 & E5).
      { intros x y [<-|Hx] Hy; apply Ht; auto; [right; left; auto|right; right; auto]. }
      destruct (bubble_from b (t ++ tl)) as [t' s] eqn:EB. cbn [fst snd] in *. subst t'.
      exists (a :: l1), m. cbn. repeat split; auto.
      * intros x [<-|Hx]; auto.
        assert (Hm : rle b m).
        { assert (In b (l1 ++ [m])) by (apply (Permutation_in _ E4); left; auto).
          apply in_app_or in H0. destruct H0 as [H0|[<-|[]]]; auto. unfold rle; lia. }
        unfold rle in *. lia.
      * destruct (E5 H0) as [S1 S2]. constructor; auto.
        destruct l1 as [|c l1]; [constructor|]. cbn in S2. injection S2 as -> _.
        inversion S1; subst. constructor; [unfold rle; lia|].
        revert H4. apply Forall_impl. unfold rle. intros. lia.
      * destruct (E5 H0) as [S1 S2]. congruence.
Qed.

Lemma bubble_tail : forall fuel l tl, (length l <= fuel)%nat -> (0 < fuel)%nat -> rsorted tl ->
  (forall x y, In x l -> In y tl -> rle x y) ->
  rsorted (bubble fuel (l ++ tl)) /\ Permutation (l ++ tl) (bubble fuel (l ++ tl)).
Proof.
  induction fuel as [|f IH]; intros l tl Hl Hf Hs Ht; [lia|].
  cbn [bubble]. destruct l as [|a t].
  - cbn [app]. destruct tl as [|b tl].
    + cbn. split; [constructor|auto].
    + inversion Hs; subst. cbn [bubble_pass].
      destruct (bubble_from_pass [] b tl H1) as (l1 & m & E1 & E2 & E3 & E4 & E5).
      { intros x y [<-|[]] Hy. rewrite Forall_forall in H2. auto. }
      destruct l1; [|discriminate E2]. cbn [app] in *.
      assert (m = b). { apply Permutation_length_1_inv in E4. congruence. } subst m.
      assert (snd (bubble_from b tl) = false).
      { clear - Hs. revert b Hs. induction tl; intros; cbn; auto. inversion Hs; subst.
        inversion H2; subst. destruct (Z.ltb_spec (ro_f a) (ro_f b)); [unfold rle in *; lia|].
        specialize (IHtl a H1). destruct (bubble_from a tl). auto. }
      destruct (bubble_from b tl) as [l' s]. cbn [fst snd] in *. subst. split; auto.
  - cbn [app bubble_pass].
    destruct (bubble_from_pass t a tl Hs Ht) as (l1 & m & E1 & E2 & E3 & E4 & E5).
    destruct (bubble_from a (t ++ tl)) as [l' s]. cbn [fst snd] in *. subst l'.
    assert (HP : Permutation (a :: t ++ tl) (l1 ++ m :: tl)).
    { change (a :: t ++ tl) with ((a :: t) ++ tl). rewrite E4, <- app_assoc. auto. }
    assert (Hm : forall y, In y tl -> rle m y).
    { intros y Hy. apply Ht; auto. apply (Permutation_in _ (Permutation_sym E4)). apply in_or_app. right. left. auto. }
    assert (Hl1 : forall x, In x l1 -> In x (a :: t)).
    { intros x Hx. apply (Permutation_in _ (Permutation_sym E4)). apply in_or_app. auto. }
    assert (Hmt : rsorted (m :: tl)) by (constructor; auto; apply Forall_forall; auto).
    destruct s.
    + cbn [length] in Hl. destruct f as [|f'].
      * destruct t; [|cbn in *; lia]. destruct l1; [|cbn in E2; lia]. cbn in *. split; auto.
      * destruct (IH l1 (m :: tl)) as [I1 I2]; auto; try lia.
        { intros x y Hx [<-|Hy]; auto. }
        split; auto. rewrite HP. auto.
    + split; auto. apply SSorted_app. destruct (E5 eq_refl) as [S1 S2]. split; auto. split; auto.
      intros x y Hx [<-|Hy]; auto.
Qed.

Lemma bubble_ok : forall l, rsorted (bubble (S (length l)) l) /\ Permutation l (bubble (S (length l)) l).
Proof.
  intros. destruct (bubble_tail (S (length l)) l []) as [H1 H2]; try lia; [constructor|intros ? ? ? []|].
  rewrite app_nil_r in *. auto.
Qed.

(** ** The partition *)
Lemma swap_length : forall A i j (l : list A), length (swap i j l) = length l.
Proof.
  intros. unfold swap. destruct (nth_error l i), (nth_error l j); auto. rewrite !upd_nth_length. auto.
Qed.

Lemma nth_error_swap : forall A i j (l : list A) t, (i < length l)%nat -> (j < length l)%nat ->
  nth_error (swap i j l) t = nth_error l (if Nat.eqb t i then j else if Nat.eqb t j then i else t).
Proof.
  intros A i j l t Hi Hj. unfold swap.
  destruct (nth_error l i) as [a|] eqn:Ea; [|apply nth_error_None in Ea; lia].
  destruct (nth_error l j) as [b|] eqn:Eb; [|apply nth_error_None in Eb; lia].
  destruct (Nat.eqb_spec t i) as [->|Hti].
  - destruct (Nat.eq_dec i j) as [->|Hij].
    + rewrite nth_error_upd_nth_eq by (rewrite upd_nth_length; auto). congruence.
    + rewrite nth_error_upd_nth_ne by auto. rewrite nth_error_upd_nth_eq by auto. congruence.
  - destruct (Nat.eqb_spec t j) as [->|Htj].
    + rewrite nth_error_upd_nth_eq by (rewrite upd_nth_length; auto). congruence.
    + rewrite !nth_error_upd_nth_ne by auto. reflexivity.
Qed.

Lemma swap_perm : forall A i j (l : list A), (i < length l)%nat -> (j < length l)%nat -> Permutation l (swap i j l).
Proof.
  intros A i j l Hi Hj. apply Permutation_nth_error. rewrite swap_length. split; auto.
  exists (fun t => if Nat.eqb t i then j else if Nat.eqb t j then i else t). split.
  - intros x y. destruct (Nat.eqb_spec x i), (Nat.eqb_spec x j), (Nat.eqb_spec y i), (Nat.eqb_spec y j); lia.
  - intros n. apply nth_error_swap; auto.
Qed.

Lemma partition_loop_ok : forall n i j p l piv,
  nth_error l p = Some piv -> length l = S p -> (j <= i)%nat -> (i <= p)%nat -> (i + n = S p)%nat ->
  (forall t a, (t < j)%nat -> nth_error l t = Some a -> ro_f a < ro_f piv) ->
  (forall t a, (j <= t < i)%nat -> nth_error l t = Some a -> ro_f piv <= ro_f a) ->
  let '(l', j') := partition_loop n i j p l in
  Permutation l l' /\ nth_error l' p = Some piv /\ length l' = S p /\ (j' <= p)%nat /\
  (forall t a, (t < j')%nat -> nth_error l' t = Some a -> ro_f a < ro_f piv) /\
  (forall t a, (j' <= t <= p)%nat -> nth_error l' t = Some a -> ro_f piv <= ro_f a).
Proof.
  induction n as [|n IH]; intros i j p l piv Hp Hl Hji Hip Hin H1 H2; [lia|].
  cbn [partition_loop]. rewrite Hp.
  destruct (nth_error l i) as [a|] eqn:Ea; [|apply nth_error_None in Ea; lia].
  destruct (Z.ltb_spec (ro_f a) (ro_f piv)) as [Hlt|Hge].
  - assert (Hne : i <> p) by (intros ->; rewrite Hp in Ea; injection Ea as ->; lia).
    assert (HX : let l2 := if (i =? j)%nat then l else swap i j l in
      Permutation l l2 /\ nth_error l2 p = Some piv /\ length l2 = S p /\
      (forall t a, (t < S j)%nat -> nth_error l2 t = Some a -> ro_f a < ro_f piv) /\
      (forall t a, (S j <= t < S i)%nat -> nth_error l2 t = Some a -> ro_f piv <= ro_f a)).
    { cbn zeta. destruct (Nat.eqb_spec i j) as [->|Hij].
      - repeat split; auto.
        + intros t b Ht Hb. destruct (Nat.eq_dec t j) as [->|]; [congruence|]. apply (H1 t); auto. lia.
        + intros t b Ht Hb. lia.
      - split; [apply swap_perm; lia|]. rewrite swap_length. rewrite nth_error_swap by lia.
        split. { destruct (Nat.eqb_spec p i), (Nat.eqb_spec p j); try lia; auto. }
        split; auto. split.
        + intros t b Ht Hb. rewrite nth_error_swap in Hb by lia.
          destruct (Nat.eqb_spec t i), (Nat.eqb_spec t j); try lia; [congruence|].
          apply (H1 t); auto. lia.
        + intros t b Ht Hb. rewrite nth_error_swap in Hb by lia.
          destruct (Nat.eqb_spec t i); [apply (H2 j); auto; lia|].
          destruct (Nat.eqb_spec t j); [lia|]. apply (H2 t); auto. lia. }
    cbn zeta in HX. destruct HX as (X1 & X2 & X3 & X4 & X5).
    specialize (IH (S i) (S j) p _ piv X2 X3 ltac:(lia) ltac:(lia) ltac:(lia) X4 X5).
    destruct (partition_loop n (S i) (S j) p _) as [l' j'].
    destruct IH as (Y1 & Y2). split; [etransitivity; eauto|exact Y2].
  - destruct n as [|n].
    { assert (i = p) by lia. subst i. cbn. repeat split; auto. intros t b Ht Hb.
      destruct (Nat.eq_dec t p) as [->|]; [rewrite Hp in Hb; injection Hb as <-; lia|]. apply (H2 t); auto. lia. }
    apply IH; auto; try lia. intros t b Ht Hb.
    destruct (Nat.eq_dec t i) as [->|]; [congruence|]. apply (H2 t); auto. lia.
Qed.

Lemma nth_error_firstn_In : forall A n (l : list A) x, In x (firstn n l) ->
  exists t, (t < n)%nat /\ nth_error l t = Some x.
Proof.
  induction n; intros l x H; [destruct H|]. destruct l; [destruct H|]. cbn in H. destruct H as [<-|H].
  - exists 0%nat. split; [lia|auto].
  - destruct (IHn l x H) as (t & T1 & T2). exists (S t). split; [lia|auto].
Qed.
Lemma nth_error_skipn_In : forall A n (l : list A) x, In x (skipn n l) ->
  exists t, (n <= t)%nat /\ nth_error l t = Some x.
Proof.
  induction n; intros l x H.
  - apply In_nth_error in H. destruct H as [t H]. exists t. split; [lia|auto].
  - destruct l; [destruct H|]. destruct (IHn l x H) as (t & T1 & T2). exists (S t). split; [lia|auto].
Qed.

Lemma nth_error_cut : forall A j (l : list A) x, nth_error l j = Some x ->
  l = firstn j l ++ x :: skipn (S j) l /\ firstn 1 (skipn j l) = [x].
Proof.
  induction j; intros l x H; destruct l; cbn in *; try discriminate.
  - split; congruence.
  - destruct (IHj l x H) as [H1 H2]. split; auto. cbn in H1. rewrite H1 at 1. reflexivity.
Qed.

(** sortoffsets sorts and permutes. *)
Lemma sortoffsets_ok : forall fuel l, (length l < fuel)%nat ->
  rsorted (sortoffsets fuel l) /\ Permutation l (sortoffsets fuel l).
Proof.
  induction fuel as [|f IH]; intros l Hl; [lia|]. cbn [sortoffsets].
  destruct (Nat.ltb_spec (length l) 16) as [H16|H16]; [apply bubble_ok|].
  set (l1 := swap (length l / 2) (length l - 1) l).
  assert (Hd : (length l / 2 < length l)%nat) by (apply Nat.div_lt; lia).
  assert (L1 : length l1 = S (length l - 1)) by (unfold l1; rewrite swap_length; lia).
  assert (P1 : Permutation l l1) by (apply swap_perm; lia).
  destruct (nth_error l1 (length l - 1)) as [piv|] eqn:Ep; [|apply nth_error_None in Ep; lia].
  pose proof (partition_loop_ok (length l) 0 0 (length l - 1) l1 piv Ep L1 ltac:(lia) ltac:(lia) ltac:(lia)
     ltac:(intros; lia) ltac:(intros; lia)) as HP.
  destruct (partition_loop (length l) 0 0 (length l - 1) l1) as [l2 j].
  destruct HP as (Q1 & Q2 & Q3 & Q4 & Q5 & Q6).
  set (l3 := swap (length l - 1) j l2).
  assert (P3 : Permutation l l3) by (rewrite P1, Q1; apply swap_perm; lia).
  assert (L3 : length l3 = length l) by (unfold l3; rewrite swap_length; lia).
  assert (N3 : forall t, nth_error l3 t = nth_error l2 (if Nat.eqb t (length l - 1) then j else if Nat.eqb t j then length l - 1 else t)).
  { intros t. apply nth_error_swap; lia. }
  assert (Nj : nth_error l3 j = Some piv).
  { rewrite N3. rewrite Nat.eqb_refl. destruct (Nat.eqb_spec j (length l - 1)); [congruence|auto]. }
  assert (A1 : forall x, In x (firstn j l3) -> ro_f x < ro_f piv).
  { intros x Hx. apply nth_error_firstn_In in Hx. destruct Hx as (t & T1 & T2). rewrite N3 in T2.
    destruct (Nat.eqb_spec t (length l - 1)); [lia|]. destruct (Nat.eqb_spec t j); [lia|]. eapply Q5; eauto. }
  assert (A2 : forall x, In x (skipn (S j) l3) -> ro_f piv <= ro_f x).
  { intros x Hx. apply nth_error_skipn_In in Hx. destruct Hx as (t & T1 & T2).
    assert (t < length l3)%nat by (apply nth_error_Some; congruence). rewrite N3 in T2.
    destruct (Nat.eqb_spec t (length l - 1)).
    - apply (Q6 j x); [lia|exact T2].
    - destruct (Nat.eqb_spec t j); [lia|]. apply (Q6 t x); [lia|exact T2]. }
  destruct (nth_error_cut _ _ _ _ Nj) as [D3 F1].
  rewrite F1.
  destruct (IH (firstn j l3)) as [S1 R1]. { rewrite firstn_length. lia. }
  destruct (IH (skipn (S j) l3)) as [S2 R2]. { rewrite skipn_length. lia. }
  split.
  - apply SSorted_app. split; auto. split.
    + cbn [app]. constructor; auto. apply Forall_forall. intros x Hx.
      apply A2. eapply Permutation_in; [symmetry; exact R2|exact Hx].
    + intros x y Hx Hy. apply (Permutation_in _ (Permutation_sym R1)) in Hx. apply A1 in Hx.
      destruct Hy as [<-|Hy]; [unfold rle; lia|].
      apply (Permutation_in _ (Permutation_sym R2)) in Hy. apply A2 in Hy. unfold rle. lia.
  - rewrite P3. rewrite D3 at 1. cbn [app]. apply Permutation_app; auto.
Qed.
