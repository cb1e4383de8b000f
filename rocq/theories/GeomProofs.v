(** Facts about regions, coordinates and row-major positions. *)
From Verif Require Import Base BaseProofs Spec MetaModel IndexModel ReadModel.
From Coq Require Import ZifyBool ZifyNat ZifyN.

(** Row-major position of a coordinate in an array of the given sizes. *)
Fixpoint rm (size c : list Z) : Z :=
  match size, c with
  | _ :: ns, c0 :: cs => c0 * Zprod ns + rm ns cs
  | _, _ => 0
  end.

Fixpoint subv (a b : list Z) : list Z :=
  match a, b with
  | x :: a', y :: b' => x - y :: subv a' b'
  | _, _ => []
  end.

Definition nonneg (l : list Z) : Prop := Forall (fun x => 0 <= x) l.

Lemma dsteps_of_cons : forall d ds, dsteps_of (d :: ds) = Zprod ds :: dsteps_of ds.
Proof.
  intros d ds. revert d. induction ds as [|d1 ds IH]; intros d; [reflexivity|].
  change (dsteps_of (d :: d1 :: ds)) with
    (match dsteps_of (d1 :: ds) with s1 :: ss => s1 * d1 :: s1 :: ss | [] => [] end).
  rewrite (IH d1). f_equal. unfold Zprod. cbn. lia.
Qed.

Lemma dsteps_of_length : forall ds, length (dsteps_of ds) = length ds.
Proof. induction ds; auto. rewrite dsteps_of_cons. cbn. auto. Qed.

Lemma sel_encode_rm : forall size c, sel_encode (dsteps_of size) c = rm size c.
Proof.
  induction size as [|n ns IH]; intros c; [reflexivity|].
  rewrite dsteps_of_cons. destruct c; cbn [sel_encode rm]; auto. rewrite IH. reflexivity.
Qed.

Lemma lin_rm : forall e size c, lin e size c = e * rm size c.
Proof. intros. unfold lin. rewrite sel_encode_rm. reflexivity. Qed.

(** ** inside and coords_of *)
Lemma inside_length : forall s n c, inside s n c -> length s = length n /\ length c = length n.
Proof.
  induction s; destruct n, c; cbn; intros; try tauto; try lia.
  destruct H as [_ H]. apply IHs in H. lia.
Qed.

Lemma In_coords_of : forall s n c, length s = length n -> (In c (coords_of s n) <-> inside s n c).
Proof.
  induction s as [|s0 s IH]; destruct n as [|n0 n]; intros c Hl; cbn in Hl; try lia.
  - cbn. destruct c; split; intros; auto; try tauto. destruct H; [discriminate|tauto].
  - cbn [coords_of]. rewrite in_flat_map. split.
    + intros [i [Hi Hc]]. apply zseq_In in Hi. apply in_map_iff in Hc.
      destruct Hc as [c' [<- Hc]]. apply IH in Hc; [|lia]. cbn. split; [lia|auto].
    + destruct c as [|c0 c]; cbn; [tauto|]. intros [H0 H1].
      exists (c0 - s0). split; [apply zseq_In; lia|].
      apply in_map_iff. exists c. split; [f_equal; lia|]. apply IH; auto; lia.
Qed.

Lemma coords_of_len : forall s n c, length s = length n -> In c (coords_of s n) -> length c = length n.
Proof. intros. apply In_coords_of in H0; auto. apply inside_length in H0. tauto. Qed.

Lemma flat_map_const_length : forall A B (f : A -> list B) l m,
  (forall x, In x l -> length (f x) = m) -> length (flat_map f l) = (length l * m)%nat.
Proof.
  induction l; intros; cbn; auto. rewrite app_length, H by (left; auto).
  rewrite IHl with (m := m); auto. intros. apply H. right; auto.
Qed.

Lemma nth_error_flat_map_const : forall A B (f : A -> list B) l m i j x,
  (forall x, In x l -> length (f x) = m) -> nth_error l i = Some x -> (j < m)%nat ->
  nth_error (flat_map f l) (i * m + j) = nth_error (f x) j.
Proof.
  induction l as [|a l IH]; intros m i j x Hm Hi Hj.
  - destruct i; discriminate.
  - destruct i; cbn in Hi.
    + injection Hi as ->. cbn [Nat.mul Nat.add flat_map].
      apply nth_error_app1. rewrite Hm by (left; auto). auto.
    + cbn [flat_map]. rewrite nth_error_app2 by (rewrite Hm by (left; auto); cbn; lia).
      rewrite Hm by (left; auto).
      replace (S i * m + j - m)%nat with (i * m + j)%nat by (cbn; lia).
      eapply IH; eauto. intros; apply Hm; right; auto.
Qed.

Lemma coords_of_length : forall s n, length s = length n -> nonneg n ->
  length (coords_of s n) = Z.to_nat (Zprod n).
Proof.
  induction s as [|s0 s IH]; destruct n as [|n0 n]; intros Hl Hn; cbn in Hl; try lia; auto.
  inversion Hn; subst. cbn [coords_of].
  rewrite flat_map_const_length with (m := Z.to_nat (Zprod n)).
  - rewrite zseq_length. unfold Zprod; cbn [fold_right]. fold (Zprod n).
    pose proof (Zprod_nonneg n H2). rewrite Z2Nat.inj_mul; auto.
  - intros. rewrite map_length. apply IH; auto; lia.
Qed.

Lemma rm_bound : forall n c, length c = length n ->
  (forall i x y, nth_error n i = Some x -> nth_error c i = Some y -> 0 <= y < x) ->
  0 <= rm n c < Zprod n.
Proof.
  induction n as [|n0 n IH]; destruct c as [|c0 c]; intros Hl H; cbn in Hl; try lia.
  - cbn. lia.
  - cbn [rm]. unfold Zprod; cbn [fold_right]; fold (Zprod n).
    assert (H0 : 0 <= c0 < n0) by (apply (H 0%nat); reflexivity).
    assert (H1 : 0 <= rm n c < Zprod n).
    { apply IH; [lia|]. intros i x y Hx Hy. apply (H (S i)); auto. }
    nia.
Qed.

Lemma rm_inside : forall s n c, inside s n c -> 0 <= rm n (subv c s) < Zprod n.
Proof.
  induction s as [|s0 s IH]; destruct n as [|n0 n], c as [|c0 c]; cbn [inside]; try tauto; intros H.
  - cbn. lia.
  - destruct H as [H0 H1]. apply IH in H1. cbn [rm subv].
    unfold Zprod; cbn [fold_right]; fold (Zprod n). nia.
Qed.

Lemma nth_error_coords_of : forall s n c, nonneg n -> inside s n c ->
  nth_error (coords_of s n) (Z.to_nat (rm n (subv c s))) = Some c.
Proof.
  induction s as [|s0 s IH]; destruct n as [|n0 n], c as [|c0 c]; cbn [inside]; intros Hn H; try tauto.
  - destruct H as [H0 H1]. inversion Hn; subst.
    cbn [rm subv coords_of].
    pose proof (rm_inside _ _ _ H1) as Hb.
    pose proof (inside_length _ _ _ H1) as [Hl _].
    replace (Z.to_nat ((c0 - s0) * Zprod n + rm n (subv c s))) with
      (Z.to_nat (c0 - s0) * Z.to_nat (Zprod n) + Z.to_nat (rm n (subv c s)))%nat by nia.
    erewrite nth_error_flat_map_const with (x := c0 - s0).
    + rewrite nth_error_map, IH by auto. cbn. do 2 f_equal. lia.
    + intros. rewrite map_length. apply coords_of_length; auto.
    + rewrite zseq_nth_error by lia. f_equal. lia.
    + lia.
Qed.

Lemma coords_of_NoDup : forall s n, length s = length n -> NoDup (coords_of s n).
Proof.
  induction s as [|s0 s IH]; destruct n as [|n0 n]; intros Hl; cbn in Hl; try lia.
  - cbn. repeat constructor. auto.
  - cbn [coords_of].
    assert (D : forall l, NoDup l -> NoDup (flat_map (fun i => map (cons (s0 + i)) (coords_of s n)) l)).
    { induction l as [|i l IHl]; intros Hd; cbn; [constructor|].
      inversion Hd; subst.
      assert (Ha : NoDup (map (cons (s0 + i)) (coords_of s n))).
      { apply FinFun.Injective_map_NoDup; [|apply IH; lia]. intros a b E. congruence. }
      specialize (IHl H2).
      assert (Hx : forall x, In x (map (cons (s0 + i)) (coords_of s n)) ->
        ~ In x (flat_map (fun i => map (cons (s0 + i)) (coords_of s n)) l)).
      { intros x Hx1 Hx2. apply in_map_iff in Hx1. destruct Hx1 as [c [<- _]].
        apply in_flat_map in Hx2. destruct Hx2 as [k [Hk Hx2]].
        apply in_map_iff in Hx2. destruct Hx2 as [c' [E _]].
        assert (k = i) by (injection E; lia). subst. auto. }
      clear - Ha IHl Hx.
      induction Ha; cbn; auto. constructor.
      - rewrite in_app_iff. intros [?|?]; auto. apply (Hx x); [left; auto|auto].
      - apply IHHa. intros; apply Hx; right; auto. }
    apply D. apply zseq_NoDup.
Qed.

(** Positions determine coordinates. *)
Lemma rm_inj : forall s n c c', nonneg n -> inside s n c -> inside s n c' ->
  rm n (subv c s) = rm n (subv c' s) -> c = c'.
Proof.
  intros s n c c' Hn H H' E.
  pose proof (nth_error_coords_of _ _ _ Hn H) as P.
  pose proof (nth_error_coords_of _ _ _ Hn H') as P'.
  rewrite E in P. congruence.
Qed.

(** The k-th coordinate has position k. *)
Lemma nth_error_coords_rm : forall s n k c, length s = length n -> nonneg n ->
  nth_error (coords_of s n) k = Some c -> inside s n c /\ rm n (subv c s) = Z.of_nat k.
Proof.
  intros s n k c Hl Hn H.
  assert (Hi : inside s n c). { apply In_coords_of; auto. eapply nth_error_In; eauto. }
  split; auto.
  pose proof (nth_error_coords_of _ _ _ Hn Hi) as P.
  pose proof (rm_inside _ _ _ Hi).
  assert (E : Z.to_nat (rm n (subv c s)) = k).
  { eapply NoDup_nth_error; [apply coords_of_NoDup; eauto| |congruence].
    apply nth_error_Some. congruence. }
  lia.
Qed.

(** ** Vector arithmetic *)
Lemma addv_length : forall a b, length (addv a b) = length a.
Proof. induction a; destruct b; cbn; auto. Qed.
Lemma subv_length : forall a b, length a = length b -> length (subv a b) = length b.
Proof. induction a; destruct b; cbn; auto. Qed.
Lemma addv_subv : forall a b, length a = length b -> addv b (subv a b) = a.
Proof. induction a; destruct b; cbn; intros; auto; try lia. rewrite IHa by lia. f_equal. lia. Qed.
Lemma subv_addv : forall a b, length a = length b -> subv (addv a b) a = b.
Proof. induction a; destruct b; cbn; intros; auto; try lia. rewrite IHa by lia. f_equal. lia. Qed.

Lemma coords_of_addv : forall s t n, length s = length n -> length t = length n ->
  coords_of (addv s t) n = map (addv s) (coords_of t n).
Proof.
  induction s as [|s0 s IH]; destruct t as [|t0 t], n as [|n0 n]; intros; cbn in *; try lia; auto.
  rewrite IH by lia. clear IH. generalize (zseq n0). induction l; cbn; auto.
  rewrite map_app, IHl. f_equal. rewrite !map_map. apply map_ext. intros. cbn. f_equal. lia.
Qed.

Definition zeros (l : list Z) : list Z := map (fun _ => 0) l.
Lemma zeros_length : forall l, length (zeros l) = length l.
Proof. intros. unfold zeros. apply map_length. Qed.
Lemma addv_zeros : forall s n, length s = length n -> addv s (zeros n) = s.
Proof. induction s; destruct n; cbn; intros; try lia; auto. fold (zeros n). rewrite IHs by lia. f_equal. lia. Qed.

Lemma coords_of_zeros : forall s n, length s = length n ->
  coords_of s n = map (addv s) (coords_of (zeros n) n).
Proof.
  intros. rewrite <- coords_of_addv by (rewrite ?zeros_length; auto).
  rewrite addv_zeros; auto.
Qed.

Lemma coords_of_nonempty : forall s n c, In c (coords_of s n) -> length s = length n ->
  Forall (fun x => 0 < x) n.
Proof.
  induction s as [|s0 s IH]; destruct n as [|n0 n]; intros c Hc Hl; cbn in Hl; try lia; auto.
  apply In_coords_of in Hc; [|cbn; lia]. destruct c as [|c0 c]; cbn in Hc; [tauto|].
  destruct Hc as [H0 H1]. constructor; [lia|].
  apply In_coords_of in H1; [|lia]. eapply IH; eauto.
Qed.

(** ** Intersection of two regions *)
Lemma intersect_spec : forall sa ca sb cb, length sa = length ca -> length sb = length sa ->
  length cb = length sa -> forall c, length c = length sa ->
  match intersect sa ca sb cb with
  | Some (os, oc) => (inside sa ca c /\ inside sb cb c) <-> inside os oc c
  | None => ~ (inside sa ca c /\ inside sb cb c)
  end.
Proof.
  induction sa as [|a sa IH]; destruct ca as [|x ca], sb as [|b sb], cb as [|y cb];
    intros Hl1 Hl2 Hl3 c Hc; cbn in Hl1, Hl2, Hl3; try lia.
  - cbn. destruct c; cbn in Hc; [tauto|lia].
  - destruct c as [|c0 c]; cbn in Hc; [lia|].
    cbn [intersect]. destruct (Z.leb_spec (Z.min (a + x) (b + y)) (Z.max a b)).
    + cbn. lia.
    + specialize (IH ca sb cb ltac:(lia) ltac:(lia) ltac:(lia) c ltac:(lia)).
      destruct (intersect sa ca sb cb) as [[os oc]|].
      * cbn [inside]. rewrite <- IH.
        split; [intros [[? ?] [? ?]]|intros [? [? ?]]]; repeat split; auto; lia.
      * cbn [inside]. tauto.
Qed.

Lemma intersect_length : forall sa ca sb cb os oc, length sa = length ca -> length sb = length sa ->
  length cb = length sa -> intersect sa ca sb cb = Some (os, oc) ->
  length os = length sa /\ length oc = length sa.
Proof.
  induction sa as [|a sa IH]; destruct ca as [|x ca], sb as [|b sb], cb as [|y cb];
    intros os oc Hl1 Hl2 Hl3 H; cbn in Hl1, Hl2, Hl3; try lia.
  - cbn in H. injection H as <- <-. auto.
  - cbn [intersect] in H. destruct (Z.min (a + x) (b + y) <=? Z.max a b); [discriminate|].
    destruct (intersect sa ca sb cb) as [[os' oc']|] eqn:E; [|discriminate].
    injection H as <- <-. apply IH in E; try lia. cbn. lia.
Qed.

(** The intersection is nonempty and inside both regions, dimension by dimension. *)
Inductive sub_region : list Z -> list Z -> list Z -> list Z -> Prop :=
| sub_nil : sub_region [] [] [] []
| sub_cons : forall o k a x os oc sa ca, a <= o -> 0 < k -> o + k <= a + x ->
    sub_region os oc sa ca -> sub_region (o :: os) (k :: oc) (a :: sa) (x :: ca).

Lemma intersect_sub : forall sa ca sb cb os oc, length sa = length ca -> length sb = length sa ->
  length cb = length sa -> intersect sa ca sb cb = Some (os, oc) ->
  sub_region os oc sa ca /\ sub_region os oc sb cb.
Proof.
  induction sa as [|a sa IH]; destruct ca as [|x ca], sb as [|b sb], cb as [|y cb];
    intros os oc Hl1 Hl2 Hl3 H; cbn in Hl1, Hl2, Hl3; try lia.
  - cbn in H. injection H as <- <-. split; constructor.
  - cbn [intersect] in H. destruct (Z.leb_spec (Z.min (a + x) (b + y)) (Z.max a b)); [discriminate|].
    destruct (intersect sa ca sb cb) as [[os' oc']|] eqn:E; [|discriminate].
    injection H as <- <-. apply IH in E; try lia. destruct E. split; constructor; auto; lia.
Qed.

Lemma sub_region_inside : forall os oc sa ca, sub_region os oc sa ca ->
  forall c, inside os oc c -> inside sa ca c.
Proof.
  induction 1; intros c Hc; destruct c; cbn in *; try tauto.
  destruct Hc. split; [lia|auto].
Qed.
Lemma sub_region_length : forall os oc sa ca, sub_region os oc sa ca ->
  length os = length sa /\ length oc = length sa /\ length ca = length sa.
Proof. induction 1; cbn; lia. Qed.
Lemma sub_region_pos : forall os oc sa ca, sub_region os oc sa ca -> Forall (fun x => 0 < x) oc.
Proof. induction 1; constructor; auto. Qed.
