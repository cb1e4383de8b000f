(** Proofs about the conversion of selections: sorting, rows, groups. *)
From Verif Require Import Base BaseProofs Spec ReadModel GeomProofs SelModel SelSpec ReorderProofs SelProofs.
From Coq Require Import ZifyNat.

(** ** Sorting *)
Lemma map_nth_seq : forall A (l : list A) d, map (fun i => nth i l d) (seq 0 (length l)) = l.
Proof.
  intros A l d. apply (nth_ext _ _ d d); rewrite map_length, seq_length; auto. intros i Hi.
  rewrite (nth_indep _ d (nth (length l) l d)) by (rewrite map_length, seq_length; auto).
  rewrite (map_nth (fun i => nth i l d) (seq 0 (length l)) (length l) i), seq_nth by auto. reflexivity.
Qed.
Lemma SS_map : forall A B (f : A -> B) (R : B -> B -> Prop) l, StronglySorted R (map f l) <-> StronglySorted (fun a b => R (f a) (f b)) l.
Proof.
  induction l as [|x l IH]; cbn; [split; constructor|]. rewrite !SS_cons_iff, IH, Forall_map. tauto.
Qed.
Lemma SS_impl_In : forall A (R S : A -> A -> Prop) l, (forall a b, In a l -> In b l -> R a b -> S a b) -> StronglySorted R l -> StronglySorted S l.
Proof.
  induction l as [|x l IH]; intros H HS; [constructor|]. apply SS_cons_iff in HS. destruct HS as [HS HF]. constructor.
  - apply IH; auto. intros; apply H; auto; right; auto.
  - rewrite Forall_forall in *. intros y Hy. apply H; [left; auto|right; auto|apply HF; auto].
Qed.
Definition nolater (a b : list Z) : Prop := lessthan b a = false.
Lemma sortblocks_ok : forall order l, is_order order ->
  Permutation l (sortblocks order l) /\ StronglySorted (fun a b => nolater (fst a) (fst b)) (sortblocks order l).
Proof.
  intros order l HO. destruct (HO (map fst l)) as [HP HS]. rewrite map_length in HP. unfold sortblocks.
  rewrite reorder_ok by exact HP. split.
  - rewrite <- (map_nth_seq _ l ([], [])) at 1. apply Permutation_map. exact HP.
  - apply SS_map. eapply SS_impl_In; [|exact HS]. intros i j Hi Hj H. unfold nolater.
    assert (E : forall k, nth k (map fst l) [] = fst (nth k l ([], []))) by (intros k; apply (map_nth fst l ([], []))).
    rewrite <- !E. exact H.
Qed.
Lemma not_lessthan : forall a b, length a = length b -> nolater a b -> beq a b.
Proof.
  intros a b HL H. destruct (before_total a b HL) as [|[]]; [right; auto|left; auto|]. apply before_lessthan in H0. unfold nolater in H. congruence.
Qed.
Lemma sorted_unique : forall (l l' : list entry), Permutation l l' -> StronglySorted before (map fst l) ->
  StronglySorted (fun a b => nolater (fst a) (fst b)) l' -> l' = l.
Proof.
  induction l as [|x l IH]; intros l' HP HS HS'.
  - apply Permutation_nil in HP. auto.
  - destruct l' as [|y l']; [apply Permutation_sym, Permutation_nil in HP; discriminate|].
    cbn [map] in HS. apply SS_cons_iff in HS. destruct HS as [HS HF]. apply SS_cons_iff in HS'. destruct HS' as [HS' HF'].
    assert (y = x).
    { assert (Hy : In y (x :: l)) by (apply (Permutation_in _ (Permutation_sym HP)); left; auto). destruct Hy as [|Hy]; auto.
      assert (Hx : In x (y :: l')) by (apply (Permutation_in _ HP); left; auto). destruct Hx as [|Hx]; auto.
      rewrite Forall_forall in HF, HF'. specialize (HF (fst y) (in_map _ _ _ Hy)). specialize (HF' x Hx).
      apply before_lessthan in HF. unfold nolater in HF'. congruence. }
    subst. f_equal. apply IH; auto. eapply Permutation_cons_inv; eauto.
Qed.

(** ** Rows *)
Lemma combine_rev_ : forall A B (a : list A) (b : list B), length a = length b -> combine (rev a) (rev b) = rev (combine a b).
Proof.
  assert (G : forall A B (a : list A) (b : list B) a' b', length a = length b -> combine (a ++ a') (b ++ b') = combine a b ++ combine a' b').
  { induction a; destruct b; cbn; intros; try lia; auto. f_equal. apply IHa. lia. }
  induction a as [|x a IH]; destruct b as [|y b]; cbn; intros H; try lia; auto. rewrite G by (rewrite !rev_length; lia). rewrite IH by lia. reflexivity.
Qed.
Fixpoint ov (s he : list Z) : bool :=
  match s, he with
  | y :: t, e :: he' => (e <? y) && match t with [] => true | z :: t' => ov (z + 1 :: t') he' end
  | _, _ => true
  end.
Lemma ov_all : forall t y he, length he = S (length t) -> ov (y + 1 :: t) he = negb (existsb (fun p => fst p <? snd p) (combine (y :: t) he)).
Proof.
  induction t as [|z t IH]; intros y [|e he] H; cbn in H; try lia.
  - destruct he; [|cbn in H; lia]. cbn. destruct (Z.ltb_spec e (y + 1)), (Z.ltb_spec y e); auto; lia.
  - change (ov (y + 1 :: z :: t) (e :: he)) with ((e <? y + 1) && ov (z + 1 :: t) he). rewrite IH by lia. cbn [combine existsb fst snd].
    destruct (Z.ltb_spec e (y + 1)), (Z.ltb_spec y e); auto; lia.
Qed.
Lemma carry_app : forall t y hs he x a b, length hs = S (length t) -> length he = S (length t) ->
  carry (y :: t ++ [x]) (hs ++ [a]) (he ++ [b]) = if ov (y :: t) he then hs ++ [x + 1] else carry (y :: t) hs he ++ [x].
Proof.
  induction t as [|z t IH]; intros y [|h hs] [|e he] x a b H1 H2; cbn in H1, H2; try lia.
  - destruct hs, he; cbn in H1, H2; try lia. cbn. destruct (e <? y); auto.
  - change (carry (y :: (z :: t) ++ [x]) ((h :: hs) ++ [a]) ((e :: he) ++ [b])) with
      (if e <? y then h :: carry (z + 1 :: t ++ [x]) (hs ++ [a]) (he ++ [b]) else y :: (z :: t) ++ [x]).
    change (ov (y :: z :: t) (e :: he)) with ((e <? y) && ov (z + 1 :: t) he).
    change (carry (y :: z :: t) (h :: hs) (e :: he)) with (if e <? y then h :: carry (z + 1 :: t) hs he else y :: z :: t).
    destruct (e <? y); cbn [andb]; auto. rewrite IH by lia. destruct (ov (z + 1 :: t) he); auto.
Qed.
Lemma existsb_rev_ : forall A (f : A -> bool) l, existsb f (rev l) = existsb f l.
Proof. induction l; cbn; auto. rewrite existsb_app, IHl. cbn. rewrite orb_false_r. apply orb_comm. Qed.
Lemma next_row_cons : forall s hs he x a b, length hs = length s -> length he = length s -> s <> [] ->
  next_row (x :: s) (a :: hs) (b :: he) = if more_rows s he then x :: next_row s hs he else (x + 1) :: hs.
Proof.
  intros s hs he x a b H1 H2 H3. unfold next_row. cbn [rev].
  assert (Hr : length (rev s) = length s) by apply rev_length.
  destruct (rev s) as [|y t] eqn:E; [exfalso; apply H3; rewrite <- (rev_involutive s), E; reflexivity|].
  cbn [app]. rewrite carry_app by (rewrite rev_length; cbn in Hr; lia). cbn in Hr.
  rewrite ov_all by (rewrite rev_length; lia).
  assert (EM : more_rows s he = existsb (fun p => fst p <? snd p) (combine (y :: t) (rev he))).
  { unfold more_rows. rewrite <- E, combine_rev_ by lia. rewrite existsb_rev_. reflexivity. }
  rewrite <- EM. destruct (more_rows s he); cbn [negb]; rewrite rev_app_distr; cbn [rev app]; auto. rewrite rev_involutive. reflexivity.
Qed.
Lemma next_row_one : forall x a b, next_row [x] [a] [b] = [x + 1].
Proof. reflexivity. Qed.

Definition cnts (hs he : list Z) : list Z := map (fun p => snd p - fst p + 1) (combine hs he).
Fixpoint rest (s hs he : list Z) : list (list Z) :=
  match s, hs, he with
  | x :: s', _ :: hs', b :: he' =>
      map (cons x) (rest s' hs' he') ++ flat_map (fun i => map (cons (x + 1 + i)) (coords_of hs' (cnts hs' he'))) (zseq (b - x))
  | _, _, _ => [[]]
  end.
Lemma rest_start : forall hs he, length he = length hs -> Forall2 Z.le hs he -> rest hs hs he = coords_of hs (cnts hs he).
Proof.
  induction hs as [|a hs IH]; intros [|b he] HL HF; cbn in HL; try lia; auto. inversion HF; subst.
  cbn [rest]. unfold cnts. cbn [combine map fst snd coords_of]. fold (cnts hs he). rewrite IH by (auto; lia).
  rewrite (zseq_shift (b - a + 1)) by lia. cbn [flat_map]. rewrite Z.add_0_r. f_equal. rewrite flat_map_map.
  replace (b - a + 1 - 1) with (b - a) by lia. apply flat_map_ext_all. intros i. replace (a + 1 + i) with (a + (i + 1)) by lia. reflexivity.
Qed.
Lemma rest_unfold : forall s hs he, length hs = length s -> length he = length s -> Forall2 Z.le hs he -> Forall2 Z.le s he ->
  rest s hs he = s :: (if more_rows s he then rest (next_row s hs he) hs he else []).
Proof.
  induction s as [|x s IH]; intros [|a hs] [|b he] H1 H2 HF HF2; cbn in H1, H2; try lia; auto. inversion HF; inversion HF2; subst.
  unfold more_rows. cbn [combine existsb fst snd]. fold (more_rows s he).
  assert (S0 : forall y, y < b -> flat_map (fun i => map (cons (y + 1 + i)) (coords_of hs (cnts hs he))) (zseq (b - y)) = rest (y + 1 :: hs) (a :: hs) (b :: he)).
  { intros y Hy. cbn [rest]. rewrite rest_start by (auto; lia). rewrite (zseq_shift (b - y)) by lia. cbn [flat_map]. rewrite Z.add_0_r. f_equal. rewrite flat_map_map.
    replace (b - y - 1) with (b - (y + 1)) by lia. apply flat_map_ext_all. intros i. replace (y + 1 + (i + 1)) with (y + 1 + 1 + i) by lia. reflexivity. }
  destruct s as [|x2 s].
  - destruct hs, he; cbn in H1, H2; try lia. cbn [more_rows combine existsb]. rewrite orb_false_r.
    change (rest [x] [a] [b]) with ([x] :: flat_map (fun i => map (cons (x + 1 + i)) (coords_of [] (cnts [] []))) (zseq (b - x))).
    f_equal. destruct (Z.ltb_spec x b); [rewrite S0 by auto; reflexivity|rewrite zseq_0 by lia; reflexivity].
  - rewrite next_row_cons by (try lia; discriminate).
    destruct (more_rows (x2 :: s) he) eqn:EM.
    + rewrite orb_true_r. cbn [rest]. fold rest. change (map (cons x) (rest (x2 :: s) hs he) ++ flat_map (fun i => map (cons (x + 1 + i)) (coords_of hs (cnts hs he))) (zseq (b - x)) =
        (x :: x2 :: s) :: map (cons x) (rest (next_row (x2 :: s) hs he) hs he) ++ flat_map (fun i => map (cons (x + 1 + i)) (coords_of hs (cnts hs he))) (zseq (b - x))).
      rewrite IH by (auto; lia). rewrite EM. reflexivity.
    + change (rest (x :: x2 :: s) (a :: hs) (b :: he)) with (map (cons x) (rest (x2 :: s) hs he) ++ flat_map (fun i => map (cons (x + 1 + i)) (coords_of hs (cnts hs he))) (zseq (b - x))).
      rewrite IH by (auto; lia). rewrite EM. cbn [map app]. f_equal. rewrite orb_false_r.
      destruct (Z.ltb_spec x b); [apply S0; auto|rewrite zseq_0 by lia; reflexivity].
Qed.
Lemma next_row_le : forall s hs he, length hs = length s -> length he = length s -> Forall2 Z.le hs he -> Forall2 Z.le s he -> more_rows s he = true ->
  Forall2 Z.le (next_row s hs he) he.
Proof.
  induction s as [|x s IH]; intros [|a hs] [|b he] H1 H2 HF HF2 HM; cbn in H1, H2; try lia; [discriminate|]. inversion HF; inversion HF2; subst.
  unfold more_rows in HM. cbn [combine existsb fst snd] in HM. fold (more_rows s he) in HM.
  destruct s as [|x2 s].
  - destruct hs, he; cbn in H1, H2; try lia. cbn in HM. rewrite orb_false_r in HM. apply Z.ltb_lt in HM. cbn. constructor; auto. lia.
  - rewrite next_row_cons by (try lia; discriminate). destruct (more_rows (x2 :: s) he) eqn:EM.
    + constructor; auto.
    + rewrite orb_false_r in HM. apply Z.ltb_lt in HM. constructor; auto. lia.
Qed.
Lemma Forall2_le_len : forall a b, Forall2 Z.le a b -> length a = length b.
Proof. induction 1; cbn; lia. Qed.
Lemma break_from_rest : forall fuel s hs he, length hs = length s -> length he = length s -> Forall2 Z.le hs he -> Forall2 Z.le s he ->
  (length (rest s hs he) <= fuel)%nat -> break_from fuel s hs he = rest s hs he.
Proof.
  induction fuel as [|f IH]; intros s hs he H1 H2 HF HF2 HL; rewrite rest_unfold in * by auto; cbn [length] in HL; [lia|].
  cbn [break_from]. f_equal. destruct (more_rows s he) eqn:EM; auto.
  assert (HN := next_row_le s hs he H1 H2 HF HF2 EM). pose proof (Forall2_le_len _ _ HN). apply IH; auto; lia.
Qed.
Lemma cnts_pos : forall hs he, Forall2 Z.le hs he -> Forall (fun x => 0 < x) (cnts hs he).
Proof. unfold cnts. induction 1; cbn; constructor; auto. cbn. lia. Qed.
Lemma cnts_length : forall hs he, length he = length hs -> length (cnts hs he) = length hs.
Proof. intros. unfold cnts. rewrite map_length, combine_length. lia. Qed.
Lemma pos_nonneg : forall l, Forall (fun x => 0 < x) l -> nonneg l.
Proof. intros l H. eapply Forall_impl; [|exact H]. cbn; lia. Qed.
Lemma break_from_ok : forall hs he, length he = length hs -> Forall2 Z.le hs he ->
  break_from (Z.to_nat (Zprod (cnts hs he))) hs hs he = coords_of hs (cnts hs he).
Proof.
  intros hs he HL HF. rewrite break_from_rest; auto; rewrite rest_start by auto; auto.
  rewrite coords_of_length; [apply Nat.le_refl|rewrite cnts_length; auto|apply pos_nonneg, cnts_pos; auto].
Qed.

Lemma flat_map_flat_map : forall A B C (f : B -> list C) (g : A -> list B) l,
  flat_map f (flat_map g l) = flat_map (fun x => flat_map f (g x)) l.
Proof. induction l; cbn; auto. rewrite flat_map_app, IHl. reflexivity. Qed.
Lemma map_flat_map : forall A B C (f : B -> C) (g : A -> list B) l, map f (flat_map g l) = flat_map (fun x => map f (g x)) l.
Proof. induction l; cbn; auto. rewrite map_app, IHl. reflexivity. Qed.
Lemma coords_of_snoc : forall s n a c, length s = length n ->
  coords_of (s ++ [a]) (n ++ [c]) = flat_map (fun p => map (fun i => p ++ [a + i]) (zseq c)) (coords_of s n).
Proof.
  induction s as [|x s IH]; intros [|m n] a c H; cbn in H; try lia.
  - cbn. rewrite app_nil_r. induction (zseq c); cbn; congruence.
  - cbn [app coords_of]. rewrite flat_map_flat_map. apply flat_map_ext_all. intros i. rewrite IH by lia.
    rewrite map_flat_map, flat_map_map. apply flat_map_ext_all. intros p. rewrite map_map. reflexivity.
Qed.
Lemma coords_of_ones : forall p, coords_of p (map (fun _ => 1) p) = [p].
Proof. induction p as [|x p IH]; cbn [map coords_of]; auto. change (zseq 1) with [0]. cbn [flat_map]. rewrite IH. cbn. rewrite Z.add_0_r. reflexivity. Qed.
Lemma snoc_split : forall (l : list Z), l <> [] -> l = outer l ++ [last l 0].
Proof. intros. unfold outer. apply app_removelast_last; auto. Qed.
Lemma outer_length : forall (l : list Z), length (outer l) = pred (length l).
Proof. unfold outer. induction l as [|x [|y l] IH]; auto. cbn in *. rewrite IH. reflexivity. Qed.
Lemma combine_app_ : forall A B (a a' : list A) (b b' : list B), length a = length b -> combine (a ++ a') (b ++ b') = combine a b ++ combine a' b'.
Proof. induction a; destruct b; cbn; intros; try lia; auto. f_equal. apply IHa. lia. Qed.
Lemma cnts_split : forall s e, s <> [] -> length e = length s -> cnts s e = cnts (outer s) (outer e) ++ [last e 0 - last s 0 + 1].
Proof.
  intros s e H HL. assert (e <> []) by (destruct s, e; cbn in *; try lia; try congruence; discriminate).
  rewrite (snoc_split s H) at 1. rewrite (snoc_split e H0) at 1. unfold cnts. rewrite combine_app_, map_app by (rewrite !outer_length; lia). reflexivity.
Qed.
Lemma Forall2_removelast : forall (s e : list Z), Forall2 Z.le s e -> Forall2 Z.le (outer s) (outer e).
Proof.
  unfold outer. induction 1 as [|x y s e H HF IH]; [constructor|]. destruct HF; [constructor|]. constructor; auto.
Qed.
Lemma Forall2_last : forall (s e : list Z), Forall2 Z.le s e -> last s 0 <= last e 0.
Proof. induction 1 as [|x y s e H HF IH]; [cbn; lia|]. destruct HF; auto. Qed.

Lemma to_count_eok : forall n e, entry_ok n e -> eok n (to_count e).
Proof.
  intros n e (H1 & H2 & H3). unfold eok, to_count. cbn [fst snd]. fold (cnts (fst e) (snd e)). rewrite cnts_length by lia. repeat split; auto. apply cnts_pos; auto.
Qed.
Lemma break_block_ok : forall n e, entry_ok (S n) e ->
  cbs (break_block e) = cb (to_count e) /\ Forall (eok (S n)) (break_block e) /\ Forall (thin n) (break_block e).
Proof.
  intros n e (H1 & H2 & H3). unfold break_block, n_rows. fold (cnts (outer (fst e)) (outer (snd e))).
  rewrite break_from_ok by (try apply Forall2_removelast; auto; rewrite !outer_length; lia).
  assert (HN : fst e <> []) by (destruct (fst e); [discriminate|congruence]).
  set (os := outer (fst e)). set (oe := outer (snd e)).
  assert (Hos : length os = n) by (unfold os; rewrite outer_length, H1; reflexivity).
  assert (Hoe : length oe = n) by (unfold oe; rewrite outer_length, H2; reflexivity).
  split; [|split].
  - unfold cb, to_count. cbn [fst snd]. fold (cnts (fst e) (snd e)). rewrite (cnts_split (fst e) (snd e)) by (auto; lia).
    fold os oe. assert (Es := snoc_split (fst e) HN). fold os in Es.
    transitivity (coords_of (os ++ [last (fst e) 0]) (cnts os oe ++ [last (snd e) 0 - last (fst e) 0 + 1])); [|rewrite <- Es; reflexivity].
    rewrite coords_of_snoc by (rewrite cnts_length; lia).
    unfold cbs. rewrite flat_map_map. apply flat_map_ext_all. intros p. unfold cb. cbn [fst snd].
    rewrite coords_of_snoc by (rewrite map_length; auto). rewrite coords_of_ones. cbn. apply app_nil_r.
  - apply Forall_forall. intros r Hr. apply in_map_iff in Hr. destruct Hr as (p & <- & Hp).
    apply coords_of_len in Hp; [|rewrite cnts_length; lia]. rewrite cnts_length in Hp by lia.
    unfold eok. cbn [fst snd]. rewrite !app_length, map_length. cbn [length]. split; [lia|]. split; [lia|].
    apply Forall_app. split; [apply Forall_forall; intros x Hx; apply in_map_iff in Hx; destruct Hx as (_ & <- & _); lia|].
    constructor; [|constructor]. pose proof (Forall2_last _ _ H3). lia.
  - apply Forall_forall. intros r Hr. apply in_map_iff in Hr. destruct Hr as (p & <- & Hp).
    apply coords_of_len in Hp; [|rewrite cnts_length; lia]. rewrite cnts_length in Hp by lia.
    unfold thin. cbn [snd]. rewrite firstn_app, map_length, Hp, Hos, Nat.sub_diag. cbn [firstn]. rewrite app_nil_r.
    rewrite firstn_all2 by (rewrite map_length; lia). apply Forall_forall; intros x Hx; apply in_map_iff in Hx; destruct Hx as (_ & <- & _); lia.
Qed.

(** ** Groups *)
Lemma sel_groups_concat : forall l, concat (sel_groups l) = l.
Proof.
  assert (G : forall r x, concat (sel_groups_from x r) = x :: r).
  { induction r as [|i r IH]; intros x; cbn [sel_groups_from]; auto. destruct (lessthan (snd x) (fst i)).
    - cbn [concat app]. rewrite IH. reflexivity.
    - specialize (IH i). destruct (sel_groups_from i r) as [|g gs]; cbn in IH; [discriminate|]. cbn. rewrite IH. reflexivity. }
  destruct l; cbn [sel_groups]; auto.
Qed.
Lemma sel_groups_nonempty : forall l, Forall (fun g => g <> []) (sel_groups l).
Proof.
  assert (G : forall r x, Forall (fun g => g <> []) (sel_groups_from x r)).
  { induction r as [|i r IH]; intros x; cbn [sel_groups_from]; [constructor; [discriminate|auto]|]. specialize (IH i). destruct (lessthan (snd x) (fst i)).
    - constructor; [discriminate|auto].
    - destruct (sel_groups_from i r); [constructor; [discriminate|auto]|]. inversion IH; subst. constructor; [discriminate|auto]. }
  destruct l; cbn [sel_groups]; auto.
Qed.

Lemma group_sel_ok : forall order n g, is_order order -> Forall (entry_ok (S n)) g ->
  Permutation (cbs (group_sel order (S n) g)) (cbs (map to_count g)) /\ Forall (eok (S n)) (group_sel order (S n) g).
Proof.
  intros order n g HO HF. unfold group_sel.
  assert (G : Permutation (cbs (merge_blocks false (S n) (sortblocks order (flat_map break_block g)))) (cbs (map to_count g)) /\
     Forall (eok (S n)) (merge_blocks false (S n) (sortblocks order (flat_map break_block g)))).
  { destruct (sortblocks_ok order (flat_map break_block g) HO) as [SP _].
    assert (HE : Forall (eok (S n)) (flat_map break_block g)).
    { apply Forall_flat_map. eapply Forall_impl; [|exact HF]. intros e He. apply break_block_ok; auto. }
    assert (HE' : Forall (eok (S n)) (sortblocks order (flat_map break_block g))) by (eapply Permutation_Forall; eauto).
    destruct (merge_blocks_ok (S n) _ HE') as [M1 M2]. split; auto. rewrite M2.
    assert (P : Permutation (cbs (sortblocks order (flat_map break_block g))) (cbs (flat_map break_block g))).
    { unfold cbs. apply Permutation_flat_map. apply Permutation_sym; auto. }
    rewrite P. unfold cbs at 1. rewrite flat_map_flat_map. unfold cbs. rewrite flat_map_map.
    clear - HF. induction HF; cbn; [constructor|]. apply Permutation_app; auto. fold (cbs (break_block x)).
    rewrite (proj1 (break_block_ok n x H)). apply Permutation_refl. }
  destruct g as [|b [|b2 g]]; auto. inversion HF; subst. split; [apply Permutation_refl|constructor; auto; apply to_count_eok; auto].
Qed.

Lemma merge_true_ok : forall n l, Forall (entry_ok (S n)) l ->
  Forall (entry_ok (S n)) (merge_blocks true (S n) l) /\ Permutation (cbs (map to_count (merge_blocks true (S n) l))) (cbs (map to_count l)).
Proof.
  intros n l HF. destruct (merge_blocks_end (S n) l) as [M1 M2].
    { eapply Forall_impl; [|exact HF]. intros e (?&?&?); split; auto. }
    destruct (merge_blocks_ok (S n) (map to_count l)) as [M3 M4].
    { apply Forall_map. eapply Forall_impl; [|exact HF]. apply to_count_eok. }
    rewrite M1. split; auto. rewrite <- M1 in M3. rewrite Forall_map in M3. rewrite Forall_forall in *. intros e He.
    destruct (M2 e He) as [L1 L2]. destruct (M3 e He) as (_ & _ & P). split; auto. split; auto.
    unfold to_count in P. cbn [snd] in P. fold (cnts (fst e) (snd e)) in P. clear - L1 L2 P. rewrite <- L1 in L2. clear L1. revert L2 P. unfold cnts.
    generalize (snd e). induction (fst e) as [|a s IH]; intros [|b t] HL HP; cbn in *; try lia; constructor; inversion HP; subst; [cbn in *; lia|apply IH; auto].
Qed.
Lemma norm_hyper_ok : forall order n l, is_order order -> Forall (entry_ok (S n)) l ->
  Permutation (cbs (norm_hyper order (S n) l)) (cbs (map to_count l)) /\ Forall (eok (S n)) (norm_hyper order (S n) l).
Proof.
  intros order n l HO HF. unfold norm_hyper.
  assert (HK := merge_true_ok n).
  destruct (HK l HF) as [K1 K2]. set (l1 := merge_blocks true (S n) l) in *.
  destruct (sortblocks_ok order l1 HO) as [SP _]. set (l2 := sortblocks order l1) in *.
  assert (HF2 : Forall (entry_ok (S n)) l2) by (eapply Permutation_Forall; eauto).
  destruct (HK l2 HF2) as [K3 K4]. set (l3 := merge_blocks true (S n) l2) in *.
  assert (G : forall gs, Forall (Forall (entry_ok (S n))) gs ->
    Permutation (cbs (flat_map (group_sel order (S n)) gs)) (cbs (map to_count (concat gs))) /\ Forall (eok (S n)) (flat_map (group_sel order (S n)) gs)).
  { clear - HO. induction 1 as [|g gs Hg HF IH]; [split; constructor|]. cbn [flat_map concat]. destruct (group_sel_ok order n g HO Hg) as [G1 G2]. destruct IH as [I1 I2].
    split; [|apply Forall_app; auto]. rewrite map_app. unfold cbs in *. rewrite !flat_map_app. apply Permutation_app; auto. }
  destruct (G (sel_groups l3)) as [G1 G2].
  { apply Forall_concat. rewrite sel_groups_concat. exact K3. }
  split; auto. rewrite G1, sel_groups_concat. rewrite K4. etransitivity; [|exact K2]. unfold cbs. apply Permutation_flat_map. apply Permutation_map. apply Permutation_sym; auto.
Qed.
