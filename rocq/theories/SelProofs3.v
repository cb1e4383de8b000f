(** Proofs about the conversion of selections: row-major order, the whole conversion. *)
From Verif Require Import Base BaseProofs Spec ReadModel GeomProofs SelModel SelSpec ReorderProofs SelProofs SelProofs2.
From Coq Require Import ZifyNat.

Lemma SS_app_iff : forall A (R : A -> A -> Prop) a b,
  StronglySorted R (a ++ b) <-> StronglySorted R a /\ StronglySorted R b /\ (forall x y, In x a -> In y b -> R x y).
Proof.
  induction a as [|x a IH]; intros b; cbn [app].
  - split; [intros H; split; [constructor|split; [auto|intros x y []]]|tauto].
  - rewrite !SS_cons_iff, IH, Forall_app, !Forall_forall. cbn [In]. split.
    + intros ((H1 & H2 & H3) & H4 & H5). repeat (split; auto). intros u v [<-|Hu] Hv; auto.
    + intros ((H1 & H2) & H3 & H4). repeat (split; auto).
Qed.
Lemma coords_row_major : forall s n, length s = length n -> row_major (coords_of s n).
Proof.
  unfold row_major. induction s as [|a s IH]; intros [|m n] H; cbn in H; try lia; [repeat constructor|]. cbn [coords_of].
  assert (G : forall k l, StronglySorted Z.lt l -> StronglySorted before (flat_map (fun i => map (cons (k + i)) (coords_of s n)) l)).
  { intros k l. induction l as [|z l IHl]; intros HS; [constructor|]. apply SS_cons_iff in HS. destruct HS as [HS HF]. cbn [flat_map]. apply SS_app_iff.
    split; [|split; [auto|]].
    - apply SS_map. eapply SS_impl_In; [|apply IH; lia]. intros x y _ _ Hxy. right; auto.
    - intros x y Hx Hy. apply in_map_iff in Hx. destruct Hx as (x' & <- & _). apply in_flat_map in Hy. destruct Hy as (w & Hw & Hy).
      apply in_map_iff in Hy. destruct Hy as (y' & <- & _). rewrite Forall_forall in HF. specialize (HF w Hw). left. lia. }
  apply G. clear. unfold zseq. apply SS_map. generalize 0%nat. induction (Z.to_nat m) as [|k IH]; intros i; cbn; constructor; auto.
  apply Forall_forall. intros j Hj. apply in_seq in Hj. lia.
Qed.
Lemma row_major_NoDup : forall l, row_major l -> NoDup l.
Proof.
  unfold row_major. induction l as [|x l IH]; intros H; [constructor|]. apply SS_cons_iff in H. destruct H as [H HF]. constructor; auto.
  intros HI. rewrite Forall_forall in HF. apply HF in HI. apply before_irrefl in HI. auto.
Qed.

(** Elements lie between the first and the last coordinates. *)
Lemma In_to_count : forall n e c, entry_ok n e -> (In c (cb (to_count e)) <-> within e c).
Proof.
  intros n e c (H1 & H2 & H3). unfold cb, to_count, within. cbn [fst snd]. fold (cnts (fst e) (snd e)). rewrite In_coords_of by (rewrite cnts_length; lia).
  clear H1 H2 n. revert c. induction H3 as [|a b s t H HF IH]; intros c.
  - cbn. destruct c; split; try tauto; [constructor|intros H; inversion H].
  - destruct c as [|x c]; cbn; [split; [tauto|intros G; inversion G]|]. fold (cnts s t). rewrite IH. split.
    + intros [G1 G2]. constructor; auto. cbn. lia.
    + intros G. inversion G; subst. cbn in *. split; auto. lia.
Qed.
Lemma within_bounds : forall e c, length (fst e) = length (snd e) -> within e c -> beq (fst e) c /\ beq c (snd e).
Proof.
  intros [s t] c. unfold within. cbn [fst snd]. revert t c. induction s as [|a s IH]; intros [|b t] c HL HW; cbn in HL; try lia.
  - cbn in HW. inversion HW; subst. split; left; auto.
  - cbn in HW. inversion HW; subst. cbn in H1. destruct (IH t l') as [I1 I2]; auto.
    split.
    + destruct (Z.eq_dec a y); [subst; apply beq_cons; auto|right; left; lia].
    + destruct (Z.eq_dec y b); [subst; apply beq_cons; auto|right; left; lia].
Qed.

(** Groups are separated. *)
Definition sep (g h : list entry) : Prop := forall a b, In a g -> In b h -> before (snd a) (fst b).
Lemma groups_sep : forall r x, listed_in_order (x :: r) -> ForallOrdPairs sep (sel_groups_from x r).
Proof.
  induction r as [|i r IH]; intros x [HS HE]; cbn [sel_groups_from]; [repeat constructor|].
  cbn [map] in HS, HE. apply SS_cons_iff in HS, HE. destruct HS as [HS FS], HE as [HE FE].
  assert (HI := IH i (conj HS HE)). destruct (lessthan (snd x) (fst i)) eqn:E.
  - apply before_lessthan in E. constructor; auto. apply Forall_forall. intros g Hg a b [<-|[]] Hb.
    assert (Hb' : In b (i :: r)).
    { change (i :: r) with (i :: r). rewrite <- (sel_groups_concat (i :: r)). cbn [sel_groups]. apply in_concat. eauto. }
    destruct Hb' as [<-|Hb']; auto. eapply before_trans; [exact E|]. apply SS_cons_iff in HS. destruct HS as [_ HS]. rewrite Forall_forall in HS. apply HS. apply in_map; auto.
  - assert (HC := sel_groups_concat (i :: r)). cbn [sel_groups] in HC. pose proof (sel_groups_nonempty (i :: r)) as HN. cbn [sel_groups] in HN.
    destruct (sel_groups_from i r) as [|g gs]; [cbn in HC; discriminate|]. inversion HN; subst. destruct g as [|g0 g]; [congruence|].
    cbn in HC. injection HC as -> _. inversion HI as [|? ? HF HR]; subst. constructor; auto. apply Forall_forall. intros h Hh a b Ha Hb.
    rewrite Forall_forall in HF. specialize (HF h Hh). destruct Ha as [<-|Ha]; [|apply HF; auto].
    eapply before_trans; [|apply (HF i b); [left; auto|auto]]. rewrite Forall_forall in FE. apply FE. left; auto.
Qed.

(** Rows in one group. *)
Lemma row_cmp : forall s m t k c c', length m = length s -> length k = length t -> length t = length s -> s <> [] ->
  Forall (fun x => x = 1) (removelast m) -> Forall (fun x => x = 1) (removelast k) ->
  beq s t -> inside s m c -> inside t k c' -> before c c' \/ inside s m c'.
Proof.
  induction s as [|a s IH]; intros [|x m] [|b t] [|y k] c c' L1 L2 L3 HN T1 T2 HB HC HC'; cbn in L1, L2, L3; try lia; try congruence.
  destruct c as [|u c], c' as [|v c']; cbn in HC, HC'; try tauto. destruct HC as [Hu HC], HC' as [Hv HC'].
  destruct s as [|a2 s].
  - destruct m, t, k; cbn in L1, L2, L3; try lia. destruct c, c'; cbn in HC, HC'; try tauto. cbn.
    assert (a <= b) by (destruct HB as [E|[E|[E []]]]; [injection E; lia|lia]). destruct (Z.lt_ge_cases u v); [left; left; lia|right]. split; [lia|auto].
  - destruct m as [|x2 m], t as [|b2 t], k as [|y2 k]; cbn in L1, L2, L3; try lia.
    change (removelast (x :: x2 :: m)) with (x :: removelast (x2 :: m)) in T1. change (removelast (y :: y2 :: k)) with (y :: removelast (y2 :: k)) in T2.
    inversion T1; inversion T2; subst. assert (HB2 : a < b \/ (a = b /\ beq (a2 :: s) (b2 :: t))).
    { destruct HB as [E|[E|[E E2]]]; [injection E; intros; subst; right; split; [auto|left; auto]|auto|right; split; [auto|right; auto]]. }
    destruct HB2 as [E|[E HB2]]; [left; left; lia|]. subst b.
    destruct (IH (x2 :: m) (b2 :: t) (y2 :: k) c c') as [H|H]; auto; try (cbn; lia); try discriminate.
    + left. right. split; [lia|auto].
    + right. cbn [inside]. split; [lia|auto].
Qed.
Lemma thin_removelast : forall n e, length (snd e) = S n -> thin n e -> Forall (fun x => x = 1) (removelast (snd e)).
Proof. unfold thin. intros n e H HT. rewrite removelast_firstn_len, H. exact HT. Qed.
Lemma rows_row_major : forall n R, Forall (eok (S n)) R -> Forall (thin n) R -> NoDup (cbs R) ->
  StronglySorted (fun a b => nolater (fst a) (fst b)) R -> row_major (cbs R).
Proof.
  intros n. unfold row_major. induction R as [|x R IH]; intros HE HT HN HS; [constructor|]. inversion HE as [|? ? HEx HER]; inversion HT as [|? ? HTx HTR]; subst. apply SS_cons_iff in HS. destruct HS as [HS HF].
  change (cbs (x :: R)) with (cb x ++ cbs R) in *. destruct HEx as (L1 & L2 & L3).
  assert (HND : NoDup (cbs R) /\ forall c, In c (cb x) -> In c (cbs R) -> False).
  { clear - HN. induction (cb x) as [|z l IH]; [split; auto|]. cbn in HN. inversion HN; subst. destruct IH as [I1 I2]; auto. split; auto.
    intros c [<-|Hc] Hc'; [apply H1; apply in_or_app; auto|eauto]. }
  destruct HND as [N1 N2]. apply SS_app_iff. split; [apply coords_row_major; lia|]. split; [apply IH; auto|].
  intros c c' Hc Hc'. unfold cbs in Hc'. apply in_flat_map in Hc'. destruct Hc' as (y & Hy & Hc').
  rewrite Forall_forall in HER, HTR, HF. destruct (HER y Hy) as (M1 & M2 & M3).
  assert (HB : beq (fst x) (fst y)) by (apply not_lessthan; [lia|apply HF; auto]).
  unfold cb in Hc, Hc'. assert (Ic := proj1 (In_coords_of (fst x) (snd x) c ltac:(lia)) Hc). assert (Ic' := proj1 (In_coords_of (fst y) (snd y) c' ltac:(lia)) Hc').
  destruct (row_cmp (fst x) (snd x) (fst y) (snd y) c c') as [H|H]; auto; try lia.
  - destruct (fst x); [discriminate|congruence].
  - eapply thin_removelast; eauto.
  - eapply thin_removelast; eauto.
  - exfalso. apply (N2 c'); [apply In_coords_of; auto; lia|]. apply in_flat_map. exists y; auto.
Qed.

Lemma NoDup_app_l : forall A (a b : list A), NoDup (a ++ b) -> NoDup a /\ NoDup b.
Proof. induction a; cbn; intros b H; [split; [constructor|auto]|]. inversion H; subst. destruct (IHa b H3). split; auto. constructor; auto. intros HI; apply H2, in_or_app; auto. Qed.
Lemma flat_map_break : forall n g, Forall (entry_ok (S n)) g ->
  cbs (flat_map break_block g) = cbs (map to_count g) /\ Forall (eok (S n)) (flat_map break_block g) /\ Forall (thin n) (flat_map break_block g).
Proof.
  induction 1 as [|e g He HF (I1 & I2 & I3)]; [split; [reflexivity|split; constructor]|]. destruct (break_block_ok n e He) as (B1 & B2 & B3).
  cbn [flat_map map]. split; [|split; apply Forall_app; auto]. unfold cbs in *. rewrite flat_map_app, I1. cbn [flat_map]. rewrite B1. reflexivity.
Qed.
Lemma group_row_major : forall order n g, is_order order -> Forall (entry_ok (S n)) g -> NoDup (cbs (map to_count g)) ->
  row_major (cbs (group_sel order (S n) g)).
Proof.
  intros order n g HO HF HN.
  assert (G : row_major (cbs (merge_blocks false (S n) (sortblocks order (flat_map break_block g))))).
  { destruct (sortblocks_ok order (flat_map break_block g) HO) as [SP SS]. destruct (flat_map_break n g HF) as (B1 & B2 & B3).
    assert (E1 : Forall (eok (S n)) (sortblocks order (flat_map break_block g))) by (eapply Permutation_Forall; eauto).
    assert (E2 : Forall (thin n) (sortblocks order (flat_map break_block g))) by (eapply Permutation_Forall; eauto).
    rewrite merge_blocks_thin by auto. apply (rows_row_major n); auto.
    eapply Permutation_NoDup; [apply Permutation_flat_map; exact SP|]. fold (cbs (flat_map break_block g)). rewrite B1. exact HN. }
  unfold group_sel. destruct g as [|b [|b2 g]]; auto. cbn [cbs flat_map]. rewrite app_nil_r. apply coords_row_major.
  inversion HF; subst. unfold to_count. cbn [fst snd]. fold (cnts (fst b) (snd b)). destruct H1 as (? & ? & ?). rewrite cnts_length; lia.
Qed.

Lemma groups_row_major : forall order n gs, is_order order -> Forall (Forall (entry_ok (S n))) gs -> NoDup (cbs (map to_count (concat gs))) ->
  ForallOrdPairs sep gs -> row_major (cbs (flat_map (group_sel order (S n)) gs)).
Proof.
  intros order n gs HO HF. induction HF as [|g gs Hg HF IH]; intros HN HS; [constructor|]. inversion HS as [|? ? HA HR]; subst.
  cbn [flat_map concat] in *. rewrite map_app in HN. unfold cbs in HN. rewrite flat_map_app in HN. apply NoDup_app_l in HN. destruct HN as [N1 N2].
  unfold cbs. rewrite flat_map_app. apply SS_app_iff. split; [apply group_row_major; auto|]. split; [apply IH; auto|].
  assert (HB : forall h c, Forall (entry_ok (S n)) h -> In c (cbs (group_sel order (S n) h)) -> exists b, In b h /\ beq (fst b) c /\ beq c (snd b)).
  { intros h c Hh Hc. apply (Permutation_in _ (proj1 (group_sel_ok order n h HO Hh))) in Hc. unfold cbs in Hc. rewrite flat_map_map in Hc.
    apply in_flat_map in Hc. destruct Hc as (b & Hb & Hc). rewrite Forall_forall in Hh. exists b. split; auto. specialize (Hh b Hb).
    apply (In_to_count (S n)) in Hc; auto. apply within_bounds; auto. destruct Hh as (? & ? & ?). lia. }
  intros x y Hx Hy. apply HB in Hx; auto. destruct Hx as (a & Ha & Ha1 & Ha2). rewrite flat_map_flat_map in Hy. apply in_flat_map in Hy.
  destruct Hy as (h & Hh & Hy). rewrite Forall_forall in HF, HA. apply HB in Hy; [|apply HF; auto]. destruct Hy as (b & Hb & Hb1 & Hb2).
  eapply beq_before; [exact Ha2|]. eapply before_beq; [|exact Hb1]. apply (HA h Hh); auto.
Qed.

Lemma norm_hyper_row_major : forall order n l, is_order order -> Forall (entry_ok (S n)) l -> NoDup (cbs (map to_count l)) ->
  listed_in_order l -> row_major (cbs (norm_hyper order (S n) l)).
Proof.
  intros order n l HO HF HN HL. unfold norm_hyper.
  assert (HH : forall k, Forall (entry_ok (S n)) k -> Forall (hok (S n)) k).
  { intros k Hk. eapply Forall_impl; [|exact Hk]. intros e (?&?&?). split; auto. }
  assert (HK : forall l, Forall (entry_ok (S n)) l -> Forall (entry_ok (S n)) (merge_blocks true (S n) l) /\ Permutation (cbs (map to_count (merge_blocks true (S n) l))) (cbs (map to_count l))).
  { apply merge_true_ok. }
  destruct (HK l HF) as [K1 K2]. assert (O1 := merge_blocks_sorted (S n) l (HH l HF) HL). set (l1 := merge_blocks true (S n) l) in *.
  destruct (sortblocks_ok order l1 HO) as [SP SS]. rewrite (sorted_unique l1 (sortblocks order l1) SP (proj1 O1) SS).
  destruct (HK l1 K1) as [K3 K4]. assert (O2 := merge_blocks_sorted (S n) l1 (HH l1 K1) O1). set (l3 := merge_blocks true (S n) l1) in *.
  apply groups_row_major; auto.
  - apply Forall_concat. rewrite sel_groups_concat. exact K3.
  - rewrite sel_groups_concat. eapply Permutation_NoDup; [apply Permutation_sym; etransitivity; [exact K4|exact K2]|auto].
  - destruct l3 as [|x r]; [constructor|]. apply groups_sep; auto.
Qed.
