(** Proofs about the conversion of selections (SelModel). *)
From Verif Require Import Base BaseProofs Spec ReadModel GeomProofs SelModel SelSpec ReorderProofs.
From Coq Require Import ZifyNat.

(** ** Order of coordinates *)
Lemma before_lessthan : forall a b, before a b <-> lessthan a b = true.
Proof.
  induction a as [|x a IH]; destruct b as [|y b]; cbn; try (split; [tauto|discriminate]).
  destruct (Z.ltb_spec x y) as [H|H]; [split; auto|]. destruct (Z.ltb_spec y x) as [H1|H1].
  - split; [intros [|[]]; lia|discriminate].
  - rewrite <- IH. split; [intros [|[]]; [lia|auto]|]. right. split; [lia|auto].
Qed.
Lemma before_irrefl : forall a, ~ before a a.
Proof. induction a; cbn; intuition lia. Qed.
Lemma before_trans : forall a b c, before a b -> before b c -> before a c.
Proof. induction a; destruct b, c; cbn; try tauto. intros [|[]] [|[]]; subst; [lia|lia|lia|]. right; split; auto. eapply IHa; eauto. Qed.
Lemma before_total : forall a b, length a = length b -> before a b \/ a = b \/ before b a.
Proof.
  induction a as [|x a IH]; destruct b as [|y b]; cbn; intros H; try lia; auto.
  destruct (Z.lt_trichotomy x y) as [|[]]; auto. subst. destruct (IH b) as [|[]]; auto; try lia. subst; auto.
Qed.
Definition beq (a b : list Z) : Prop := a = b \/ before a b.
Lemma beq_before : forall a b c, beq a b -> before b c -> before a c.
Proof. intros a b c [->|H] H2; auto. eapply before_trans; eauto. Qed.
Lemma before_beq : forall a b c, before a b -> beq b c -> before a c.
Proof. intros a b c H [->|H2]; auto. eapply before_trans; eauto. Qed.
Lemma beq_cons : forall x a b, beq a b -> beq (x :: a) (x :: b).
Proof. intros x a b [->|H]; [left; auto|right; right; auto]. Qed.

(** ** Merging *)
Definition cb (e : entry) : list (list Z) := coords_of (fst e) (snd e).
Definition eok (n : nat) (e : entry) : Prop :=
  length (fst e) = n /\ length (snd e) = n /\ Forall (fun x => 0 < x) (snd e).

Lemma can_merge_past : forall d sj cj si ci k, (d < k)%nat -> can_merge false d k sj cj si ci = true ->
  length cj = length sj -> length si = length sj -> length ci = length sj -> si = sj /\ ci = cj.
Proof.
  intros d. induction sj as [|a sj IH]; intros [|x cj] [|b si] [|y ci] k Hk H L1 L2 L3; cbn in *; try lia; auto.
  destruct (Nat.eqb_spec k d); [lia|]. apply andb_prop in H. destruct H as [H H2]. apply andb_prop in H.
  destruct (IH cj si ci (S k)) as [-> ->]; auto; try lia. destruct H. apply Z.eqb_eq in H, H0. subst. auto.
Qed.

Lemma flat_map_app_perm : forall A B (f g : A -> list B) l,
  Permutation (flat_map (fun x => f x ++ g x) l) (flat_map f l ++ flat_map g l).
Proof.
  induction l as [|x l IH]; cbn; [constructor|]. rewrite IH. rewrite <- !app_assoc. apply Permutation_app_head.
  rewrite !app_assoc. apply Permutation_app_tail. apply Permutation_app_comm.
Qed.
Lemma flat_map_perm : forall A B (f g : A -> list B) l, (forall x, Permutation (f x) (g x)) -> Permutation (flat_map f l) (flat_map g l).
Proof. induction l; cbn; intros; [constructor|]. apply Permutation_app; auto. Qed.
Lemma flat_map_map : forall A B C (f : B -> list C) (g : A -> B) l, flat_map f (map g l) = flat_map (fun x => f (g x)) l.
Proof. induction l; cbn; congruence. Qed.
Lemma flat_map_ext_all : forall A B (f g : A -> list B) l, (forall x, f x = g x) -> flat_map f l = flat_map g l.
Proof. intros. apply flat_map_ext; auto. Qed.

Lemma merge_coords : forall sj cj si ci d k, can_merge false (k + d) k sj cj si ci = true ->
  length cj = length sj -> length si = length sj -> length ci = length sj -> (d < length sj)%nat ->
  Forall (fun x => 0 < x) cj -> Forall (fun x => 0 < x) ci ->
  let m := upd_nth d (nth d cj 0 + nth d ci 0) cj in
  Permutation (coords_of sj m) (coords_of sj cj ++ coords_of si ci) /\
  (Forall (fun x => x = 1) (firstn d cj) -> coords_of sj m = coords_of sj cj ++ coords_of si ci) /\
  Forall (fun x => 0 < x) m.
Proof.
  induction sj as [|a sj IH]; intros [|x cj] [|b si] [|y ci] d k H L1 L2 L3 Hd P1 P2; cbn in L1, L2, L3, Hd; try lia.
  inversion P1; inversion P2; subst. cbn [can_merge] in H. apply andb_prop in H. destruct H as [H H'].
  destruct d as [|d].
  - rewrite Nat.add_0_r, Nat.eqb_refl in H. apply Z.eqb_eq in H. rewrite Nat.add_0_r in H'.
    apply can_merge_past in H'; try lia. destruct H' as [-> ->]. cbn [upd_nth nth firstn coords_of].
    assert (E : flat_map (fun i => map (cons (a + i)) (coords_of sj cj)) (zseq (x + y)) =
      flat_map (fun i => map (cons (a + i)) (coords_of sj cj)) (zseq x) ++ flat_map (fun i => map (cons (b + i)) (coords_of sj cj)) (zseq y)).
    { rewrite zseq_app by lia. rewrite flat_map_app, flat_map_map. f_equal. apply flat_map_ext_all. intros z. subst b. rewrite Z.add_assoc. reflexivity. }
    split; [rewrite E; apply Permutation_refl|]. split; [intros _; exact E|]. constructor; [lia|auto].
  - destruct (Nat.eqb_spec k (k + S d)); [lia|]. apply andb_prop in H. destruct H as [Ha Hx]. apply Z.eqb_eq in Ha, Hx. subst b y.
    replace (k + S d)%nat with (S k + d)%nat in H' by lia.
    destruct (IH cj si ci d (S k)) as (I1 & I2 & I3); auto; try lia. cbn [upd_nth nth firstn coords_of].
    split; [|split].
    + eapply Permutation_trans; [apply flat_map_perm; intros i; apply Permutation_map; exact I1|].
      rewrite (flat_map_ext_all _ _ _ (fun i => map (cons (a + i)) (coords_of sj cj) ++ map (cons (a + i)) (coords_of si ci))) by (intros; apply map_app).
      apply flat_map_app_perm.
    + intros HF. inversion HF; subst. change (zseq 1) with [0]. cbn [flat_map]. rewrite !app_nil_r, <- map_app. f_equal. apply I2; auto.
    + constructor; auto.
Qed.

Lemma do_merge_ok : forall n d j i, eok n j -> eok n i -> (d < n)%nat -> can_merge false d 0 (fst j) (snd j) (fst i) (snd i) = true ->
  eok n (do_merge false d j i) /\ Permutation (cb (do_merge false d j i)) (cb j ++ cb i) /\
  (Forall (fun x => x = 1) (firstn d (snd j)) -> cb (do_merge false d j i) = cb j ++ cb i) /\
  firstn d (snd (do_merge false d j i)) = firstn d (snd j).
Proof.
  intros n d j i (J1 & J2 & J3) (I1 & I2 & I3) Hd H.
  destruct (merge_coords (fst j) (snd j) (fst i) (snd i) d 0) as (M1 & M2 & M3); auto; try lia.
  unfold eok, cb, do_merge. cbn [fst snd]. rewrite upd_nth_length. repeat (split; auto).
  generalize (nth d (snd j) 0 + nth d (snd i) 0). intros z. clear. revert d.
  induction (snd j); intros [|d]; cbn; auto. f_equal; auto.
Qed.

Definition cbs (l : list entry) : list (list Z) := flat_map cb l.

Lemma merge_pass_ok : forall n d rest cur, eok n cur -> Forall (eok n) rest -> (d < n)%nat ->
  Forall (eok n) (merge_pass false d cur rest) /\ Permutation (cbs (merge_pass false d cur rest)) (cb cur ++ cbs rest).
Proof.
  intros n d. induction rest as [|i r IH]; intros cur H1 H2 Hd; cbn [merge_pass].
  - split; auto.
  - inversion H2; subst. destruct (can_merge false d 0 (fst cur) (snd cur) (fst i) (snd i)) eqn:E.
    + destruct (do_merge_ok n d cur i) as (M1 & M2 & _); auto. destruct (IH (do_merge false d cur i)) as (I1 & I2); auto. split; auto.
      rewrite I2, M2. cbn [cbs flat_map]. rewrite app_assoc. apply Permutation_refl.
    + destruct (IH i) as (I1 & I2); auto. split; [constructor; auto|]. cbn [cbs flat_map]. apply Permutation_app_head. exact I2.
Qed.

(** When all dimensions before [d] have count 1, merging keeps the enumeration. *)
Definition thin (d : nat) (e : entry) : Prop := Forall (fun x => x = 1) (firstn d (snd e)).
Lemma merge_pass_thin : forall n d rest cur, eok n cur -> Forall (eok n) rest -> (d < n)%nat -> thin d cur -> Forall (thin d) rest ->
  Forall (thin d) (merge_pass false d cur rest) /\ cbs (merge_pass false d cur rest) = cb cur ++ cbs rest.
Proof.
  intros n d. induction rest as [|i r IH]; intros cur H1 H2 Hd T1 T2; cbn [merge_pass].
  - split; auto.
  - inversion H2; inversion T2; subst. destruct (can_merge false d 0 (fst cur) (snd cur) (fst i) (snd i)) eqn:E.
    + destruct (do_merge_ok n d cur i) as (M1 & _ & M2 & M3); auto.
      destruct (IH (do_merge false d cur i)) as (I1 & I2); auto; [unfold thin; rewrite M3; auto|]. split; auto.
      rewrite I2, M2 by auto. cbn [cbs flat_map]. rewrite app_assoc. reflexivity.
    + destruct (IH i) as (I1 & I2); auto. split; [constructor; auto|]. cbn [cbs flat_map]. f_equal. exact I2.
Qed.

Lemma merge_dims_ok : forall n ds l, Forall (fun d => (d < n)%nat) ds -> Forall (eok n) l ->
  Forall (eok n) (fold_left (merge_dim false) ds l) /\ Permutation (cbs (fold_left (merge_dim false) ds l)) (cbs l).
Proof.
  intros n. induction ds as [|d ds IH]; intros l H1 H2; cbn [fold_left]; [split; auto|]. inversion H1; subst.
  destruct l as [|x r]; [apply (IH []); auto|]. inversion H2; subst. cbn [merge_dim].
  destruct (merge_pass_ok n d r x) as (M1 & M2); auto. destruct (IH (merge_pass false d x r)) as (I1 & I2); auto.
  split; auto. rewrite I2, M2. apply Permutation_refl.
Qed.
Lemma merge_blocks_ok : forall n l, Forall (eok n) l ->
  Forall (eok n) (merge_blocks false n l) /\ Permutation (cbs (merge_blocks false n l)) (cbs l).
Proof.
  intros n l H. apply merge_dims_ok; auto. apply Forall_forall. intros d Hd. apply in_rev in Hd. apply in_seq in Hd. lia.
Qed.
Lemma thin_le : forall d e, thin (S d) e -> thin d e.
Proof. unfold thin. intros d e. revert d. induction (snd e) as [|x l IH]; intros [|d] H; cbn in *; auto. inversion H; subst. constructor; auto. Qed.
Lemma rev_seq_S : forall d, rev (seq 0 (S d)) = d :: rev (seq 0 d).
Proof. intros. rewrite seq_S, rev_app_distr. reflexivity. Qed.
Lemma merge_blocks_thin : forall n l, Forall (eok n) l -> Forall (thin (pred n)) l -> cbs (merge_blocks false n l) = cbs l.
Proof.
  intros n l H1 H2. unfold merge_blocks.
  assert (G : forall m l, (m <= n)%nat -> Forall (eok n) l -> Forall (thin (pred m)) l -> cbs (fold_left (merge_dim false) (rev (seq 0 m)) l) = cbs l).
  { clear l H1 H2. induction m as [|m IH]; intros l Hm H1 H2; [reflexivity|]. rewrite rev_seq_S. cbn [fold_left].
    destruct l as [|x r]; [apply IH; auto; lia|]. inversion H1; inversion H2; subst. cbn [merge_dim]. cbn [pred] in *.
    destruct (merge_pass_thin n m r x) as (T1 & T2); auto. destruct (merge_pass_ok n m r x) as (T3 & _); auto.
    rewrite IH; auto; [lia|]. destruct m; cbn [pred]; auto. eapply Forall_impl; [|exact T1]. apply thin_le. }
  apply G; auto.
Qed.

(** Blocks given by their ends. *)
Lemma can_merge_end : forall d sj ej si ei k, length ej = length sj -> length si = length sj -> length ei = length sj ->
  can_merge true d k sj ej si ei = can_merge false d k sj (snd (to_count (sj, ej))) si (snd (to_count (si, ei))).
Proof.
  intros d. unfold to_count. cbn [fst snd].
  induction sj as [|a sj IH]; intros [|x ej] [|b si] [|y ei] k L1 L2 L3; cbn in L1, L2, L3; try lia; auto.
  cbn [combine map fst snd can_merge]. rewrite IH by lia. f_equal. destruct (Nat.eqb k d).
  - destruct (Z.eqb_spec (x + 1) b), (Z.eqb_spec (a + (x - a + 1)) b); auto; lia.
  - destruct (Z.eqb_spec b a); auto. subst. cbn. destruct (Z.eqb_spec y x), (Z.eqb_spec (y - a + 1) (x - a + 1)); auto; lia.
Qed.
Lemma do_merge_end : forall d sj ej si ei k, length ej = length sj -> length si = length sj -> length ei = length sj -> (d < length sj)%nat ->
  can_merge true (k + d) k sj ej si ei = true ->
  upd_nth d (nth d ei 0) ej = ei /\
  snd (to_count (sj, ei)) = upd_nth d (nth d (snd (to_count (sj, ej))) 0 + nth d (snd (to_count (si, ei))) 0) (snd (to_count (sj, ej))).
Proof.
  unfold to_count. cbn [fst snd].
  induction d as [|d IH]; intros [|a sj] [|x ej] [|b si] [|y ei] k L1 L2 L3 Hd H; cbn in L1, L2, L3, Hd; try lia;
    cbn [can_merge] in H; apply andb_prop in H; destruct H as [H H'].
  - rewrite Nat.add_0_r, Nat.eqb_refl in H. apply Z.eqb_eq in H. rewrite can_merge_end in H' by lia. rewrite Nat.add_0_r in H'.
    apply can_merge_past in H'; try (unfold to_count; cbn [fst snd]; rewrite ?map_length, ?combine_length; lia).
    unfold to_count in H'. cbn [fst snd] in H'. destruct H' as [-> H'].
    assert (ei = ej).
    { clear - H' L1 L3. assert (L1' : length ej = length sj) by lia. assert (L3' : length ei = length sj) by lia. clear L1 L3. revert ej ei L1' L3' H'.
      induction sj; intros [|? ?] [|? ?] L1 L3 H; cbn in *; try lia; auto. inversion H. f_equal; [lia|apply IHsj; auto; lia]. }
    subst ei. cbn [upd_nth nth combine map fst snd]. split; auto. f_equal. lia.
  - destruct (Nat.eqb_spec k (k + S d)); [lia|]. apply andb_prop in H. destruct H as [Ha Hx]. apply Z.eqb_eq in Ha, Hx. subst b y.
    destruct (IH sj ej si ei (S k)) as [I1 I2]; auto; try lia. { replace (S k + d)%nat with (k + S d)%nat by lia. auto. }
    cbn [upd_nth nth combine map fst snd]. split; f_equal; auto.
Qed.

Definition hok (n : nat) (e : entry) : Prop := length (fst e) = n /\ length (snd e) = n.
Lemma merge_pass_end : forall n d rest cur, hok n cur -> Forall (hok n) rest -> (d < n)%nat ->
  map to_count (merge_pass true d cur rest) = merge_pass false d (to_count cur) (map to_count rest) /\
  Forall (hok n) (merge_pass true d cur rest).
Proof.
  intros n d. induction rest as [|i r IH]; intros [sj ej] [H1 H2] HF Hd; cbn [merge_pass map]; cbn [fst snd] in H1, H2; [split; auto; constructor; [split; auto|constructor]|].
  inversion HF; subst. destruct i as [si ei]. destruct H3 as [H3 H5]. cbn [fst snd] in H3, H5.
  cbn [fst snd]. rewrite can_merge_end by lia. cbn [to_count fst snd].
  destruct (can_merge false d 0 _ _ _ _) eqn:E.
  - assert (E' : can_merge true d 0 sj ej si ei = true) by (rewrite can_merge_end by lia; exact E).
    destruct (do_merge_end d sj ej si ei 0) as [M1 M2]; auto; try lia.
    unfold do_merge at 1 3. cbn [fst snd]. rewrite M1. destruct (IH (sj, ei)) as [I1 I2]; auto; [split; cbn; lia|]. split; auto.
    rewrite I1. f_equal. unfold do_merge. cbn [fst snd]. unfold to_count in M2 |- *. cbn [fst snd] in M2 |- *. rewrite M2. reflexivity.
  - destruct (IH (si, ei)) as [I1 I2]; auto; [split; cbn; lia|]. cbn [map]. rewrite I1. split; auto. constructor; auto; split; cbn; lia.
Qed.
Lemma merge_blocks_end : forall n l, Forall (hok n) l ->
  map to_count (merge_blocks true n l) = merge_blocks false n (map to_count l) /\ Forall (hok n) (merge_blocks true n l).
Proof.
  intros n l H. unfold merge_blocks.
  assert (G : Forall (fun d => (d < n)%nat) (rev (seq 0 n))).
  { apply Forall_forall. intros d Hd. apply in_rev in Hd. apply in_seq in Hd. lia. }
  revert l H. induction G as [|d ds Hd G IH]; intros l H; cbn [fold_left]; [split; auto|].
  destruct l as [|x r]; [apply (IH []); auto|]. inversion H; subst. cbn [merge_dim map].
  destruct (merge_pass_end n d r x) as [M1 M2]; auto. rewrite <- M1. apply IH; auto.
Qed.

(** Merging keeps a list ordered by starts and by ends ordered. *)
Lemma merge_pass_incl : forall n d rest cur, hok n cur -> Forall (hok n) rest -> (d < n)%nat ->
  incl (map fst (merge_pass true d cur rest)) (fst cur :: map fst rest) /\ incl (map snd (merge_pass true d cur rest)) (snd cur :: map snd rest).
Proof.
  intros n d. induction rest as [|i r IH]; intros cur H1 HF Hd; cbn [merge_pass map]; [split; apply incl_refl|].
  inversion HF; subst. destruct (can_merge true d 0 (fst cur) (snd cur) (fst i) (snd i)) eqn:E.
  - destruct H1 as [H1 H1'], H2 as [H2 H2'].
    destruct (do_merge_end d (fst cur) (snd cur) (fst i) (snd i) 0) as [M1 M2]; auto; try lia.
    destruct (IH (do_merge true d cur i)) as [I1 I2]; auto; [split; cbn; rewrite ?upd_nth_length; auto|].
    unfold do_merge in I1 at 2, I2 at 2. cbn [fst snd] in I1, I2. rewrite M1 in I2. split; intros z Hz; [apply I1 in Hz|apply I2 in Hz]; cbn in *; tauto.
  - destruct (IH i) as [I1 I2]; auto. cbn [map]. split; intros z [Hz|Hz]; [left; auto|right; apply I1; auto|left; auto|right; apply I2; auto].
Qed.
Lemma SS_cons_iff : forall A (R : A -> A -> Prop) a l, StronglySorted R (a :: l) <-> StronglySorted R l /\ Forall (R a) l.
Proof. intros. split; [intros H; inversion H; auto|intros []; constructor; auto]. Qed.
Lemma Forall_incl_ : forall A (P : A -> Prop) l l', incl l l' -> Forall P l' -> Forall P l.
Proof. intros A P l l' H HF. rewrite Forall_forall in *. auto. Qed.
Lemma merge_pass_sorted : forall n d rest cur, hok n cur -> Forall (hok n) rest -> (d < n)%nat ->
  StronglySorted before (fst cur :: map fst rest) -> StronglySorted before (snd cur :: map snd rest) ->
  listed_in_order (merge_pass true d cur rest).
Proof.
  intros n d. unfold listed_in_order. induction rest as [|i r IH]; intros cur H1 HF Hd S1 S2; cbn [merge_pass map] in *; [split; auto|].
  inversion HF; subst. destruct (can_merge true d 0 (fst cur) (snd cur) (fst i) (snd i)) eqn:E.
  - destruct H1 as [H1 H1'], H2 as [H2 H2'].
    destruct (do_merge_end d (fst cur) (snd cur) (fst i) (snd i) 0) as [M1 M2]; auto; try lia.
    apply IH; auto; [split; cbn; rewrite ?upd_nth_length; auto| |]; unfold do_merge; cbn [fst snd].
    + apply SS_cons_iff in S1. destruct S1 as [S1 F1]. inversion F1; inversion S1; subst. constructor; auto.
    + rewrite M1. apply SS_cons_iff in S2. tauto.
  - destruct (merge_pass_incl n d r i) as [I1 I2]; auto. apply SS_cons_iff in S1, S2. destruct S1 as [S1 F1], S2 as [S2 F2].
    destruct (IH i) as [J1 J2]; auto. cbn [map]. split; constructor; auto; eapply Forall_incl_; eauto.
Qed.
Lemma merge_blocks_sorted : forall n l, Forall (hok n) l -> listed_in_order l -> listed_in_order (merge_blocks true n l).
Proof.
  intros n l H. unfold merge_blocks.
  assert (G : Forall (fun d => (d < n)%nat) (rev (seq 0 n))).
  { apply Forall_forall. intros d Hd. apply in_rev in Hd. apply in_seq in Hd. lia. }
  revert l H. induction G as [|d ds Hd G IH]; intros l H HO; cbn [fold_left]; [auto|].
  destruct l as [|x r]; [apply (IH []); auto|]. inversion H; subst. cbn [merge_dim].
  destruct (merge_pass_end n d r x) as [M1 M2]; auto. apply IH; auto. destruct HO as [O1 O2]. eapply merge_pass_sorted; eauto.
Qed.
