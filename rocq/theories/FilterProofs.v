(** Proofs about the filter pipeline. *)
From Verif Require Import Base BaseProofs Spec MetaModel IndexModel ReadModel PassModel FilterModel FilterSpec.
From Coq Require Import ZifyNat.

Fixpoint times (n : nat) (comp : list Z -> list Z) (x : list Z) : list Z :=
  match n with O => x | S m => times m comp (comp x) end.

Lemma buf_get_set : forall b i x, buf_get (buf_set b i x) i = x.
Proof. intros. unfold buf_get, buf_set. destruct (Nat.even i); reflexivity. Qed.
Lemma buf_in_all : forall x, buf_in x (length x) = Ok x.
Proof.
  intros. unfold buf_in. rewrite firstn_all.
  replace (length x <? length x)%nat with false by (symmetry; apply Nat.ltb_ge; lia). reflexivity.
Qed.

Lemma filter_loop_mid : forall comp inp n rest i b y, Forall (eq DEFLATE) rest -> rest <> [] ->
  (0 < i)%nat -> (i + length rest = n)%nat -> buf_get b i = y ->
  filter_loop comp inp n i rest b (length y) = Ok (Some (times (length rest) comp y)).
Proof.
  induction rest as [|id rest IH]; intros i b y HF Hne Hi Hn Hb; [congruence|].
  inversion HF as [|? ? Hid HF']; subst id. cbn [filter_loop length] in *.
  replace (i =? 0)%nat with false by (symmetry; apply Nat.eqb_neq; lia).
  rewrite Hb, buf_in_all. cbn [bind]. unfold stage. rewrite Z.eqb_refl. cbn [bind times].
  destruct rest as [|id' rest].
  - replace (i =? n - 1)%nat with true by (symmetry; apply Nat.eqb_eq; cbn in Hn; lia). reflexivity.
  - replace (i =? n - 1)%nat with false by (symmetry; apply Nat.eqb_neq; cbn in Hn; lia).
    apply IH; auto; try congruence; try apply buf_get_set; cbn in *; lia.
Qed.

Lemma filter_times : forall comp ids x, ids <> [] -> Forall (eq DEFLATE) ids ->
  filter comp ids x = Ok (Some (times (length ids) comp x)).
Proof.
  intros comp ids x Hne HF. unfold filter. destruct ids as [|id rest]; [congruence|].
  inversion HF as [|? ? Hid HF']; subst id. cbn [filter_loop length].
  rewrite Nat.eqb_refl, buf_in_all. cbn [bind]. unfold stage. rewrite Z.eqb_refl. cbn [bind times].
  destruct rest as [|id' rest]; [reflexivity|].
  replace (0 =? S (length (id' :: rest)) - 1)%nat with false by (symmetry; apply Nat.eqb_neq; cbn; lia).
  apply filter_loop_mid; auto; try congruence; try apply buf_get_set; cbn; lia.
Qed.

Lemma even_SS : forall i, Nat.even (S (S i)) = Nat.even i.
Proof. reflexivity. Qed.

Lemma unfilter_loop_mid : forall comp inp n rest b y, Forall (eq DEFLATE) rest -> rest <> [] ->
  (length rest < n)%nat -> buf_get b (length rest + 1) = y ->
  unfilter_loop comp inp n rest b (length y) = Ok (Some (times (length rest) comp y)).
Proof.
  induction rest as [|id rest IH]; intros b y HF Hne Hn Hb; [congruence|].
  inversion HF as [|? ? Hid HF']; subst id. cbn [unfilter_loop length] in *.
  replace (length rest =? n - 1)%nat with false by (symmetry; apply Nat.eqb_neq; lia).
  assert (Hb' : buf_get b (length rest) = y).
  { rewrite <- Hb. unfold buf_get. replace (S (length rest) + 1)%nat with (S (S (length rest))) by lia.
    reflexivity. }
  rewrite Hb', buf_in_all. cbn [bind]. unfold stage. rewrite Z.eqb_refl. cbn [bind times].
  destruct rest as [|id' rest]; [reflexivity|].
  cbn [length Nat.eqb]. apply IH; [auto|congruence|cbn in *; lia|].
  cbn [length]. replace (S (length rest) + 1)%nat with (S (S (length rest))) by lia. apply buf_get_set.
Qed.

Lemma unfilter_times : forall comp ids x, ids <> [] -> Forall (eq DEFLATE) ids ->
  unfilter comp ids x = Ok (Some (times (length ids) comp x)).
Proof.
  intros comp ids x Hne HF. unfold unfilter.
  assert (HF' : Forall (eq DEFLATE) (rev ids)) by (apply Forall_rev; auto).
  rewrite <- (rev_length ids). destruct (rev ids) as [|id rest] eqn:E.
  { apply (f_equal (@length Z)) in E. rewrite rev_length in E. destruct ids; cbn in *; congruence. }
  inversion HF' as [|? ? Hid HF2]; subst id. cbn [unfilter_loop length].
  replace (length rest =? S (length rest) - 1)%nat with true by (symmetry; apply Nat.eqb_eq; lia).
  rewrite buf_in_all. cbn [bind]. unfold stage. rewrite Z.eqb_refl. cbn [bind times].
  destruct rest as [|id' rest]; [reflexivity|].
  cbn [length Nat.eqb]. apply (unfilter_loop_mid comp x); [auto|congruence|cbn; lia|].
  cbn [length]. replace (S (length rest) + 1)%nat with (S (S (length rest))) by lia. apply buf_get_set.
Qed.

Lemma times_last : forall comp n x, times (S n) comp x = comp (times n comp x).
Proof. induction n; intros; [reflexivity|]. cbn [times] in *. apply IHn. Qed.

Lemma decode_times_ok : forall comp dec, lossless comp dec -> forall n x,
  decode_times dec n (times n comp x) = Some x.
Proof.
  intros comp dec H. induction n; intros x; [reflexivity|].
  rewrite times_last. cbn [decode_times]. rewrite H. apply IHn.
Qed.

(** Stages other than deflate. *)
Lemma filter_loop_bad : forall comp inp n rest i b y, ~ Forall (eq DEFLATE) rest -> (i + length rest = n)%nat ->
  buf_get b i = y -> (0 < i)%nat -> filter_loop comp inp n i rest b (length y) = Err.
Proof.
  induction rest as [|id rest IH]; intros i b y HF Hn Hb Hi; [exfalso; apply HF; constructor|].
  cbn [filter_loop length] in *.
  replace (i =? 0)%nat with false by (symmetry; apply Nat.eqb_neq; lia).
  rewrite Hb, buf_in_all. cbn [bind]. unfold stage.
  destruct (Z.eqb_spec id DEFLATE) as [->|Hid]; [|reflexivity]. cbn [bind].
  destruct rest as [|id' rest]; [exfalso; apply HF; repeat constructor|].
  replace (i =? n - 1)%nat with false by (symmetry; apply Nat.eqb_neq; cbn in Hn; lia).
  apply IH; [intros G; apply HF; constructor; auto|cbn in *; lia|apply buf_get_set|lia].
Qed.
Lemma filter_bad : forall comp ids x, ~ Forall (eq DEFLATE) ids -> filter comp ids x = Err.
Proof.
  intros comp ids x HF. unfold filter. destruct ids as [|id rest]; [exfalso; apply HF; constructor|].
  cbn [filter_loop length]. rewrite Nat.eqb_refl, buf_in_all. cbn [bind]. unfold stage.
  destruct (Z.eqb_spec id DEFLATE) as [->|Hid]; [|reflexivity]. cbn [bind].
  destruct rest as [|id' rest]; [exfalso; apply HF; repeat constructor|].
  replace (0 =? S (length (id' :: rest)) - 1)%nat with false by (symmetry; apply Nat.eqb_neq; cbn; lia).
  apply filter_loop_bad; [intros G; apply HF; constructor; auto|reflexivity|apply buf_get_set|lia].
Qed.
