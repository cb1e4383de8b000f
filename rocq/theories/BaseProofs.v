(** Facts about bytes, words and buffer reads. *)
From Verif Require Import Base.
From Coq Require Import ZifyBool ZifyNat ZifyN.

Lemma le_length : forall n z, length (le n z) = n.
Proof. induction n; simpl; intros; auto. Qed.

Lemma unle_le : forall n z, unle (le n z) = z mod 2 ^ (8 * Z.of_nat n).
Proof.
  induction n; intros.
  - simpl. rewrite Z.mod_1_r. reflexivity.
  - cbn [le unle]. rewrite IHn.
    replace (2 ^ (8 * Z.of_nat (S n))) with (256 * 2 ^ (8 * Z.of_nat n)).
    + rewrite Z.rem_mul_r by (try lia; apply Z.pow_pos_nonneg; lia). lia.
    + change 256 with (2 ^ 8). rewrite <- Z.pow_add_r by lia. f_equal. lia.
Qed.

Lemma unle_le_id : forall n z, 0 <= z < 2 ^ (8 * Z.of_nat n) -> unle (le n z) = z.
Proof. intros. rewrite unle_le. apply Z.mod_small; auto. Qed.

Lemma sle_le : forall n z, (0 < n)%nat ->
  - 2 ^ (8 * Z.of_nat n - 1) <= z < 2 ^ (8 * Z.of_nat n - 1) -> sle (le n z) = z.
Proof.
  intros n z Hn Hz. unfold sle, to_signed. rewrite le_length, unle_le.
  assert (E : 2 ^ (8 * Z.of_nat n) = 2 * 2 ^ (8 * Z.of_nat n - 1)).
  { rewrite <- Z.pow_succ_r by lia. f_equal. lia. }
  assert (P : 0 < 2 ^ (8 * Z.of_nat n - 1)) by (apply Z.pow_pos_nonneg; lia).
  rewrite E.
  destruct (Z_lt_ge_dec z 0).
  - assert (M : z mod (2 * 2 ^ (8 * Z.of_nat n - 1)) = z + 2 * 2 ^ (8 * Z.of_nat n - 1)).
    { symmetry. apply Z.mod_unique with (q := -1); lia. }
    rewrite M. destruct (Z.ltb_spec (z + 2 * 2 ^ (8 * Z.of_nat n - 1)) (2 ^ (8 * Z.of_nat n - 1))); lia.
  - rewrite Z.mod_small by lia.
    destruct (Z.ltb_spec z (2 ^ (8 * Z.of_nat n - 1))); lia.
Qed.

Lemma sle_le4 : forall z, - 2 ^ 31 <= z < 2 ^ 31 -> sle (le 4 z) = z.
Proof. intros. apply sle_le; [lia|]. exact H. Qed.
Lemma sle_le8 : forall z, - 2 ^ 63 <= z < 2 ^ 63 -> sle (le 8 z) = z.
Proof. intros. apply sle_le; [lia|]. exact H. Qed.
Lemma unle_le8 : forall z, 0 <= z < 2 ^ 64 -> unle (le 8 z) = z.
Proof. intros. apply unle_le_id. exact H. Qed.

Lemma i32_id : forall z, - 2 ^ 31 <= z < 2 ^ 31 -> i32 z = z.
Proof.
  intros z Hz. rewrite <- (sle_le4 z Hz) at 2. unfold i32, sle. rewrite le_length, unle_le.
  reflexivity.
Qed.

Lemma Zlen_app : forall A (a b : list A), Zlen (a ++ b) = Zlen a + Zlen b.
Proof. intros. unfold Zlen. rewrite app_length. lia. Qed.
Lemma Zlen_nil : forall A, Zlen (@nil A) = 0.
Proof. reflexivity. Qed.
Lemma Zlen_cons : forall A (a : A) l, Zlen (a :: l) = 1 + Zlen l.
Proof. intros. unfold Zlen. cbn [length]. lia. Qed.
Lemma Zlen_nonneg : forall A (l : list A), 0 <= Zlen l.
Proof. intros. unfold Zlen. lia. Qed.
Lemma Zlen_map : forall A B (f : A -> B) l, Zlen (map f l) = Zlen l.
Proof. intros. unfold Zlen. rewrite map_length. reflexivity. Qed.
Global Hint Rewrite Zlen_app Zlen_nil Zlen_cons Zlen_map : zlen.

Lemma words_length : forall l, length (words l) = (8 * length l)%nat.
Proof.
  unfold words. induction l; [reflexivity|].
  cbn [flat_map length]. rewrite app_length, le_length, IHl. lia.
Qed.
Lemma words_app : forall a b, words (a ++ b) = words a ++ words b.
Proof. intros. unfold words. apply flat_map_app. Qed.

(** ** Reads *)
Lemma rd_app : forall pre x post n, length x = n -> rd (pre ++ x ++ post) (Zlen pre) n = Some x.
Proof.
  intros pre x post n Hn. unfold rd.
  rewrite !app_length. unfold Zlen.
  replace ((0 <=? Z.of_nat (length pre)) &&
    (Z.of_nat (length pre) + Z.of_nat n <=? Z.of_nat (length pre + (length x + length post)))) with true by lia.
  rewrite Nat2Z.id, skipn_app, skipn_all, Nat.sub_diag. cbn [app skipn].
  rewrite firstn_app, Hn, Nat.sub_diag. cbn [firstn].
  rewrite app_nil_r, <- Hn, firstn_all. reflexivity.
Qed.

(** The same, with the position given as an equation. *)
Lemma rd_at : forall buf pre x post off n,
  buf = pre ++ x ++ post -> off = Zlen pre -> length x = n -> rd buf off n = Some x.
Proof. intros. subst buf off. apply rd_app; auto. Qed.

Lemma rd_i32_at : forall buf pre z post off,
  buf = pre ++ le 4 z ++ post -> off = Zlen pre -> - 2 ^ 31 <= z < 2 ^ 31 ->
  rd_i32 buf off = Some z.
Proof.
  intros. unfold rd_i32. erewrite rd_at; eauto using le_length.
  cbn [option_map]. rewrite sle_le4; auto.
Qed.
Lemma rd_i64_at : forall buf pre z post off,
  buf = pre ++ le 8 z ++ post -> off = Zlen pre -> - 2 ^ 63 <= z < 2 ^ 63 ->
  rd_i64 buf off = Some z.
Proof.
  intros. unfold rd_i64. erewrite rd_at; eauto using le_length.
  cbn [option_map]. rewrite sle_le8; auto.
Qed.
Lemma rd_u64_at : forall buf pre z post off,
  buf = pre ++ le 8 z ++ post -> off = Zlen pre -> 0 <= z < 2 ^ 64 ->
  rd_u64 buf off = Some z.
Proof.
  intros. unfold rd_u64. erewrite rd_at; eauto using le_length.
  cbn [option_map]. rewrite unle_le8; auto.
Qed.

Lemma rd_words_at : forall ws buf pre post off n,
  buf = pre ++ words ws ++ post -> off = Zlen pre -> length ws = n ->
  Forall (fun w => 0 <= w < 2 ^ 64) ws -> rd_words buf off n = Some ws.
Proof.
  induction ws as [|w ws IH]; intros buf pre post off n Hb Ho Hn HF.
  - subst n. reflexivity.
  - subst n. cbn [length rd_words]. inversion HF; subst.
    erewrite rd_u64_at with (pre := pre) (z := w) (post := words ws ++ post); auto.
    erewrite IH with (pre := pre ++ le 8 w) (post := post); auto.
      * rewrite <- !app_assoc. reflexivity.
      * rewrite Zlen_app. unfold Zlen at 3. rewrite le_length. reflexivity.
Qed.

Lemma to_signed8_id : forall w, 0 <= w < 2 ^ 63 -> to_signed 8 w = w.
Proof.
  intros. unfold to_signed. change (2 ^ (8 * Z.of_nat 8 - 1)) with (2 ^ 63).
  destruct (Z.ltb_spec w (2 ^ 63)); lia.
Qed.

(** ** Byte maps *)
Lemma put_out : forall m off bs p, ~ (off <= p < off + Zlen bs) -> put m off bs p = m p.
Proof.
  intros. unfold put.
  destruct ((off <=? p) && (p <? off + Zlen bs)) eqn:E; auto. lia.
Qed.
Lemma put_in : forall m off bs p, off <= p < off + Zlen bs ->
  put m off bs p = nth (Z.to_nat (p - off)) bs 0.
Proof.
  intros. unfold put.
  replace ((off <=? p) && (p <? off + Zlen bs)) with true by lia. reflexivity.
Qed.
Lemma put_one : forall m off b p, put m off [b] p = if p =? off then b else m p.
Proof.
  intros. destruct (Z.eqb_spec p off).
  - subst. rewrite put_in by (rewrite Zlen_cons, Zlen_nil; lia). rewrite Z.sub_diag. reflexivity.
  - apply put_out. rewrite Zlen_cons, Zlen_nil. lia.
Qed.

Lemma get_length : forall m off n, length (get m off n) = n.
Proof. intros. unfold get. rewrite map_length, seq_length. reflexivity. Qed.
Lemma nth_get : forall m off n i d, (i < n)%nat -> nth i (get m off n) d = m (off + Z.of_nat i).
Proof.
  intros. unfold get.
  rewrite nth_indep with (d' := (fun i => m (off + Z.of_nat i)) 0%nat) by (rewrite map_length, seq_length; auto).
  rewrite (map_nth (fun i => m (off + Z.of_nat i))). rewrite seq_nth by auto. reflexivity.
Qed.
Lemma get_ext : forall m m' off off' n,
  (forall i, 0 <= i < Z.of_nat n -> m (off + i) = m' (off' + i)) -> get m off n = get m' off' n.
Proof.
  intros. unfold get. apply map_ext_in. intros i Hi. apply in_seq in Hi. apply H. lia.
Qed.
Lemma get_app : forall m off a b, get m off (a + b) = get m off a ++ get m (off + Z.of_nat a) b.
Proof.
  intros. unfold get. rewrite seq_app, map_app. f_equal.
  rewrite <- (Nat.add_0_r (0 + a)) at 1. rewrite Nat.add_0_l.
  assert (S : forall k n, map (fun i => m (off + Z.of_nat i)) (seq (a + k) n)
              = map (fun i => m (off + Z.of_nat a + Z.of_nat i)) (seq k n)).
  { intros k n. revert k. induction n; intros; cbn [seq map]; auto.
    f_equal; [f_equal; lia|]. rewrite <- Nat.add_succ_r. apply IHn. }
  apply S.
Qed.
Lemma get_put_same : forall m off bs, get (put m off bs) off (length bs) = bs.
Proof.
  intros. apply nth_ext with (d := 0) (d' := 0); rewrite get_length; auto.
  intros i Hi. rewrite nth_get by auto. rewrite put_in by (unfold Zlen; lia).
  f_equal. lia.
Qed.
Lemma get_put_out : forall m off bs o n,
  o + Z.of_nat n <= off \/ off + Zlen bs <= o -> get (put m off bs) o n = get m o n.
Proof. intros. apply get_ext. intros. apply put_out. lia. Qed.

(** ** zseq *)
Lemma zseq_In : forall n i, In i (zseq n) <-> 0 <= i < n.
Proof.
  intros. unfold zseq. rewrite in_map_iff. split.
  - intros [k [Hk Hi]]. apply in_seq in Hi. lia.
  - intros. exists (Z.to_nat i). rewrite in_seq. lia.
Qed.
Lemma zseq_length : forall n, length (zseq n) = Z.to_nat n.
Proof. intros. unfold zseq. rewrite map_length, seq_length. reflexivity. Qed.
Lemma zseq_0 : forall n, n <= 0 -> zseq n = [].
Proof. intros. unfold zseq. replace (Z.to_nat n) with 0%nat by lia. reflexivity. Qed.
Lemma zseq_succ : forall n, 0 <= n -> zseq (n + 1) = zseq n ++ [n].
Proof.
  intros. unfold zseq. replace (Z.to_nat (n + 1)) with (Z.to_nat n + 1)%nat by lia.
  rewrite seq_app, map_app. cbn [seq map]. f_equal. f_equal. lia.
Qed.
Lemma zseq_shift : forall n, 0 < n -> zseq n = 0 :: map (fun i => i + 1) (zseq (n - 1)).
Proof.
  intros. unfold zseq. replace (Z.to_nat n) with (S (Z.to_nat (n - 1))) by lia.
  cbn [seq map]. f_equal. rewrite <- seq_shift, !map_map. apply map_ext. intros. lia.
Qed.
Lemma zseq_app : forall a b, 0 <= a -> 0 <= b -> zseq (a + b) = zseq a ++ map (fun i => a + i) (zseq b).
Proof.
  intros. unfold zseq. replace (Z.to_nat (a + b)) with (Z.to_nat a + Z.to_nat b)%nat by lia.
  rewrite seq_app, map_app. f_equal. cbn [Nat.add].
  assert (S : forall n k, map Z.of_nat (seq (Z.to_nat a + k) n) = map (fun i => a + i) (map Z.of_nat (seq k n))).
  { induction n; intros; cbn [seq map]; auto. f_equal; [lia|].
    rewrite <- Nat.add_succ_r. apply IHn. }
  rewrite <- (Nat.add_0_r (Z.to_nat a)) at 1. apply S.
Qed.
Lemma zseq_nth_error : forall n k, (k < Z.to_nat n)%nat -> nth_error (zseq n) k = Some (Z.of_nat k).
Proof.
  intros. unfold zseq. rewrite nth_error_map.
  rewrite nth_error_nth' with (d := 0%nat) by (rewrite seq_length; auto).
  rewrite seq_nth by auto. reflexivity.
Qed.
Lemma zseq_NoDup : forall n, NoDup (zseq n).
Proof.
  intros. unfold zseq. apply FinFun.Injective_map_NoDup; [|apply seq_NoDup].
  intros a b H. lia.
Qed.

(** ** Sums and products *)
Lemma Zsum_app : forall a b, Zsum (a ++ b) = Zsum a + Zsum b.
Proof. unfold Zsum. induction a; intros; cbn; auto. rewrite IHa. lia. Qed.
Lemma Zsum_nonneg : forall l, Forall (fun x => 0 <= x) l -> 0 <= Zsum l.
Proof. unfold Zsum. induction 1; cbn; lia. Qed.
Lemma Zprod_nonneg : forall l, Forall (fun x => 0 <= x) l -> 0 <= Zprod l.
Proof. unfold Zprod. induction 1; cbn; [lia|]. apply Z.mul_nonneg_nonneg; auto. Qed.
Lemma Zprod_pos : forall l, Forall (fun x => 0 < x) l -> 0 < Zprod l.
Proof. unfold Zprod. induction 1; cbn; [lia|]. apply Z.mul_pos_pos; auto. Qed.

(** ** Outcomes *)
Lemma bind_Ok : forall A B (r : res A) (f : A -> res B) b,
  bind r f = Ok b -> exists a, r = Ok a /\ f a = Ok b.
Proof. intros A B [a| |] f b H; cbn in H; try discriminate. eauto. Qed.
Lemma or_ub_Ok : forall A (o : option A) a, or_ub o = Ok a -> o = Some a.
Proof. intros A [x|] a H; cbn in H; congruence. Qed.

(** ** Lists *)
Lemma upd_nth_length : forall A i (a : A) l, length (upd_nth i a l) = length l.
Proof. induction i; destruct l; cbn; auto. Qed.
Lemma nth_error_upd_nth_eq : forall A i (a : A) l, (i < length l)%nat -> nth_error (upd_nth i a l) i = Some a.
Proof. induction i; destruct l; cbn; intros; try lia; auto. apply IHi. lia. Qed.
Lemma nth_error_upd_nth_ne : forall A i j (a : A) l, i <> j -> nth_error (upd_nth i a l) j = nth_error l j.
Proof. induction i; destruct l, j; cbn; intros; auto; try congruence. Qed.
Lemma Forall_upd_nth : forall A (P : A -> Prop) i a l, Forall P l -> P a -> Forall P (upd_nth i a l).
Proof. intros A P. induction i; destruct l; cbn; intros HF Ha; inversion HF; subst; auto. Qed.
