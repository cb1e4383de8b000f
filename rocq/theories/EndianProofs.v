(** Proofs about byte order. *)
From Verif Require Import Base BaseProofs Spec MetaModel LocalSpec EndianModel.
From Coq Require Import ZifyNat.

Lemma small_cases : forall m n, 0 <= n < Z.of_nat m -> In n (map Z.of_nat (seq 0 m)).
Proof.
  intros m n H. apply in_map_iff. exists (Z.to_nat n). split; [lia|]. apply in_seq. lia.
Qed.

Ltac bits :=
  rewrite ?Z.lor_spec, ?Z.land_spec, ?Z.shiftr_spec, ?Z.shiftl_spec by lia;
  repeat match goal with |- context [Z.testbit (Zpos ?p) ?q] =>
    let b := eval vm_compute in (Z.testbit (Zpos p) q) in change (Z.testbit (Zpos p) q) with b end;
  rewrite ?Bool.andb_false_r, ?Bool.andb_true_r, ?Bool.orb_false_r, ?Bool.orb_false_l; try reflexivity.

Lemma sreverse_bit : forall v n, 0 <= n < 16 ->
  Z.testbit (sreverse v) n = Z.testbit v (8 - 8 * (n / 8) + n mod 8).
Proof.
  intros v n H. apply (small_cases 16) in H. cbn [seq map] in H. unfold sreverse.
  repeat (destruct H as [<-|H]; [bits|]). destruct H.
Qed.
Lemma lreverse_bit : forall v n, 0 <= n < 32 ->
  Z.testbit (lreverse v) n = Z.testbit v (24 - 8 * (n / 8) + n mod 8).
Proof.
  intros v n H. apply (small_cases 32) in H. cbn [seq map] in H. unfold lreverse.
  repeat (destruct H as [<-|H]; [bits|]). destruct H.
Qed.
Lemma llreverse_bit : forall v n, 0 <= n < 64 ->
  Z.testbit (llreverse v) n = Z.testbit v (56 - 8 * (n / 8) + n mod 8).
Proof.
  intros v n H. apply (small_cases 64) in H. cbn [seq map] in H. unfold llreverse.
  repeat (destruct H as [<-|H]; [bits|]). destruct H.
Qed.

Lemma nth_le : forall n v k, (k < n)%nat -> nth k (le n v) 0 = (v / 2 ^ (8 * Z.of_nat k)) mod 2 ^ 8.
Proof.
  induction n; intros v k H; [lia|]. destruct k; cbn [le nth].
  - change (2 ^ (8 * Z.of_nat 0)) with 1. rewrite Z.div_1_r. reflexivity.
  - rewrite IHn by lia. rewrite Z.div_div by lia. change 256 with (2 ^ 8) at 1.
    rewrite <- Z.pow_add_r by lia. do 3 f_equal. lia.
Qed.

Lemma rev_le : forall n r, (forall v i, 0 <= i < 8 * Z.of_nat n ->
    Z.testbit (r v) i = Z.testbit v (8 * (Z.of_nat n - 1) - 8 * (i / 8) + i mod 8)) ->
  forall v, le n (r v) = rev (le n v).
Proof.
  intros n r Hr v. apply nth_ext with (d := 0) (d' := 0); [rewrite rev_length, !le_length; auto|].
  intros k Hk. rewrite le_length in Hk. rewrite rev_nth by (rewrite le_length; auto).
  rewrite le_length, !nth_le by lia. apply Z.bits_inj'. intros b Hb.
  destruct (Z.lt_ge_cases b 8).
  - rewrite !Z.mod_pow2_bits_low by lia. rewrite !Z.div_pow2_bits by lia. rewrite Hr by lia.
    f_equal.
    replace ((b + 8 * Z.of_nat k) / 8) with (Z.of_nat k) by (apply (Z.div_unique _ _ _ b); lia).
    replace ((b + 8 * Z.of_nat k) mod 8) with b by (apply (Z.mod_unique _ _ (Z.of_nat k)); lia). lia.
  - rewrite !Z.mod_pow2_bits_high by lia. reflexivity.
Qed.

Lemma le_lreverse : forall v, le 4 (lreverse v) = rev (le 4 v).
Proof. apply rev_le. intros. apply lreverse_bit. assumption. Qed.
Lemma le_llreverse : forall v, le 8 (llreverse v) = rev (le 8 v).
Proof. apply rev_le. intros. apply llreverse_bit. assumption. Qed.

(** Reversing twice. *)
Lemma involution : forall n r, 0 < n -> (forall v i, 0 <= i < 8 * n ->
    Z.testbit (r v) i = Z.testbit v (8 * (n - 1) - 8 * (i / 8) + i mod 8)) ->
  (forall v i, 8 * n <= i -> Z.testbit (r v) i = false) ->
  forall v, 0 <= v < 2 ^ (8 * n) -> r (r v) = v.
Proof.
  intros n r Hn Hr Hh v Hv. apply Z.bits_inj'. intros i Hi.
  destruct (Z.lt_ge_cases i (8 * n)).
  - pose proof (Z.div_mod i 8 ltac:(lia)). pose proof (Z.mod_pos_bound i 8 ltac:(lia)).
    set (q := i / 8) in *. set (m := i mod 8) in *.
    assert (0 <= q < n) by lia.
    rewrite Hr by lia. fold q m. rewrite Hr by lia. f_equal.
    replace (8 * (n - 1) - 8 * q + m) with (8 * (n - 1 - q) + m) by lia.
    replace ((8 * (n - 1 - q) + m) / 8) with (n - 1 - q) by (apply (Z.div_unique _ _ _ m); lia).
    replace ((8 * (n - 1 - q) + m) mod 8) with m by (apply (Z.mod_unique _ _ (n - 1 - q)); lia). lia.
  - rewrite Hh by lia. symmetry. destruct (Z.eq_dec v 0) as [->|]; [apply Z.testbit_0_l|].
    apply Z.bits_above_log2; [lia|]. apply Z.log2_lt_pow2; [lia|].
    eapply Z.lt_le_trans; [apply Hv|]. apply Z.pow_le_mono_r; lia.
Qed.

Lemma land_high : forall a m n i, 0 <= m < 2 ^ n -> n <= i -> 0 <= n -> Z.testbit (Z.land a m) i = false.
Proof.
  intros a m n i Hm Hi Hn. rewrite Z.land_spec. replace (Z.testbit m i) with false; [apply Bool.andb_false_r|].
  symmetry. destruct (Z.eq_dec m 0) as [->|]; [apply Z.testbit_0_l|].
  apply Z.bits_above_log2; [lia|]. apply Z.log2_lt_pow2; [lia|].
  eapply Z.lt_le_trans; [apply Hm|]. apply Z.pow_le_mono_r; lia.
Qed.

Lemma sreverse_twice : forall v, 0 <= v < 2 ^ 16 -> sreverse (sreverse v) = v.
Proof.
  intros v H. apply (involution 2 sreverse); auto; try lia.
  - intros w i Hi. apply sreverse_bit. lia.
  - intros w i Hi. unfold sreverse. rewrite !Z.lor_spec. rewrite !(land_high _ _ 16) by lia. reflexivity.
Qed.
Lemma lreverse_twice : forall v, 0 <= v < 2 ^ 32 -> lreverse (lreverse v) = v.
Proof.
  intros v H. apply (involution 4 lreverse); auto; try lia.
  - intros w i Hi. apply lreverse_bit. lia.
  - intros w i Hi. unfold lreverse. rewrite !Z.lor_spec. rewrite !(land_high _ _ 32) by lia. reflexivity.
Qed.
Lemma llreverse_twice : forall v, 0 <= v < 2 ^ 64 -> llreverse (llreverse v) = v.
Proof.
  intros v H. apply (involution 8 llreverse); auto; try lia.
  - intros w i Hi. apply llreverse_bit. lia.
  - intros w i Hi. unfold llreverse. rewrite !Z.lor_spec. rewrite !(land_high _ _ 64) by lia. reflexivity.
Qed.

Lemma le_unle : forall l, Forall (fun b => 0 <= b < 256) l -> le (length l) (unle l) = l.
Proof.
  induction l as [|b l IH]; intros H; [reflexivity|]. cbn [length le unle].
  pose proof (Forall_inv H) as Hb. cbn beta in Hb. rewrite Z.mul_comm, Z.mod_add, Z.div_add by lia.
  rewrite Z.mod_small, Z.div_small by lia. f_equal. apply IH. eapply Forall_inv_tail; eauto.
Qed.

Lemma bytes_le : forall n v, Forall (fun b => 0 <= b < 256) (le n v).
Proof. induction n; intros; cbn; constructor; auto. apply Z.mod_pos_bound. lia. Qed.

Lemma be_lreverse_group : forall l, length l = 4%nat -> Forall (fun b => 0 <= b < 256) l ->
  be 4 (lreverse (unbe l)) = rev l.
Proof.
  intros l L H. unfold be, unbe. rewrite le_lreverse, rev_involutive.
  rewrite <- L, <- (rev_length l). apply le_unle. apply Forall_rev; auto.
Qed.
Lemma be_llreverse_group : forall l, length l = 8%nat -> Forall (fun b => 0 <= b < 256) l ->
  be 8 (llreverse (unbe l)) = rev l.
Proof.
  intros l L H. unfold be, unbe. rewrite le_llreverse, rev_involutive.
  rewrite <- L, <- (rev_length l). apply le_unle. apply Forall_rev; auto.
Qed.

Lemma firstn_exact : forall n (a b : list Z), length a = n -> firstn n (a ++ b) = a.
Proof. intros n a b <-. rewrite firstn_app, Nat.sub_diag, firstn_all, app_nil_r. reflexivity. Qed.
Lemma skipn_exact : forall n (a b : list Z), length a = n -> skipn n (a ++ b) = b.
Proof. intros n a b <-. rewrite skipn_app, Nat.sub_diag, skipn_all. reflexivity. Qed.

Lemma llreverse_range_words : forall ws post,
  llreverse_range (length ws) (words_be ws ++ post) = words ws ++ post.
Proof.
  induction ws as [|w ws IH]; intros post; [reflexivity|].
  cbn [length llreverse_range words_be words flat_map]. rewrite <- !app_assoc.
  assert (L : length (be 8 w) = 8%nat) by (unfold be; rewrite rev_length, le_length; auto).
  rewrite (firstn_exact _ _ _ L), (skipn_exact _ _ _ L).
  rewrite be_llreverse_group; auto.
  - unfold be at 1. rewrite rev_involutive. f_equal. apply IH.
  - unfold be. apply Forall_rev, bytes_le.
Qed.

Lemma be_lreverse : forall v, be 4 (lreverse v) = le 4 v.
Proof. intros. unfold be. rewrite le_lreverse. apply rev_involutive. Qed.
Lemma be_llreverse : forall v, be 8 (llreverse v) = le 8 v.
Proof. intros. unfold be. rewrite le_llreverse. apply rev_involutive. Qed.

(** Everything after the header agrees. *)
Lemma body_be_ok : forall cfg did dip mdsize sels,
  w_body (mk_wreq cfg did dip mdsize sels) =
  body_be (is_rec dip sels) (1 <? length sels)%nat
    (match sels with b :: _ => hd 0 (b_start b) | [] => 0 end)
    (Z.of_nat (length sels)) (sel_words cfg dip sels).
Proof.
  intros. unfold mk_wreq, body_be. cbn [w_body].
  rewrite be_lreverse, be_llreverse. f_equal. f_equal.
  rewrite <- (app_nil_r (words_be _)), llreverse_range_words, app_nil_r. unfold sel_words.
  unfold words at 3. rewrite flat_map_app. fold words.
  match goal with |- ?a ++ _ = ?b ++ _ => replace b with a; [reflexivity|] end.
  destruct (_ && _ && _); reflexivity.
Qed.

Lemma lreverse_range_be4 : forall k v post,
  lreverse_range (S k) (be 4 v ++ post) = le 4 v ++ lreverse_range k post.
Proof.
  intros. cbn [lreverse_range].
  assert (L : length (be 4 v) = 4%nat) by (unfold be; rewrite rev_length, le_length; auto).
  rewrite (firstn_exact _ _ _ L), (skipn_exact _ _ _ L).
  rewrite be_lreverse_group; [|exact L|unfold be; apply Forall_rev, bytes_le].
  replace (rev (be 4 v)) with (le 4 v) by (symmetry; apply rev_involutive). reflexivity.
Qed.

Lemma be8_halves : forall v, be 8 v = be 4 (v / 2 ^ 32) ++ be 4 v.
Proof.
  intros v. unfold be. rewrite <- rev_app_distr. f_equal.
  change 8%nat with (4 + 4)%nat. cbn [Nat.add le app].
  rewrite !Z.div_div by lia. reflexivity.
Qed.

(** The header: three fields are right, the two 64-bit fields have their halves exchanged. *)
Lemma hdr_out_be_eq : forall h,
  hdr_out_be h = le 4 (h_size h) ++ le 4 (h_did h) ++ le 4 (h_flag h) ++
                 (le 4 (h_foff h / 2 ^ 32) ++ le 4 (h_foff h)) ++
                 (le 4 (h_fsize h / 2 ^ 32) ++ le 4 (h_fsize h)).
Proof.
  intros h. unfold hdr_out_be, hdr_be. rewrite !be8_halves, <- !app_assoc.
  rewrite !lreverse_range_be4. do 6 f_equal.
  rewrite <- (app_nil_r (be 4 (h_fsize h))), lreverse_range_be4. cbn. rewrite ?app_nil_r. reflexivity.
Qed.

Lemma entry_be_rest : forall cfg did d sels foff fsize,
  let l := wreq_bytes (published (mk_wreq cfg did d 0 sels) foff fsize) in
  let b := wreq_bytes_be cfg did d sels foff fsize in
  length b = length l /\ firstn 12 b = firstn 12 l /\ skipn 28 b = skipn 28 l.
Proof.
  intros. subst l b. unfold wreq_bytes_be, wreq_bytes, published. cbn [w_hdr w_body].
  rewrite <- (body_be_ok cfg did d 0 sels), hdr_out_be_eq. unfold enc_hdr. cbn [h_size h_did h_flag h_foff h_fsize].
  set (h := w_hdr (mk_wreq cfg did d 0 sels)). set (bd := w_body (mk_wreq cfg did d 0 sels)).
  clearbody h bd.
  assert (A : forall a b c x y, length a = 4%nat -> length b = 4%nat -> length c = 4%nat ->
    length x = 16%nat -> length y = 16%nat ->
    length ((a ++ b ++ c ++ x) ++ bd) = length ((a ++ b ++ c ++ y) ++ bd) /\
    firstn 12 ((a ++ b ++ c ++ x) ++ bd) = firstn 12 ((a ++ b ++ c ++ y) ++ bd) /\
    skipn 28 ((a ++ b ++ c ++ x) ++ bd) = skipn 28 ((a ++ b ++ c ++ y) ++ bd)).
  { intros a b c x y La Lb Lc Lx Ly. split; [rewrite !app_length; lia|]. split.
    - replace ((a ++ b ++ c ++ x) ++ bd) with ((a ++ b ++ c) ++ x ++ bd) by (rewrite <- !app_assoc; reflexivity).
      replace ((a ++ b ++ c ++ y) ++ bd) with ((a ++ b ++ c) ++ y ++ bd) by (rewrite <- !app_assoc; reflexivity).
      rewrite !firstn_exact by (rewrite !app_length; lia). reflexivity.
    - rewrite !skipn_exact by (rewrite !app_length; lia). reflexivity. }
  apply A; rewrite ?app_length, ?le_length; reflexivity.
Qed.

Lemma le4_inj : forall a b, 0 <= a < 2 ^ 32 -> 0 <= b < 2 ^ 32 -> le 4 a = le 4 b -> a = b.
Proof.
  intros a b Ha Hb H. rewrite <- (unle_le_id 4 a), <- (unle_le_id 4 b) by assumption. rewrite H. reflexivity.
Qed.
Lemma le4_mod : forall v, le 4 v = le 4 (v mod 2 ^ 32).
Proof.
  intros v. apply nth_ext with (d := 0) (d' := 0); [rewrite !le_length; auto|].
  intros k Hk. rewrite le_length in Hk. rewrite !nth_le by lia. apply Z.bits_inj'. intros i Hi.
  destruct (Z.lt_ge_cases i 8).
  - rewrite !Z.mod_pow2_bits_low by lia. rewrite !Z.div_pow2_bits by lia.
    rewrite Z.mod_pow2_bits_low by lia. reflexivity.
  - rewrite !Z.mod_pow2_bits_high by lia. reflexivity.
Qed.
Lemma le8_halves : forall v, le 8 v = le 4 v ++ le 4 (v / 2 ^ 32).
Proof.
  intros v. change 8%nat with (4 + 4)%nat. cbn [Nat.add le app]. rewrite !Z.div_div by lia. reflexivity.
Qed.

Lemma entry_be_same : forall cfg did d sels foff fsize,
  coordinate foff -> coordinate fsize ->
  (wreq_bytes_be cfg did d sels foff fsize =
   wreq_bytes (published (mk_wreq cfg did d 0 sels) foff fsize) <->
   foff / 2 ^ 32 = foff mod 2 ^ 32 /\ fsize / 2 ^ 32 = fsize mod 2 ^ 32).
Proof.
  intros cfg did d sels foff fsize Hf Hs. unfold wreq_bytes_be, wreq_bytes, published. cbn [w_hdr w_body].
  rewrite <- (body_be_ok cfg did d 0 sels), hdr_out_be_eq. unfold enc_hdr. cbn [h_size h_did h_flag h_foff h_fsize].
  set (h := w_hdr (mk_wreq cfg did d 0 sels)). set (bd := w_body (mk_wreq cfg did d 0 sels)).
  clearbody h bd. rewrite !le8_halves.
  unfold coordinate in *.
  assert (B : forall v, 0 <= v < 2 ^ 63 -> (le 4 (v / 2 ^ 32) = le 4 v <-> v / 2 ^ 32 = v mod 2 ^ 32)).
  { intros v Hv. rewrite (le4_mod v). split; [|intros ->; reflexivity].
    apply le4_inj; [|apply Z.mod_pos_bound; lia].
    split; [apply Z.div_pos; lia|apply Z.div_lt_upper_bound; lia]. }
  rewrite <- (B _ Hf), <- (B _ Hs). split.
  - intros E. apply app_inv_tail in E. do 3 apply app_inv_head in E.
    assert (I : forall a b c d a' b' c' d' : list Z, length a = length a' -> length b = length b' -> length c = length c' ->
      (a ++ b) ++ (c ++ d) = (a' ++ b') ++ (c' ++ d') -> a = a' /\ b = b' /\ c = c' /\ d = d').
    { clear. intros a b c d a' b' c' d' L1 L2 L3 H. rewrite <- !app_assoc in H.
      assert (K : forall x y x' y' : list Z, length x = length x' -> x ++ y = x' ++ y' -> x = x' /\ y = y').
      { induction x; destruct x'; cbn; intros y' L H0; try lia; auto. injection H0 as -> H0.
        destruct (IHx y x' y' ltac:(lia) H0). subst; auto. }
      apply K in H as [-> H]; auto. apply K in H as [-> H]; auto. }
    apply I in E as (E1 & E2 & E3 & E4); rewrite ?le_length; auto.
  - intros [-> ->]. reflexivity.
Qed.

Lemma be_reader_leaves_buffer : forall bsize mem, 0 < bsize -> Zlen mem = bsize ->
  decode_reverse_be bsize mem = UB.
Proof.
  intros bsize mem H E. unfold decode_reverse_be. rewrite E.
  destruct (Z.leb_spec (8 * bsize) bsize); [lia|reflexivity].
Qed.
