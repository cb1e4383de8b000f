(** Regular hyperslabs as trees of spans; selections of the library. *)
From Verif Require Import Base BaseProofs Spec SelModel SelSpec ReorderProofs SelProofs SelProofs2 SelProofs3 SelClaims SelClaims2.
From Coq Require Import ZifyNat.

Lemma reg_spans_ok : forall m down d b, 0 < b ->
  match m with O => down = SNil | S _ => down <> SNil /\ exists l, spans_ok m l down end ->
  forall k s, ((1 < k)%nat -> b <= d) -> spans_ok (S m) s (reg_spans k s d b down).
Proof.
  intros m down d b Hb HD. induction k as [|k IH]; intros s Hd; cbn [reg_spans spans_ok]; auto.
  split; [lia|]. split; [lia|]. split; [|destruct m; auto].
  destruct k as [|k]; [exact I|]. assert (b <= d) by (apply Hd; lia).
  assert (G : forall k l s0, l <= s0 -> spans_ok (S m) s0 (reg_spans k s0 d b down) -> spans_ok (S m) l (reg_spans k s0 d b down)).
  { intros [|k0] l s0 Hl HH; [exact I|]. cbn [reg_spans spans_ok] in *. destruct HH as (H1 & H2 & H3). split; [lia|]. split; auto. }
  apply G; [lia|]. apply IH. intros. lia.
Qed.

Lemma reg_tree_ok : forall st sd ct bk, reg_ok4 st sd ct bk -> st <> [] ->
  reg_tree st sd ct bk <> SNil /\ exists l, spans_ok (length st) l (reg_tree st sd ct bk).
Proof.
  induction st as [|s st IH]; intros [|d sd] [|n ct] [|b bk] H Hn; try contradiction. cbn [reg_ok4] in H.
  destruct H as (H1 & H2 & H3 & H4). cbn [reg_tree length]. split.
  - destruct (Z.to_nat n) eqn:E; [lia|]. discriminate.
  - exists s. apply reg_spans_ok; auto; [|intros; apply H3; lia].
    destruct st as [|s' st].
    + destruct sd, ct, bk; try contradiction. reflexivity.
    + cbn [length]. apply (IH sd ct bk H4). discriminate.
Qed.

Lemma within_cons_iff : forall a s b t x c, within (a :: s, b :: t) (x :: c) <-> a <= x <= b /\ within (s, t) c.
Proof. unfold within. cbn [fst snd combine]. split; [intros H; inversion H; subst; auto|intros [? ?]; constructor; auto]. Qed.

Lemma reg_spans_cover : forall m d b down, forall k s c,
  (exists e, In e (span_blocks (S m) (reg_spans k s d b down)) /\ within e c) <->
  exists x c', c = x :: c' /\ (exists i j, 0 <= i < Z.of_nat k /\ 0 <= j < b /\ x = s + i * d + j) /\
    match m with O => c' = [] | S _ => exists e, In e (span_blocks m down) /\ within e c' end.
Proof.
  intros m d b down. induction k as [|k IH]; intros s c.
  - cbn. split; [intros (e & [] & _)|intros (x & c' & _ & (i & j & H & _) & _); lia].
  - cbn [reg_spans span_blocks]. fold span_blocks. split.
    + intros (e & He & Hw). apply in_app_iff in He. destruct He as [He|He].
      * destruct m as [|m].
        -- destruct He as [<-|[]]. apply within_cons in Hw. destruct Hw as (x & c' & -> & Hx & Hw). exists x, c'. split; auto.
           split; [exists 0, (x - s); lia|]. inversion Hw; auto.
        -- apply in_map_iff in He. destruct He as (f & <- & Hf). apply within_cons in Hw. destruct Hw as (x & c' & -> & Hx & Hw).
           exists x, c'. split; auto. split; [exists 0, (x - s); lia|]. exists f. split; auto; destruct f; auto.
      * destruct (proj1 (IH (s + d) c)) as (x & c' & -> & (i & j & Hi & Hj & ->) & Hm); [eauto|].
        exists (s + d + i * d + j), c'. split; auto. split; [exists (i + 1), j; lia|]. exact Hm.
    + intros (x & c' & -> & (i & j & Hi & Hj & ->) & Hm). destruct (Z.eq_dec i 0) as [->|Hn].
      * destruct m as [|m].
        -- subst c'. eexists. split; [apply in_app_iff; left; left; reflexivity|]. apply within_cons_iff. split; [lia|constructor].
        -- destruct Hm as (f & Hf & Hw). eexists. split; [apply in_app_iff; left; apply in_map_iff; exists f; split; [reflexivity|exact Hf]|].
           apply within_cons_iff. split; [lia|]; destruct f; auto.
      * destruct (proj2 (IH (s + d) (s + i * d + j :: c'))) as (e & He & Hw).
        { exists (s + i * d + j), c'. split; auto. split; [exists (i - 1), j; lia|auto]. }
        exists e. split; auto. apply in_app_iff. right. exact He.
Qed.

Lemma reg_cover : forall st sd ct bk, reg_ok4 st sd ct bk -> st <> [] -> forall c,
  in_regular4 st sd ct bk c <-> exists e, In e (span_blocks (length st) (reg_tree st sd ct bk)) /\ within e c.
Proof.
  induction st as [|s st IH]; intros [|d sd] [|n ct] [|b bk] H Hn c; try contradiction. cbn [reg_ok4] in H.
  destruct H as (H1 & H2 & H3 & H4). cbn [reg_tree length in_regular4]. rewrite reg_spans_cover. rewrite Z2Nat.id by lia. split.
  - destruct c as [|x c']; [tauto|]. intros [HX HR]. exists x, c'. split; auto. split; auto.
    destruct st as [|s' st]; cbn [length].
    + destruct sd, ct, bk; try contradiction. destruct c'; [reflexivity|contradiction].
    + apply (IH sd ct bk H4); auto; discriminate.
  - intros (x & c' & -> & HX & HM). split; auto. destruct st as [|s' st]; cbn [length] in HM.
    + destruct sd, ct, bk; try contradiction. subst. exact I.
    + apply (IH sd ct bk H4); auto; discriminate.
Qed.

Lemma reg_ok_lengths : forall st sd ct bk, reg_ok4 st sd ct bk -> length sd = length st /\ length ct = length st /\ length bk = length st.
Proof.
  induction st as [|s st IH]; intros [|d sd] [|n ct] [|b bk] H; try contradiction; auto. cbn [reg_ok4] in H.
  destruct (IH sd ct bk) as (I1 & I2 & I3); [tauto|]. cbn. auto.
Qed.

Lemma library_sel_ok : forall dims s, library_selection dims s -> sel_ok dims s /\ (forall r b, s = HHyper r b -> sel_in_order s).
Proof.
  intros dims [| |pts|reg blocks] H; cbn in *; try (split; [tauto|discriminate]).
  destruct dims as [|d0 dims]; [destruct reg; tauto|]. set (ds := d0 :: dims) in *.
  assert (EL : length ds = S (length dims)) by reflexivity.
  assert (G : exists t least, t <> SNil /\ spans_ok (length ds) least t /\ blocks = span_blocks (length ds) t).
  { destruct reg as [r|]; [|tauto]. destruct H as (_ & HL & HR & ->).
    destruct (reg_tree_ok (r_start r) (r_stride r) (r_count r) (r_block r)) as [T1 (l & T2)]; auto.
    { intros E. rewrite E in HL. cbn in HL. lia. }
    exists (reg_tree (r_start r) (r_stride r) (r_count r) (r_block r)), l. rewrite <- HL. auto. }
  destruct G as (t & least & T1 & T2 & T3). rewrite EL in T2, T3. destruct (span_blocks_ok t (length dims) least T2) as (S1 & _ & S3 & S4 & S5).
  rewrite <- T3 in *. split; [|intros _ _ _; exact S3]. unfold hyper_ok. rewrite EL. split; [auto|]. split; auto. split; auto.
  intros r Er. subst reg. destruct H as (_ & HL & HR & HB). destruct (reg_ok_lengths _ _ _ _ HR) as (L1 & L2 & L3).
  rewrite <- EL, L1, L2, L3. repeat split; auto; unfold in_regular; rewrite (reg_cover _ _ _ _ HR) by (intros E; rewrite E in HL; cbn in HL; lia); rewrite HB; unfold reg_blocks; auto.
Qed.
