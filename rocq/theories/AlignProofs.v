(** Facts about the stripe-aligned write path. *)
From Verif Require Import Base BaseProofs AlignModel AlignSpec.
From Coq Require Import ZifyNat.

Lemma apart_snoc : forall ws p b, one_after_other ws -> Forall (fun w => fst w + Zlen (snd w) <= p) ws ->
  one_after_other (ws ++ [(p, b)]).
Proof.
  induction ws as [|w ws IH]; intros p b H F; cbn [app one_after_other]; [repeat constructor|].
  destruct H as [H1 H2]. inversion F; subst. split; [|auto]. apply Forall_app. split; [exact H1|]. repeat constructor. auto.
Qed.

Definition ost_bytes (st : ost) : list Z := flat_map snd (o_out st) ++ o_fill st.
Definition ost_inv (ssize : Z) (st : ost) : Prop :=
  0 <= o_skip st /\ o_skip st + Zlen (o_fill st) < ssize /\ one_after_other (o_out st) /\
  Forall (fun w => fst w + Zlen (snd w) <= o_pos st) (o_out st).

Lemma ost_feed_ok : forall ssize stride, 0 < ssize -> 0 <= stride -> forall fuel st seg, (length seg < fuel)%nat ->
  ost_inv ssize st ->
  ost_inv ssize (ost_feed ssize stride fuel st seg) /\
  ost_bytes (ost_feed ssize stride fuel st seg) = ost_bytes st ++ seg.
Proof.
  intros ssize stride Hs Ht. induction fuel as [|f IH]; intros st seg Hf HI; [lia|]. cbn [ost_feed].
  destruct seg as [|x seg']; [rewrite app_nil_r; auto|]. set (seg := x :: seg') in *.
  destruct HI as (I1 & I2 & I3 & I4). set (room := ssize - o_skip st - Zlen (o_fill st)).
  assert (HL : Z.of_nat (length seg) = Zlen seg) by reflexivity.
  destruct (Z.leb_spec room (Zlen seg)).
  - assert (HR : (length (skipn (Z.to_nat room) seg) < f)%nat).
    { rewrite skipn_length. assert (0 < Z.to_nat room)%nat by (unfold room; lia). cbn [length] in *. lia. }
    destruct (IH (mkost (o_pos st + Zlen (o_fill st ++ firstn (Z.to_nat room) seg) + stride) 0 []
               (o_out st ++ [(o_pos st, o_fill st ++ firstn (Z.to_nat room) seg)])) _ HR) as [A B].
    + unfold ost_inv. cbn [o_skip o_fill o_out o_pos]. split; [lia|]. split; [rewrite Zlen_nil; lia|]. split.
      * apply apart_snoc; auto.
      * pose proof (Zlen_nonneg _ (o_fill st ++ firstn (Z.to_nat room) seg)). apply Forall_app. split.
        -- eapply Forall_impl; [|exact I4]. cbn beta. intros w Hw. lia.
        -- repeat constructor. cbn [fst snd]. lia.
    + split; [exact A|]. rewrite B. unfold ost_bytes. cbn [o_out o_fill]. rewrite flat_map_app. cbn [flat_map snd].
      rewrite !app_nil_r, <- !app_assoc, firstn_skipn. reflexivity.
  - split.
    + unfold ost_inv. cbn [o_skip o_fill o_out o_pos]. rewrite Zlen_app. unfold room in *. repeat split; auto; lia.
    + unfold ost_bytes. cbn [o_out o_fill]. rewrite app_assoc. reflexivity.
Qed.

Lemma ost_fold_ok : forall ssize stride, 0 < ssize -> 0 <= stride -> forall segs st, ost_inv ssize st ->
  let st' := fold_left (fun st seg => ost_feed ssize stride (S (length seg)) st seg) segs st in
  ost_inv ssize st' /\ ost_bytes st' = ost_bytes st ++ concat segs.
Proof.
  intros ssize stride Hs Ht. induction segs as [|seg segs IH]; intros st HI; cbn [fold_left concat]; [rewrite app_nil_r; auto|].
  destruct (ost_feed_ok ssize stride Hs Ht (S (length seg)) st seg ltac:(lia) HI) as [A B].
  destruct (IH _ A) as [C D]. split; [exact C|]. cbv zeta in D. rewrite D, B, <- app_assoc. reflexivity.
Qed.

Lemma ost_write_ok : forall ssize scount target doff off segs, 0 < ssize -> 0 <= scount ->
  flat_map snd (ost_write ssize scount target doff off segs) = concat segs /\
  one_after_other (ost_write ssize scount target doff off segs).
Proof.
  intros ssize scount target doff off segs Hs Hc. unfold ost_write. cbv zeta.
  set (st0 := mkost _ _ _ _).
  pose proof (Z.mod_pos_bound off ssize Hs) as M.
  destruct (ost_fold_ok ssize (ssize * scount) Hs ltac:(nia) segs st0) as [A B].
  { unfold ost_inv, st0. cbn [o_skip o_fill o_out o_pos]. rewrite Zlen_nil. repeat split; auto; lia. }
  cbv zeta in A, B. set (st := fold_left _ segs st0) in *. change (ost_bytes st0) with (@nil Z) in B. cbn [app] in B.
  destruct A as (A1 & A2 & A3 & A4). unfold ost_bytes in B.
  destruct (o_fill st) as [|y t] eqn:E.
  - rewrite app_nil_r in B. auto.
  - rewrite flat_map_app. cbn [flat_map snd]. rewrite app_nil_r. split; [exact B|]. apply apart_snoc; auto.
Qed.

(** ** The position of the first byte *)
Lemma feed_first : forall ssize stride fuel st seg w, hd_error (o_out st) = Some w ->
  hd_error (o_out (ost_feed ssize stride fuel st seg)) = Some w.
Proof.
  induction fuel as [|f IH]; intros st seg w H; [exact H|]. cbn [ost_feed]. destruct seg; [exact H|].
  destruct (_ <=? _).
  - apply IH. cbn [o_out]. destruct (o_out st); [discriminate|exact H].
  - exact H.
Qed.
Definition starts_at (p : Z) (st : ost) : Prop :=
  match o_out st with
  | [] => o_pos st = p
  | w :: _ => fst w = p
  end.
Lemma feed_starts : forall ssize stride p fuel st seg, starts_at p st -> starts_at p (ost_feed ssize stride fuel st seg).
Proof.
  induction fuel as [|f IH]; intros st seg H; [exact H|]. cbn [ost_feed]. destruct seg; [exact H|].
  destruct (_ <=? _).
  - apply IH. unfold starts_at in *. cbn [o_out]. destruct (o_out st); exact H.
  - exact H.
Qed.

Lemma first_write : forall ssize scount target doff off segs w rest,
  ost_write ssize scount target doff off segs = w :: rest -> fst w = ost_start ssize scount target doff off.
Proof.
  intros ssize scount target doff off segs w rest H. unfold ost_write in H. cbv zeta in H.
  set (st0 := mkost _ _ _ _) in H.
  assert (HS : forall segs st, starts_at (ost_start ssize scount target doff off) st ->
    starts_at (ost_start ssize scount target doff off) (fold_left (fun st seg => ost_feed ssize (ssize * scount) (S (length seg)) st seg) segs st)).
  { clear. induction segs as [|s segs IH]; intros st H; [exact H|]. cbn [fold_left]. apply IH. apply feed_starts. exact H. }
  specialize (HS segs st0 eq_refl). set (st := fold_left _ segs st0) in *. unfold starts_at in HS.
  destruct (o_fill st) as [|y t]; destruct (o_out st) as [|w0 o] eqn:E; cbn [app] in H; try discriminate; injection H as <- <-; auto.
Qed.

Lemma start_differs : forall ssize scount target doff off, 0 < ssize -> 1 <= scount -> 0 <= target -> 0 < doff -> 0 <= off ->
  off < ost_start ssize scount target doff off.
Proof.
  intros. unfold ost_start. pose proof (Z.div_mod off ssize ltac:(lia)) as D.
  assert (0 <= off / ssize) by (apply Z.div_pos; lia). set (q := off / ssize) in *. set (m := off mod ssize) in *.
  assert (0 <= ssize * target) by nia.
  assert (q * ssize <= q * (ssize * scount)). { apply Z.mul_le_mono_nonneg_l; auto. nia. } lia.
Qed.

(** ** Offsets of the processes *)
Lemma group_offs_ranges : forall sizes base i o, nth_error (group_offs base sizes) i = Some o ->
  o = base + Zsum (firstn i sizes).
Proof.
  induction sizes as [|x sizes IH]; intros base i o H; [destruct i; discriminate|].
  destruct i as [|i]; cbn in H.
  - injection H as <-. cbn. lia.
  - apply IH in H. rewrite H. cbn [firstn]. unfold Zsum. cbn [fold_right]. lia.
Qed.

Lemma group_offs_app : forall a b base, group_offs base (a ++ b) = group_offs base a ++ group_offs (base + Zsum a) b.
Proof.
  induction a as [|x a IH]; intros b base; cbn [app group_offs]; [unfold Zsum; cbn [fold_right]; rewrite Z.add_0_r; reflexivity|].
  rewrite IH. cbn [app]. do 3 f_equal. unfold Zsum. cbn [fold_right]. lia.
Qed.

Lemma two_nodes : forall a b, concat (chain_offs 0 [a; b]) = group_offs 0 (a ++ b).
Proof. intros. cbn [chain_offs concat]. rewrite app_nil_r, group_offs_app. reflexivity. Qed.

(** ** Data that stays inside of one stripe *)
Lemma feed_small : forall ssize stride fuel st seg, (length seg < fuel)%nat ->
  o_skip st + Zlen (o_fill st) + Zlen seg < ssize ->
  ost_feed ssize stride fuel st seg = mkost (o_pos st) (o_skip st) (o_fill st ++ seg) (o_out st).
Proof.
  intros ssize stride [|f] st seg Hf H; [lia|]. cbn [ost_feed]. destruct seg as [|x seg].
  - rewrite app_nil_r. destruct st; reflexivity.
  - set (s := x :: seg) in *. destruct (Z.leb_spec (ssize - o_skip st - Zlen (o_fill st)) (Zlen s)); [lia|reflexivity].
Qed.
Lemma fold_small : forall ssize stride segs st, o_skip st + Zlen (o_fill st) + Zlen (concat segs) < ssize ->
  fold_left (fun st seg => ost_feed ssize stride (S (length seg)) st seg) segs st =
  mkost (o_pos st) (o_skip st) (o_fill st ++ concat segs) (o_out st).
Proof.
  intros ssize stride. induction segs as [|seg segs IH]; intros st H; cbn [fold_left concat] in *.
  - rewrite app_nil_r. destruct st; reflexivity.
  - rewrite Zlen_app in H. pose proof (Zlen_nonneg _ (concat segs)). rewrite feed_small by lia.
    rewrite IH; cbn [o_skip o_fill o_pos o_out]; [rewrite app_assoc; reflexivity|]. rewrite Zlen_app. lia.
Qed.
Lemma within_stripe : forall ssize scount target doff off segs, concat segs <> [] ->
  off mod ssize + Zlen (concat segs) < ssize ->
  ost_write ssize scount target doff off segs = [(ost_start ssize scount target doff off, concat segs)].
Proof.
  intros ssize scount target doff off segs Hne H. unfold ost_write. cbv zeta.
  rewrite fold_small by (cbn [o_skip o_fill]; rewrite Zlen_nil; lia). cbn [o_fill o_out o_pos app].
  destruct (concat segs); [congruence|reflexivity].
Qed.
