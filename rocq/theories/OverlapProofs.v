(** Lemmas behind P_Overlap: overlapping rows. *)
From Verif Require Import Base BaseProofs Spec MetaModel QueueModel FlushModel IndexModel ReadModel SortProofs ReadProofs ViewProofs OverlapSpec.
From Coq Require Import ZifyNat ZifyN Permutation Sorting.Sorted.

(** What the connector does with the rows of a group, already sorted: trim, read with MPI, copy. *)
Definition deliver (file mem : bytemap) (rows : list row) : bytemap :=
  let t := trim (length rows) rows in do_copies (mpi_read file mem (flat_map row_pairs (fst t))) (snd t).

Definition same (m m' : bytemap) : Prop := forall a, m a = m' a.
Lemma put_same2 : forall m m' off bs, same m m' -> same (put m off bs) (put m' off bs).
Proof. intros m m' off bs H a. unfold put. destruct ((off <=? a) && (a <? off + Zlen bs)); auto. Qed.
Lemma get_same2 : forall m m' off n, same m m' -> get m off n = get m' off n.
Proof. intros. apply get_ext. intros i Hi. apply H. Qed.
Lemma read_same2 : forall file ps m m', same m m' -> same (mpi_read file m ps) (mpi_read file m' ps).
Proof. intros file. induction ps as [|p ps IH]; intros m m' H; [exact H|]. cbn [mpi_read fold_left]. apply IH. apply put_same2. exact H. Qed.
Lemma copies_same2 : forall cs m m', same m m' -> same (do_copies m cs) (do_copies m' cs).
Proof.
  induction cs as [|c cs IH]; intros m m' H; [exact H|]. cbn [do_copies fold_left]. apply IH. rewrite (get_same2 m m' _ _ H). apply put_same2. exact H.
Qed.
Lemma copies_app : forall m a b, do_copies m (a ++ b) = do_copies (do_copies m a) b.
Proof. intros. unfold do_copies. apply fold_left_app. Qed.
Lemma read_app2 : forall file mem a b, mpi_read file mem (a ++ b) = mpi_read file (mpi_read file mem a) b.
Proof. intros. unfold mpi_read. apply fold_left_app. Qed.

(** Addresses a copy reads or writes. *)
Definition touches_c (c : copyctx) (x : Z) : Prop := cx_dst c <= x < cx_dst c + cx_size c \/ cx_src c <= x < cx_src c + cx_size c.
Lemma put_one_get : forall m a v src n, (forall x, src <= x < src + Z.of_nat n -> x <> a) -> get (put m a [v]) src n = get m src n.
Proof. intros. apply get_ext. intros i Hi. rewrite put_one. destruct (Z.eqb_spec (src + i) a); auto. exfalso. eapply (H (src + i)); auto. lia. Qed.
Lemma commute_one : forall file c ps m, 0 <= cx_size c -> (forall p, In p ps -> ~ touches_c c (snd p)) ->
  same (do_copies (mpi_read file m ps) [c]) (mpi_read file (do_copies m [c]) ps).
Proof.
  intros file c. induction ps as [|[f x] ps IH]; intros m Hc H a; [reflexivity|].
  cbn [mpi_read fold_left fst snd]. change (do_copies (mpi_read file (put m x [file f]) ps) [c] a = mpi_read file (put (do_copies m [c]) x [file f]) ps a).
  rewrite (IH (put m x [file f]) Hc (fun p Hp => H p (or_intror Hp)) a).
  apply read_same2. clear a. intros a. cbn [do_copies fold_left].
  assert (NT : ~ touches_c c x) by (apply (H (f, x)); left; auto). unfold touches_c in NT.
  rewrite put_one_get by (intros y Hy; lia). set (v := get m (cx_src c) (Z.to_nat (cx_size c))).
  assert (LV : Zlen v = cx_size c) by (unfold v, Zlen; rewrite get_length; lia).
  rewrite put_one. unfold put. rewrite LV. destruct (Z.leb_spec (cx_dst c) a), (Z.ltb_spec a (cx_dst c + cx_size c)); cbn [andb];
    destruct (Z.leb_spec x a), (Z.ltb_spec a (x + Zlen [file f])); cbn [andb]; unfold Zlen in *; cbn [length] in *; try (destruct (Z.eqb_spec a x)); try reflexivity; try lia;
    replace (Z.to_nat (a - x)) with 0%nat by lia; reflexivity.
Qed.
Lemma commute : forall file cs ps m, Forall (fun c => 0 <= cx_size c) cs -> (forall c p, In c cs -> In p ps -> ~ touches_c c (snd p)) ->
  same (do_copies (mpi_read file m ps) cs) (mpi_read file (do_copies m cs) ps).
Proof.
  intros file. induction cs as [|c cs IH]; intros ps m F H a; [reflexivity|]. inversion F; subst.
  change (c :: cs) with ([c] ++ cs). rewrite !copies_app.
  rewrite (copies_same2 cs _ _ (commute_one file c ps m H2 (fun p Hp => H c p (or_introl eq_refl) Hp)) a).
  apply IH; auto. intros c0 p H0 Hp. apply H; auto. right. auto.
Qed.

(** Reading one row. *)
Lemma row_pairs_eq : forall r, row_pairs r = map (fun i => (ro_f r + i, ro_m r + i)) (zseq (ro_len r)).
Proof. intros r. unfold row_pairs, byte_range. induction (zseq (ro_len r)) as [|i l IH]; [reflexivity|]. cbn [map combine]. rewrite IH. reflexivity. Qed.
Lemma row_pairs_in : forall r p, In p (row_pairs r) -> in_memory r (snd p).
Proof. intros r p H. rewrite row_pairs_eq in H. apply in_map_iff in H. destruct H as (i & <- & Hi). apply zseq_In in Hi. unfold in_memory. cbn [snd]. lia. Qed.
Lemma read_row : forall file m r x, mpi_read file m (row_pairs r) x = if (ro_m r <=? x) && (x <? ro_m r + ro_len r) then file (ro_f r + (x - ro_m r)) else m x.
Proof.
  intros file m r x. rewrite row_pairs_eq. destruct (Z.leb_spec (ro_len r) 0) as [L|L].
  { rewrite zseq_0 by auto. destruct (Z.leb_spec (ro_m r) x), (Z.ltb_spec x (ro_m r + ro_len r)); cbn [andb]; try reflexivity. lia. }
  replace (ro_len r) with (Z.of_nat (Z.to_nat (ro_len r))) by lia. generalize (Z.to_nat (ro_len r)). intros n. induction n as [|n IH].
  - destruct (Z.leb_spec (ro_m r) x), (Z.ltb_spec x (ro_m r + Z.of_nat 0)); cbn [andb]; try reflexivity. lia.
  - replace (Z.of_nat (S n)) with (Z.of_nat n + 1) by lia. rewrite zseq_succ by lia. rewrite map_app, read_app2. cbn [map mpi_read fold_left fst snd]. rewrite put_one.
    change (fold_left (fun (m0 : bytemap) (p : Z * Z) => put m0 (snd p) [file (fst p)]) (map (fun i => (ro_f r + i, ro_m r + i)) (zseq (Z.of_nat n))) m)
      with (mpi_read file m (map (fun i => (ro_f r + i, ro_m r + i)) (zseq (Z.of_nat n)))). rewrite IH.
    destruct (Z.eqb_spec x (ro_m r + Z.of_nat n)) as [->|N].
    + destruct (Z.leb_spec (ro_m r) (ro_m r + Z.of_nat n)), (Z.ltb_spec (ro_m r + Z.of_nat n) (ro_m r + (Z.of_nat n + 1))); cbn [andb]; try lia. f_equal. lia.
    + destruct (Z.leb_spec (ro_m r) x), (Z.ltb_spec x (ro_m r + Z.of_nat n)), (Z.ltb_spec x (ro_m r + (Z.of_nat n + 1))); cbn [andb]; try reflexivity; lia.
Qed.

(** ** The copies made for one row *)
Definition ahead (k l : row) (x : Z) : Prop := in_memory l x /\ ~ in_memory (trimmed k l) x.
Lemma trimmed_at : forall k l, no_earlier k l -> 0 <= ro_len l ->
  ro_f (trimmed k l) = Z.max (ro_f l) (row_end k) /\ row_end (trimmed k l) = row_end l /\ ro_m (trimmed k l) - ro_f (trimmed k l) = ro_m l - ro_f l /\ 0 <= ro_len (trimmed k l).
Proof.
  intros k l [H1 H2] H3. unfold row_end in *. unfold trimmed. destruct (Z.ltb_spec (ro_f l) (ro_f k + ro_len k)); cbn [ro_f ro_m ro_len]; lia.
Qed.
Lemma trimmed_inside : forall k l x, no_earlier k l -> 0 <= ro_len l -> in_memory (trimmed k l) x -> in_memory l x.
Proof. intros k l x H1 H2 H3. destruct (trimmed_at _ _ H1 H2) as (A & B & C & D). unfold in_memory, row_end in *. lia. Qed.

Lemma later_touch : forall k ls c x, Forall (no_earlier k) ls -> Forall (fun r => 0 <= ro_len r) ls -> In c (snd (trim_later k ls)) ->
  0 <= cx_size c /\ (touches_c c x -> in_memory k x \/ exists l, In l ls /\ ahead k l x).
Proof.
  intros k ls. induction ls as [|l ls IH]; intros c x F G H; [destruct H|]. inversion F as [|? ? F1 F2]; subst. inversion G as [|? ? G1 G2]; subst. cbn [trim_later] in H.
  destruct (Z.ltb_spec (ro_f l) (ro_f k + ro_len k)) as [L|L]; destruct (trim_later k ls) as [rest' cs] eqn:T; cbn [snd] in *.
  - destruct H as [<-|H].
    + cbn [cx_size]. destruct F1 as [E1 E2]. unfold row_end in *. split; [lia|]. unfold touches_c. cbn [cx_dst cx_src cx_size]. intros [X|X].
      * right. exists l. split; [left; auto|]. unfold ahead, in_memory, trimmed. destruct (Z.ltb_spec (ro_f l) (ro_f k + ro_len k)); [|lia]. cbn [ro_m ro_len]. lia.
      * left. unfold in_memory. lia.
    + destruct (IH c x F2 G2 H) as [I1 I2]. split; auto. intros X. destruct (I2 X) as [Y|(l0 & Y1 & Y2)]; auto. right. exists l0. split; [right; auto|auto].
  - destruct (IH c x F2 G2 H) as [I1 I2]. split; auto. intros X. destruct (I2 X) as [Y|(l0 & Y1 & Y2)]; auto. right. exists l0. split; [right; auto|auto].
Qed.

Lemma later_copies : forall file k ls m, Forall (no_earlier k) ls -> Forall (fun r => 0 <= ro_len r) ls -> Forall (memory_apart k) ls -> ForallOrdPairs memory_apart ls ->
  (forall x, in_memory k x -> m x = file (ro_f k + (x - ro_m k))) -> let m' := do_copies m (snd (trim_later k ls)) in
  (forall l x, In l ls -> ahead k l x -> m' x = file (ro_f l + (x - ro_m l))) /\ (forall x, (forall l, In l ls -> ~ ahead k l x) -> m' x = m x).
Proof.
  intros file k ls. induction ls as [|l ls IH]; intros m F G A P R; cbv zeta; [split; [intros ? ? []|auto]|].
  inversion F as [|? ? F1 F2]; subst. inversion G as [|? ? G1 G2]; subst. inversion A as [|? ? A1 A2]; subst. inversion P as [|? ? P1 P2]; subst. cbn [trim_later].
  destruct (Z.ltb_spec (ro_f l) (ro_f k + ro_len k)) as [L|L]; destruct (trim_later k ls) as [rest' cs] eqn:T; cbn [snd] in *.
  - destruct F1 as [E1 E2]. unfold row_end in *. set (size := Z.min (ro_len l) (ro_f k - ro_f l + ro_len k)).
    assert (SZ : size = ro_f k + ro_len k - ro_f l) by (unfold size; lia).
    cbn [do_copies fold_left cx_dst cx_src cx_size]. set (m1 := put m (ro_m l) (get m (ro_m k - size + ro_len k) (Z.to_nat size))).
    assert (LV : Zlen (get m (ro_m k - size + ro_len k) (Z.to_nat size)) = size) by (unfold Zlen; rewrite get_length; lia).
    assert (AL : forall x, ahead k l x <-> ro_m l <= x < ro_m l + size).
    { intros x. unfold ahead, in_memory, trimmed. destruct (Z.ltb_spec (ro_f l) (ro_f k + ro_len k)); [|lia]. cbn [ro_m ro_len]. fold size. lia. }
    assert (M1 : forall x, ahead k l x -> m1 x = file (ro_f l + (x - ro_m l))).
    { intros x X. apply AL in X. unfold m1. rewrite put_in by lia. rewrite nth_get by lia. rewrite R by (unfold in_memory; lia). f_equal. lia. }
    assert (M2 : forall x, ~ ahead k l x -> m1 x = m x).
    { intros x X. unfold m1. apply put_out. rewrite LV. intros Y. apply X, AL. exact Y. }
    assert (R1 : forall x, in_memory k x -> m1 x = file (ro_f k + (x - ro_m k))).
    { intros x X. rewrite M2; auto. rewrite AL. unfold memory_apart in A1. unfold in_memory in X. lia. }
    destruct (IH m1 F2 G2 A2 P2 R1) as [I1 I2]. change (fold_left (fun (m0 : bytemap) (c : copyctx) => put m0 (cx_dst c) (get m0 (cx_src c) (Z.to_nat (cx_size c)))) cs m1) with (do_copies m1 cs).
    split.
    + intros l0 x [<-|H0] X; [|apply I1; auto]. rewrite I2; [apply M1; auto|]. intros l0 H0 [Y _]. rewrite Forall_forall in P1. specialize (P1 l0 H0). unfold memory_apart in P1. destruct X as [X _]. unfold in_memory in *. lia.
    + intros x X. rewrite I2 by (intros l0 H0; apply X; right; auto). apply M2. apply X. left. reflexivity.
  - assert (NA : forall x, ~ ahead k l x). { intros x [X Y]. apply Y. unfold trimmed. destruct (Z.ltb_spec (ro_f l) (ro_f k + ro_len k)); [lia|exact X]. }
    destruct (IH m F2 G2 A2 P2 R) as [I1 I2]. split.
    + intros l0 x [<-|H0] X; [exfalso; eapply NA; eauto|apply I1; auto].
    + intros x X. apply I2. intros l0 H0. apply X. right. auto.
Qed.

(** ** All rows *)
Lemma trim_reads_in : forall n rows p, ForallOrdPairs no_earlier rows -> Forall (fun r => 0 <= ro_len r) rows ->
  In p (flat_map row_pairs (fst (trim n rows))) -> exists r, In r rows /\ in_memory r (snd p).
Proof.
  induction n as [|n IH]; intros rows p O G H.
  - assert (E : fst (trim 0 rows) = rows) by (destruct rows; reflexivity). rewrite E in H. apply in_flat_map in H. destruct H as (r & H1 & H2). exists r. split; auto. apply row_pairs_in. auto.
  - destruct rows as [|k rest]; [destruct H|]. cbn [trim] in H. pose proof (trim_later_fst k rest) as HT. destruct (trim_later k rest) as [rest' cs]. cbn [fst] in HT. subst rest'.
    destruct (trim n (map (trimmed k) rest)) as [r2 cs2] eqn:T. cbn [fst flat_map] in H. apply in_app_iff in H. destruct H as [H|H]; [exists k; split; [left; auto|apply row_pairs_in; auto]|].
    inversion O as [|? ? O1 O2]; subst. inversion G as [|? ? G1 G2]; subst. rewrite Forall_forall in O1, G2.
    destruct (IH (map (trimmed k) rest) p) as (r & R1 & R2).
    + clear - O1 G2 O2. induction O2 as [|a l H1 H2 IH]; cbn [map]; constructor.
      * apply Forall_forall. intros y Hy. apply in_map_iff in Hy. destruct Hy as (b & <- & Hb). rewrite Forall_forall in H1. specialize (H1 b Hb).
        destruct (trimmed_at k a (O1 a (or_introl eq_refl)) (G2 a (or_introl eq_refl))) as (A1 & A2 & _). destruct (trimmed_at k b (O1 b (or_intror Hb)) (G2 b (or_intror Hb))) as (B1 & B2 & _).
        unfold no_earlier in *. rewrite A1, A2, B1, B2. lia.
      * apply IH; intros y Hy; [apply O1|apply G2]; right; auto.
    + apply Forall_forall. intros y Hy. apply in_map_iff in Hy. destruct Hy as (b & <- & Hb). apply (trimmed_at k b (O1 b Hb) (G2 b Hb)).
    + rewrite T. exact H.
    + apply in_map_iff in R1. destruct R1 as (l & <- & Hl). exists l. split; [right; auto|]. eapply trimmed_inside; eauto.
Qed.

Lemma deliver_ok : forall file n rows mem, (length rows <= n)%nat -> ForallOrdPairs no_earlier rows -> Forall (fun r => 0 <= ro_len r) rows -> ForallOrdPairs memory_apart rows ->
  let t := trim n rows in let mem' := do_copies (mpi_read file mem (flat_map row_pairs (fst t))) (snd t) in
  (forall r x, In r rows -> in_memory r x -> mem' x = file (ro_f r + (x - ro_m r))) /\ (forall x, (forall r, In r rows -> ~ in_memory r x) -> mem' x = mem x).
Proof.
  intros file. induction n as [|n IH]; intros rows mem L O G P; cbv zeta.
  - destruct rows; [|cbn in L; lia]. split; [intros ? ? []|reflexivity].
  - destruct rows as [|k rest]; [split; [intros ? ? []|reflexivity]|]. cbn [trim]. cbn [length] in L.
    inversion O as [|? ? O1 O2]; subst. inversion G as [|? ? G1 G2]; subst. inversion P as [|? ? P1 P2]; subst.
    pose proof (later_touch k rest) as LT. pose proof (trim_later_fst k rest) as HT.
    set (mk := mpi_read file mem (row_pairs k)).
    assert (RK : forall x, in_memory k x -> mk x = file (ro_f k + (x - ro_m k))).
    { intros x X. unfold mk. rewrite read_row. unfold in_memory in X. destruct (Z.leb_spec (ro_m k) x), (Z.ltb_spec x (ro_m k + ro_len k)); cbn [andb]; auto; lia. }
    assert (RO : forall x, ~ in_memory k x -> mk x = mem x).
    { intros x X. unfold mk. rewrite read_row. unfold in_memory in X. destruct (Z.leb_spec (ro_m k) x), (Z.ltb_spec x (ro_m k + ro_len k)); cbn [andb]; auto; lia. }
    destruct (later_copies file k rest mk O1 G2 P1 P2 RK) as [C1 C2].
    destruct (trim_later k rest) as [rest' cs] eqn:T1. cbn [fst snd] in *. subst rest'.
    set (rest' := map (trimmed k) rest). pose proof O1 as O1'. pose proof G2 as G2'. pose proof P1 as P1'. rewrite Forall_forall in O1', G2', P1'.
    assert (O3 : ForallOrdPairs no_earlier rest').
    { unfold rest'. clear - O1' G2' O2. induction O2 as [|a l H1 H2 IH]; cbn [map]; constructor.
      - apply Forall_forall. intros y Hy. apply in_map_iff in Hy. destruct Hy as (b & <- & Hb). rewrite Forall_forall in H1. specialize (H1 b Hb).
        destruct (trimmed_at k a (O1' a (or_introl eq_refl)) (G2' a (or_introl eq_refl))) as (A1 & A2 & _). destruct (trimmed_at k b (O1' b (or_intror Hb)) (G2' b (or_intror Hb))) as (B1 & B2 & _).
        unfold no_earlier in *. rewrite A1, A2, B1, B2. lia.
      - apply IH; intros y Hy; [apply O1'|apply G2']; right; auto. }
    assert (G3 : Forall (fun r => 0 <= ro_len r) rest').
    { apply Forall_forall. intros y Hy. apply in_map_iff in Hy. destruct Hy as (b & <- & Hb). apply (trimmed_at k b (O1' b Hb) (G2' b Hb)). }
    assert (P3 : ForallOrdPairs memory_apart rest').
    { unfold rest'. clear - O1' G2' P2. induction P2 as [|a l H1 H2 IH]; cbn [map]; constructor.
      - apply Forall_forall. intros y Hy. apply in_map_iff in Hy. destruct Hy as (b & <- & Hb). rewrite Forall_forall in H1. specialize (H1 b Hb).
        destruct (trimmed_at k a (O1' a (or_introl eq_refl)) (G2' a (or_introl eq_refl))) as (A1 & A2 & A3 & A4). destruct (trimmed_at k b (O1' b (or_intror Hb)) (G2' b (or_intror Hb))) as (B1 & B2 & B3 & B4).
        unfold memory_apart, row_end in *. lia.
      - apply IH; intros y Hy; [apply O1'|apply G2']; right; auto. }
    set (m2 := do_copies mk cs) in *.
    destruct (IH rest' m2) as [I1 I2]; auto; [unfold rest'; rewrite map_length; lia|].
    pose proof (trim_reads_in n rest') as TR. destruct (trim n rest') as [r2 cs2] eqn:T2. cbn [fst snd] in *. cbn [flat_map].
    assert (EQ : same (do_copies (mpi_read file mem (row_pairs k ++ flat_map row_pairs r2)) (cs ++ cs2)) (do_copies (mpi_read file m2 (flat_map row_pairs r2)) cs2)).
    { rewrite copies_app, read_app2. fold mk. apply copies_same2. unfold m2. apply commute.
      - apply Forall_forall. intros c Hc. apply (LT c 0 O1 G2 Hc).
      - intros c p Hc Hp HX. destruct (TR p O3 G3 Hp) as (r & R1 & R2). apply in_map_iff in R1. destruct R1 as (l & <- & Hl).
        destruct (LT c (snd p) O1 G2 Hc) as [_ LT2]. destruct (LT2 HX) as [K|(l0 & Hl0 & A1 & A2)].
        + pose proof (trimmed_inside _ _ _ (O1' l Hl) (G2' l Hl) R2) as R3. specialize (P1' l Hl). unfold memory_apart in P1'. unfold in_memory in *. lia.
        + pose proof (trimmed_inside _ _ _ (O1' l Hl) (G2' l Hl) R2) as R3.
          assert (l = l0).
          { clear - P2 Hl Hl0 R3 A1. induction P2 as [|a q H1 H2 IHq]; [destruct Hl|]. rewrite Forall_forall in H1. destruct Hl as [<-|Hl], Hl0 as [<-|Hl0]; auto.
            - specialize (H1 _ Hl0). unfold memory_apart, in_memory in *. lia.
            - specialize (H1 _ Hl). unfold memory_apart, in_memory in *. lia. }
          subst l0. contradiction. }
    split.
    + intros r x Hr Hx. rewrite (EQ x). destruct Hr as [<-|Hr].
      * rewrite I2, C2, RK; auto.
        -- intros l Hl [Y _]. specialize (P1' l Hl). unfold memory_apart in P1'. unfold in_memory in *. lia.
        -- intros r Hr Y. apply in_map_iff in Hr. destruct Hr as (l & <- & Hl). apply (trimmed_inside _ _ _ (O1' l Hl) (G2' l Hl)) in Y. specialize (P1' l Hl). unfold memory_apart in P1'. unfold in_memory in *. lia.
      * destruct (trimmed_at k r (O1' r Hr) (G2' r Hr)) as (T3 & T4 & T5 & T6).
        destruct (Z_le_dec (ro_m (trimmed k r)) x) as [Y|Y].
        -- rewrite (I1 (trimmed k r) x); [f_equal; lia|apply in_map; auto|]. unfold in_memory, row_end in *. lia.
        -- rewrite I2; [apply C1; auto; split; auto; unfold in_memory; lia|]. intros r0 Hr0 Z0. apply in_map_iff in Hr0. destruct Hr0 as (l & <- & Hl).
           pose proof (trimmed_inside _ _ _ (O1' l Hl) (G2' l Hl) Z0) as Z1.
           assert (l = r).
           { clear - P2 Hl Hr Z1 Hx. induction P2 as [|a q H1 H2 IHq]; [destruct Hl|]. rewrite Forall_forall in H1. destruct Hl as [<-|Hl], Hr as [<-|Hr]; auto.
             - specialize (H1 _ Hr). unfold memory_apart, in_memory in *. lia.
             - specialize (H1 _ Hl). unfold memory_apart, in_memory in *. lia. }
           subst l. unfold in_memory in Z0. lia.
    + intros x Hx. rewrite (EQ x), I2, C2, RO; auto.
      * apply Hx. left. reflexivity.
      * intros l Hl [Y _]. apply (Hx l); [right; auto|auto].
      * intros r Hr Y. apply in_map_iff in Hr. destruct Hr as (l & <- & Hl). apply (Hx l); [right; auto|]. eapply trimmed_inside; eauto.
Qed.

Lemma overlap_rows : forall file mem rows, ForallOrdPairs no_earlier rows -> Forall (fun r => 0 <= ro_len r) rows -> ForallOrdPairs memory_apart rows ->
  (forall r, In r rows -> get (deliver file mem rows) (ro_m r) (Z.to_nat (ro_len r)) = get file (ro_f r) (Z.to_nat (ro_len r))) /\
  (forall x, (forall r, In r rows -> ~ in_memory r x) -> deliver file mem rows x = mem x).
Proof.
  intros file mem rows O G P. destruct (deliver_ok file (length rows) rows mem (Nat.le_refl _) O G P) as [D1 D2]. unfold deliver. split; auto.
  intros r Hr. apply get_ext. intros i Hi. rewrite (D1 r (ro_m r + i) Hr).
  - f_equal. lia.
  - unfold in_memory. rewrite Forall_forall in G. specialize (G r Hr). cbn in G. lia.
Qed.

(** A row that ends before the previous one. *)
Lemma nested_row : forall file mem k l, ro_f k <= ro_f l -> 0 < ro_len l -> row_end l < row_end k -> memory_apart k l ->
  get (deliver file mem [k; l]) (ro_m l) (Z.to_nat (ro_len l)) = get file (row_end k - ro_len l) (Z.to_nat (ro_len l)).
Proof.
  intros file mem k l H1 H2 H3 H4. unfold row_end in *. unfold deliver. cbn [length trim trim_later].
  destruct (Z.ltb_spec (ro_f l) (ro_f k + ro_len k)); [|lia]. cbn [trim trim_later fst snd app flat_map]. rewrite app_nil_r.
  replace (Z.min (ro_len l) (ro_f k - ro_f l + ro_len k)) with (ro_len l) by lia.
  rewrite read_app2. set (mk := mpi_read file mem (row_pairs k)).
  assert (E : row_pairs (mkrow (ro_f l + ro_len l) (ro_m l + ro_len l) (ro_len l - ro_len l)) = []).
  { rewrite row_pairs_eq. cbn [ro_len]. rewrite zseq_0 by lia. reflexivity. }
  rewrite E. cbn [mpi_read fold_left do_copies cx_dst cx_src cx_size].
  set (v := get mk (ro_m k - ro_len l + ro_len k) (Z.to_nat (ro_len l))).
  replace (Z.to_nat (ro_len l)) with (length v) at 1 by (unfold v; apply get_length). rewrite get_put_same. unfold v. apply get_ext. intros i Hi. unfold mk. rewrite read_row.
  destruct (Z.leb_spec (ro_m k) (ro_m k - ro_len l + ro_len k + i)), (Z.ltb_spec (ro_m k - ro_len l + ro_len k + i) (ro_m k + ro_len k)); cbn [andb]; try lia. f_equal. lia.
Qed.

Lemma nested_first : forall file mem k l, ro_f k <= ro_f l -> 0 < ro_len l -> row_end l < row_end k -> memory_apart k l ->
  get (deliver file mem [k; l]) (ro_m k) (Z.to_nat (ro_len k)) = get file (ro_f k) (Z.to_nat (ro_len k)).
Proof.
  intros file mem k l H1 H2 H3 H4. unfold row_end in *. unfold deliver. cbn [length trim trim_later].
  destruct (Z.ltb_spec (ro_f l) (ro_f k + ro_len k)); [|lia]. cbn [trim trim_later fst snd app flat_map]. rewrite app_nil_r.
  replace (Z.min (ro_len l) (ro_f k - ro_f l + ro_len k)) with (ro_len l) by lia.
  rewrite read_app2. set (mk := mpi_read file mem (row_pairs k)).
  assert (E : row_pairs (mkrow (ro_f l + ro_len l) (ro_m l + ro_len l) (ro_len l - ro_len l)) = []).
  { rewrite row_pairs_eq. cbn [ro_len]. rewrite zseq_0 by lia. reflexivity. }
  rewrite E. cbn [mpi_read fold_left do_copies cx_dst cx_src cx_size]. apply get_ext. intros i Hi. unfold memory_apart in H4.
  rewrite put_out by (unfold Zlen; rewrite get_length; lia). unfold mk. rewrite read_row.
  destruct (Z.leb_spec (ro_m k) (ro_m k + i)), (Z.ltb_spec (ro_m k + i) (ro_m k + ro_len k)); cbn [andb]; try lia. f_equal. lia.
Qed.

(** ** Groups *)
Definition covered (rows : list row) (x : Z) : Prop := exists r, In r rows /\ in_memory r x.
Record serves (ps : list (Z * Z)) (cs : list copyctx) (rows : list row) : Prop := {
  sv_get : forall file mem r x, In r rows -> in_memory r x -> do_copies (mpi_read file mem ps) cs x = file (ro_f r + (x - ro_m r));
  sv_out : forall file mem x, ~ covered rows x -> do_copies (mpi_read file mem ps) cs x = mem x;
  sv_ps : forall p, In p ps -> covered rows (snd p);
  sv_cs : forall c, In c cs -> 0 <= cx_size c /\ forall x, touches_c c x -> covered rows x }.
Lemma serves_app : forall p1 c1 r1 p2 c2 r2, serves p1 c1 r1 -> serves p2 c2 r2 -> (forall x, covered r1 x -> covered r2 x -> False) ->
  serves (p1 ++ p2) (c1 ++ c2) (r1 ++ r2).
Proof.
  intros p1 c1 r1 p2 c2 r2 A B D.
  assert (EQ : forall file mem, same (do_copies (mpi_read file mem (p1 ++ p2)) (c1 ++ c2)) (do_copies (mpi_read file (do_copies (mpi_read file mem p1) c1) p2) c2)).
  { intros file mem. rewrite copies_app, read_app2. apply copies_same2. apply commute.
    - apply Forall_forall. intros c Hc. apply (sv_cs _ _ _ A c Hc).
    - intros c p Hc Hp HX. apply (D (snd p)); [apply (sv_cs _ _ _ A c Hc); auto|apply (sv_ps _ _ _ B); auto]. }
  constructor.
  - intros file mem r x Hr Hx. rewrite EQ. apply in_app_iff in Hr. destruct Hr as [Hr|Hr].
    + rewrite (sv_out _ _ _ B); [apply (sv_get _ _ _ A); auto|]. intros C. apply (D x); auto. exists r. auto.
    + apply (sv_get _ _ _ B); auto.
  - intros file mem x Hx. rewrite EQ. rewrite (sv_out _ _ _ B), (sv_out _ _ _ A); auto; intros (r & H1 & H2); apply Hx; exists r; split; auto; apply in_or_app; auto.
  - intros p Hp. apply in_app_iff in Hp. destruct Hp as [Hp|Hp]; [apply (sv_ps _ _ _ A) in Hp|apply (sv_ps _ _ _ B) in Hp]; destruct Hp as (r & H1 & H2); exists r; split; auto; apply in_or_app; auto.
  - intros c Hc. apply in_app_iff in Hc. destruct Hc as [Hc|Hc]; [apply (sv_cs _ _ _ A) in Hc|apply (sv_cs _ _ _ B) in Hc]; destruct Hc as (S1 & S2); split; auto;
      intros x Hx; destruct (S2 x Hx) as (r & H1 & H2); exists r; split; auto; apply in_or_app; auto.
Qed.
Lemma serves_nil : serves [] [] [].
Proof. constructor; [intros ? ? ? ? []|reflexivity|intros ? []|intros ? []]. Qed.
Lemma serves_row : forall r, serves (row_pairs r) [] [r].
Proof.
  intros r. constructor.
  - intros file mem r0 x [<-|[]] X. cbn [do_copies fold_left]. rewrite read_row. unfold in_memory in X. destruct (Z.leb_spec (ro_m r) x), (Z.ltb_spec x (ro_m r + ro_len r)); cbn [andb]; auto; lia.
  - intros file mem x X. cbn [do_copies fold_left]. rewrite read_row. destruct (Z.leb_spec (ro_m r) x), (Z.ltb_spec x (ro_m r + ro_len r)); cbn [andb]; auto. exfalso. apply X. exists r. split; [left; auto|]. unfold in_memory. lia.
  - intros p Hp. exists r. split; [left; auto|apply row_pairs_in; auto].
  - intros c [].
Qed.
Lemma apart_cov : forall rows1 rows2 x, (forall a b, In a rows1 -> In b rows2 -> memory_apart a b) -> covered rows1 x -> covered rows2 x -> False.
Proof. intros rows1 rows2 x H (a & A1 & A2) (b & B1 & B2). specialize (H a b A1 B1). unfold memory_apart, in_memory in *. lia. Qed.
Lemma serves_rows : forall rows, ForallOrdPairs memory_apart rows -> serves (flat_map row_pairs rows) [] rows.
Proof.
  intros rows H. induction H as [|r rows H1 H2 IH]; [apply serves_nil|]. cbn [flat_map]. change (r :: rows) with ([r] ++ rows). change (@nil copyctx) with (@nil copyctx ++ []).
  apply serves_app; auto; [apply serves_row|]. intros x. apply apart_cov. intros a b [<-|[]] Hb. rewrite Forall_forall in H1. auto.
Qed.
Lemma trim_copies_in : forall n rows c, ForallOrdPairs no_earlier rows -> Forall (fun r => 0 <= ro_len r) rows ->
  In c (snd (trim n rows)) -> 0 <= cx_size c /\ forall x, touches_c c x -> covered rows x.
Proof.
  induction n as [|n IH]; intros rows c O G H; [destruct rows; destruct H|].
  destruct rows as [|k rest]; [destruct H|]. cbn [trim] in H. pose proof (trim_later_fst k rest) as HT. pose proof (fun x => later_touch k rest c x) as LT.
  destruct (trim_later k rest) as [rest' cs]. cbn [fst snd] in *. subst rest'. inversion O as [|? ? O1 O2]; subst. inversion G as [|? ? G1 G2]; subst.
  destruct (trim n (map (trimmed k) rest)) as [r2 cs2] eqn:T. cbn [snd] in H. apply in_app_iff in H. destruct H as [H|H].
  - split; [apply (LT 0 O1 G2 H)|]. intros x X. destruct (proj2 (LT x O1 G2 H) X) as [Y|(l & L1 & L2 & _)]; [exists k; split; [left; auto|auto]|exists l; split; [right; auto|auto]].
  - rewrite Forall_forall in O1, G2. destruct (IH (map (trimmed k) rest) c) as (I1 & I2).
    + clear - O1 G2 O2. induction O2 as [|a l H1 H2 IH]; cbn [map]; constructor.
      * apply Forall_forall. intros y Hy. apply in_map_iff in Hy. destruct Hy as (b & <- & Hb). rewrite Forall_forall in H1. specialize (H1 b Hb).
        destruct (trimmed_at k a (O1 a (or_introl eq_refl)) (G2 a (or_introl eq_refl))) as (A1 & A2 & _). destruct (trimmed_at k b (O1 b (or_intror Hb)) (G2 b (or_intror Hb))) as (B1 & B2 & _).
        unfold no_earlier in *. rewrite A1, A2, B1, B2. lia.
      * apply IH; intros y Hy; [apply O1|apply G2]; right; auto.
    + apply Forall_forall. intros y Hy. apply in_map_iff in Hy. destruct Hy as (b & <- & Hb). apply (trimmed_at k b (O1 b Hb) (G2 b Hb)).
    + rewrite T. exact H.
    + split; auto. intros x X. destruct (I2 x X) as (r & R1 & R2). apply in_map_iff in R1. destruct R1 as (l & <- & Hl). exists l. split; [right; auto|]. eapply trimmed_inside; eauto.
Qed.
Lemma serves_trim : forall rows, ForallOrdPairs no_earlier rows -> Forall (fun r => 0 <= ro_len r) rows -> ForallOrdPairs memory_apart rows ->
  serves (flat_map row_pairs (fst (trim (length rows) rows))) (snd (trim (length rows) rows)) rows.
Proof.
  intros rows O G P. constructor.
  - intros file mem. apply (deliver_ok file (length rows) rows mem (Nat.le_refl _) O G P).
  - intros file mem x X. apply (deliver_ok file (length rows) rows mem (Nat.le_refl _) O G P). intros r H1 H2. apply X. exists r. auto.
  - intros p Hp. apply (trim_reads_in _ _ _ O G Hp).
  - intros c Hc. apply (trim_copies_in _ _ _ O G Hc).
Qed.
Lemma serves_perm : forall ps cs r1 r2, Permutation r1 r2 -> serves ps cs r1 -> serves ps cs r2.
Proof.
  intros ps cs r1 r2 P A. assert (C : forall x, covered r1 x -> covered r2 x) by (intros x (r & H1 & H2); exists r; split; auto; eapply Permutation_in; eauto).
  constructor.
  - intros file mem r x Hr. apply (sv_get _ _ _ A). eapply Permutation_in; [apply Permutation_sym; eauto|auto].
  - intros file mem x X. apply (sv_out _ _ _ A). auto.
  - intros p Hp. apply C, (sv_ps _ _ _ A); auto.
  - intros c Hc. destruct (sv_cs _ _ _ A c Hc) as [H1 H2]. auto.
Qed.
Lemma memory_apart_sym : forall a b, memory_apart a b -> memory_apart b a.
Proof. unfold memory_apart. intros. lia. Qed.
Lemma sorted_staircase : forall rows, rsorted rows -> not_inside rows -> ForallOrdPairs no_earlier rows.
Proof.
  intros rows H N. induction H as [|a rows H1 IH H2]; constructor.
  - rewrite Forall_forall in *. intros b Hb. specialize (H2 b Hb). split; [exact H2|]. apply N; auto; [left; auto|right; auto].
  - apply IH. intros x y Hx Hy. apply N; right; auto.
Qed.
Lemma serves_group : forall g, Forall sr_ok g -> let rows := flat_map rows_of g in not_inside rows -> ForallOrdPairs memory_apart rows ->
  serves (fst (group_rtype g)) (snd (group_rtype g)) rows.
Proof.
  intros g Hok rows N P.
  assert (HG : serves (flat_map row_pairs (fst (trim (length rows) (sortoffsets (S (length rows)) rows)))) (snd (trim (length rows) (sortoffsets (S (length rows)) rows))) rows).
  { destruct (sortoffsets_ok (S (length rows)) rows ltac:(lia)) as [S1 S2]. apply (serves_perm _ _ _ _ (Permutation_sym S2)). rewrite (Permutation_length S2) at 1 3. apply serves_trim.
    - apply sorted_staircase; auto. intros a b Ha Hb. apply N; eapply Permutation_in; try (apply Permutation_sym; exact S2); auto.
    - apply Forall_forall. intros r Hr. apply (Permutation_in _ (Permutation_sym S2)) in Hr. unfold rows in Hr. apply in_flat_map in Hr. destruct Hr as (s & Hs & Hr).
      rewrite Forall_forall in Hok. pose proof (rows_len_pos s r (Hok s Hs) Hr). lia.
    - eapply FOP_perm; [apply memory_apart_sym|exact S2|exact P]. }
  unfold group_rtype. destruct g as [|s [|s2 g]].
  - exact HG.
  - cbn [fst snd]. inversion Hok; subst. rewrite <- (rows_pairs s) by auto. unfold rows in *. cbn [flat_map] in *. rewrite app_nil_r in *. apply serves_rows. auto.
  - fold rows. destruct (trim (length rows) (sortoffsets (S (length rows)) rows)) as [rs' cs]. exact HG.
Qed.
Lemma serves_groups : forall gs, Forall sr_ok (concat gs) -> let rows := flat_map rows_of (concat gs) in not_inside rows -> ForallOrdPairs memory_apart rows ->
  serves (flat_map fst (map group_rtype gs)) (flat_map snd (map group_rtype gs)) rows.
Proof.
  induction gs as [|g gs IH]; intros Hok rows N P; unfold rows in *; clear rows; [apply serves_nil|]. cbn [concat map flat_map] in *. rewrite flat_map_app in *.
  apply Forall_app in Hok. destruct Hok as [K1 K2]. apply ForallOrdPairs_app in P. destruct P as (P1 & P2 & P3). apply serves_app.
  - apply serves_group; auto. intros a b Ha Hb. apply N; apply in_or_app; auto.
  - apply IH; auto. intros a b Ha Hb. apply N; apply in_or_app; auto.
  - intros x. apply apart_cov. exact P3.
Qed.

Theorem overlapping_blocks : forall sort file mem blocks, is_sort sort -> Forall sr_ok blocks -> let rows := flat_map rows_of blocks in
  not_inside rows -> ForallOrdPairs memory_apart rows ->
  (forall r, In r rows -> get (perform_read sort file mem blocks) (ro_m r) (Z.to_nat (ro_len r)) = get file (ro_f r) (Z.to_nat (ro_len r))) /\
  (forall x, (forall r, In r rows -> ~ in_memory r x) -> perform_read sort file mem blocks x = mem x).
Proof.
  intros sort file mem blocks Hs Hok rows N P. destruct (Hs blocks) as [HP _].
  assert (PR : Permutation rows (flat_map rows_of (concat (groups (sort blocks))))) by (rewrite groups_concat; apply Permutation_flat_map; auto).
  assert (SV : serves (fst (gen_rtypes sort blocks)) (snd (gen_rtypes sort blocks)) rows).
  { unfold gen_rtypes. cbn [fst snd]. apply (serves_perm _ _ _ _ (Permutation_sym PR)). apply serves_groups.
    - rewrite groups_concat. apply Forall_forall. intros s Hs0. rewrite Forall_forall in Hok. apply Hok. eapply Permutation_in; [apply Permutation_sym; exact HP|auto].
    - intros a b Ha Hb. apply N; eapply Permutation_in; try (apply Permutation_sym; exact PR); auto.
    - eapply FOP_perm; [apply memory_apart_sym|exact PR|exact P]. }
  unfold perform_read. destruct (gen_rtypes sort blocks) as [ps cs]. cbn [fst snd] in SV. split.
  - intros r Hr. apply get_ext. intros i Hi. rewrite (sv_get _ _ _ SV file mem r (ro_m r + i) Hr); [f_equal; lia|]. unfold in_memory. lia.
  - intros x X. apply (sv_out _ _ _ SV). intros (r & H1 & H2). apply (X r); auto.
Qed.
