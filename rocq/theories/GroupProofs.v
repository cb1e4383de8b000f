(** Proofs about groups of processes. *)
From Verif Require Import Base GroupModel GroupSpec.
From Coq Require Import ZifyNat.
Local Open Scope nat_scope.

Definition isr (c : nat -> Z) (i : nat) : bool := (group_rank c i =? 0).
Definition cr (c : nat -> Z) (k : nat) : nat := count (isr c) (seq 0 k).

Lemma count_app : forall f a b, count f (a ++ b) = count f a + count f b.
Proof. intros. unfold count. rewrite filter_app, app_length. reflexivity. Qed.
Lemma count_map : forall f (g : nat -> nat) l, count f (map g l) = count (fun i => f (g i)) l.
Proof. unfold count. induction l; cbn; auto. destruct (f (g a)); cbn; auto. Qed.
Lemma count_ext : forall f g l, (forall i, In i l -> f i = g i) -> count f l = count g l.
Proof. unfold count. induction l as [|a l IH]; intros H; cbn; auto. rewrite (H a) by (left; auto). destruct (g a); cbn; rewrite IH; auto; intros i Hi; apply H; right; auto. Qed.
Lemma count_zero : forall f l, count f l = 0 <-> (forall i, In i l -> f i = false).
Proof.
  unfold count. induction l as [|a l IH]; cbn; [split; [intros _ i []|auto]|]. destruct (f a) eqn:E; cbn.
  - split; [discriminate|]. intros H. rewrite (H a) in E by auto. discriminate.
  - rewrite IH. split; [intros H i [<-|Hi]; auto|intros H i Hi; auto].
Qed.
Lemma firstn_seq : forall k n a, k <= n -> firstn k (seq a n) = seq a k.
Proof. induction k; intros n a H; [reflexivity|]. destruct n; [lia|]. cbn. f_equal. apply IHk. lia. Qed.
Lemma skipn_seq : forall k n a, k <= n -> skipn k (seq a n) = seq (a + k) (n - k).
Proof. induction k; intros n a H; cbn; [f_equal; lia|]. destruct n; [lia|]. cbn. rewrite IHk by lia. f_equal; lia. Qed.
Lemma own_id_cr : forall np c r, r <= np -> own_id np c r = cr c r.
Proof.
  intros np c r H. unfold own_id, zeros, group_ranks, cr. rewrite firstn_map, firstn_seq, count_map by auto. apply count_ext. intros i _. unfold isr. apply Nat.eqb_sym.
Qed.
Lemma ngroup_cr : forall np c r, r <= np -> ngroup np c r = cr c np.
Proof.
  intros np c r H. unfold ngroup. rewrite own_id_cr by auto. unfold zeros, group_ranks, cr. rewrite skipn_map, skipn_seq, count_map by auto.
  rewrite (count_ext _ (isr c) (seq (0 + r) (np - r))) by (intros; unfold isr; apply Nat.eqb_sym).
  rewrite <- count_app. f_equal. rewrite <- seq_app. f_equal. lia.
Qed.
Lemma cr_S : forall c k, cr c (S k) = cr c k + (if isr c k then 1 else 0).
Proof. intros. unfold cr. rewrite seq_S, count_app. f_equal. cbn [Nat.add]. unfold count. cbn [filter]. destruct (isr c k); reflexivity. Qed.
Lemma cr_mono : forall c i j, i <= j -> cr c i <= cr c j.
Proof. intros c i j H. induction H; auto. rewrite cr_S. lia. Qed.
Lemma isr_spec : forall c i, isr c i = true <-> (forall j, j < i -> c j <> c i).
Proof.
  intros c i. unfold isr. rewrite Nat.eqb_eq. unfold group_rank. rewrite count_zero. unfold same. split.
  - intros H j Hj. apply Z.eqb_neq. apply H. apply in_seq. lia.
  - intros H j Hj. apply in_seq in Hj. apply Z.eqb_neq. apply H. lia.
Qed.
(** The least process of a colour. *)
Lemma least : forall (P : nat -> bool) n r, r < n -> P r = true -> exists i, i <= r /\ P i = true /\ forall j, j < i -> P j = false.
Proof.
  intros P n r Hr HP. clear Hr. induction r as [r IH] using (well_founded_induction lt_wf).
  destruct (existsb P (seq 0 r)) eqn:E.
  - apply existsb_exists in E. destruct E as (j & Hj & E). apply in_seq in Hj. destruct (IH j) as (i & H1 & H2 & H3); auto; [lia|]. exists i. split; [lia|]. auto.
  - exists r. split; auto. split; auto. intros j Hj. destruct (P j) eqn:EP; auto. assert (existsb P (seq 0 r) = true) by (apply existsb_exists; exists j; split; auto; apply in_seq; lia). congruence.
Qed.
Lemma find_seq : forall f n a i, find f (seq a n) = Some i -> f i = true /\ a <= i < a + n.
Proof. intros f n a i H. apply find_some in H. rewrite in_seq in H. tauto. Qed.
Lemma root_spec : forall np c r, r < np -> root np c r <= r /\ c (root np c r) = c r /\ isr c (root np c r) = true.
Proof.
  intros np c r H. unfold root. destruct (least (same c r) np r H) as (i & I1 & I2 & I3); [unfold same; apply Z.eqb_refl|].
  assert (Hi : isr c i = true).
  { apply isr_spec. intros j Hj E. specialize (I3 j Hj). unfold same in *. apply Z.eqb_eq in I2. apply Z.eqb_neq in I3. congruence. }
  destruct (find _ (seq 0 np)) as [k|] eqn:E.
  - apply find_seq in E. destruct E as [E1 E2]. apply andb_prop in E1. destruct E1 as [E1 E3]. unfold same in E1. apply Z.eqb_eq in E1.
    split; [|auto]. destruct (Nat.le_gt_cases k r); auto. exfalso. apply (proj1 (isr_spec c k) E3 r); auto.
  - exfalso. assert (F : In i (seq 0 np)) by (apply in_seq; lia). apply (find_none _ _ E) in F. unfold isr in Hi. rewrite I2, Hi in F. discriminate.
Qed.
Lemma cr_inj : forall c i j, isr c i = true -> isr c j = true -> cr c i = cr c j -> i = j.
Proof.
  intros c i j Hi Hj H. destruct (Nat.lt_trichotomy i j) as [L|[L|L]]; auto; exfalso.
  - pose proof (cr_mono c (S i) j L). rewrite cr_S, Hi in H0. lia.
  - pose proof (cr_mono c (S j) i L). rewrite cr_S, Hj in H0. lia.
Qed.
Lemma cr_onto : forall c n g, g < cr c n -> exists i, i < n /\ isr c i = true /\ cr c i = g.
Proof.
  induction n as [|n IH]; intros g H; [cbn in H; lia|]. rewrite cr_S in H. destruct (Nat.lt_ge_cases g (cr c n)) as [L|L].
  - destruct (IH g L) as (i & H1 & H2 & H3). exists i. split; auto.
  - destruct (isr c n) eqn:E; [|lia]. exists n. repeat split; auto. lia.
Qed.
Lemma root_unique : forall np c r s, r < np -> s < np -> c r = c s -> root np c r = root np c s.
Proof.
  intros np c r s Hr Hs E. unfold root. destruct (find _ (seq 0 np)) eqn:E1.
  - replace (find (fun i => same c s i && (group_rank c i =? 0)) (seq 0 np)) with (Some n); auto. rewrite <- E1. clear - E. induction (seq 0 np) as [|a l IH]; cbn; auto. unfold same in *. rewrite E. destruct (_ && _); auto.
  - exfalso. destruct (root_spec np c r Hr) as (R1 & R2 & R3). assert (F : In (root np c r) (seq 0 np)) by (apply in_seq; lia).
    apply (find_none _ _ E1) in F. unfold same, isr in *. rewrite R2, Z.eqb_refl, R3 in F. discriminate.
Qed.

(** For any colouring. *)
Lemma groups_agree : forall np c r s, r < np -> s < np -> (group_id np c r = group_id np c s <-> c r = c s).
Proof.
  intros np c r s Hr Hs. unfold group_id. split.
  - destruct (root_spec np c r Hr) as (R1 & R2 & R3), (root_spec np c s Hs) as (S1 & S2 & S3).
    rewrite !own_id_cr by lia. intros H. apply cr_inj in H; auto. congruence.
  - intros E. rewrite (root_unique np c r s); auto.
Qed.
Lemma groups_partition : forall np c r, r < np -> partition np (ngroup np c r) (group_id np c).
Proof.
  intros np c r Hr. rewrite ngroup_cr by lia. split.
  - intros s Hs. unfold group_id. destruct (root_spec np c s Hs) as (R1 & R2 & R3). rewrite own_id_cr by lia.
    pose proof (cr_mono c (S (root np c s)) np ltac:(lia)). rewrite cr_S, R3 in H. lia.
  - intros g Hg. destruct (cr_onto c np g Hg) as (i & H1 & H2 & H3). exists i. split; auto. unfold group_id.
    destruct (root_spec np c i H1) as (R1 & R2 & R3). assert (E : root np c i = i).
    { destruct (Nat.eq_dec (root np c i) i); auto. exfalso. apply (proj1 (isr_spec c i) H2 (root np c i)); [lia|auto]. }
    rewrite E, own_id_cr by lia. auto.
Qed.
Lemma ngroup_same : forall np c r s, r < np -> s < np -> ngroup np c r = ngroup np c s.
Proof. intros. rewrite !ngroup_cr by lia. reflexivity. Qed.

(** For colours growing from 0 by at most one. *)
Lemma cr_steps : forall c n, (forall i, S i < n -> (c (S i) = c i \/ c (S i) = c i + 1)%Z) -> c O = 0%Z -> forall k, k < n -> Z.of_nat (cr c (S k)) = (c k + 1)%Z /\ (forall j, j <= k -> (c j <= c k)%Z).
Proof.
  intros c n H H0. induction k as [|k IH]; intros Hk.
  - split; [rewrite cr_S; cbn; lia|]. intros j Hj. replace j with 0 by lia. lia.
  - destruct (IH ltac:(lia)) as [I1 I2]. rewrite cr_S. destruct (H k Hk) as [E|E].
    + assert (isr c (S k) = false) as ->.
      { destruct (isr c (S k)) eqn:EI; auto. exfalso. apply (proj1 (isr_spec c (S k)) EI k); auto. }
      split; [lia|]. intros j Hj. destruct (Nat.eq_dec j (S k)) as [->|]; [lia|]. specialize (I2 j ltac:(lia)). lia.
    + assert (isr c (S k) = true) as ->.
      { apply isr_spec. intros j Hj. specialize (I2 j ltac:(lia)). lia. }
      split; [lia|]. intros j Hj. destruct (Nat.eq_dec j (S k)) as [->|]; [lia|]. specialize (I2 j ltac:(lia)). lia.
Qed.
Lemma group_id_steps : forall c np, (forall i, S i < np -> (c (S i) = c i \/ c (S i) = c i + 1)%Z) -> c O = 0%Z ->
  forall r, r < np -> Z.of_nat (group_id np c r) = c r.
Proof.
  intros c np H H0 r Hr. unfold group_id. destruct (root_spec np c r Hr) as (R1 & R2 & R3). rewrite own_id_cr by lia.
  destruct (cr_steps c np H H0 (root np c r)) as [E _]; [lia|]. rewrite cr_S, R3 in E. lia.
Qed.
Lemma ngroup_steps : forall c np, (forall i, S i < np -> (c (S i) = c i \/ c (S i) = c i + 1)%Z) -> c O = 0%Z ->
  forall r, r < np -> Z.of_nat (ngroup np c r) = (c (np - 1)%nat + 1)%Z.
Proof.
  intros c np H H0 r Hr. rewrite ngroup_cr by lia. destruct (cr_steps c np H H0 (np - 1)) as [E _]; [lia|]. replace (S (np - 1)) with np in E by lia. auto.
Qed.

Local Open Scope Z_scope.
(** Colours computed by the code. *)
Lemma color_ok : forall np ng r, 0 < np -> 0 < ng -> np * ng < 2 ^ 31 -> Z.of_nat r < np -> color np ng r = Ok (Z.of_nat r * ng / np).
Proof.
  intros np ng r H1 H2 H3 H4. unfold color, in_int. replace ((- 2 ^ 31 <=? Z.of_nat r * ng) && (Z.of_nat r * ng <? 2 ^ 31)) with true.
  - rewrite Z.quot_div_nonneg by nia. reflexivity.
  - symmetry. apply andb_true_intro. rewrite Z.leb_le, Z.ltb_lt. nia.
Qed.
Definition cl (np ng : Z) (r : nat) : Z := Z.of_nat r * ng / np.
Lemma group_id_ext : forall np c d, (forall i, (i < np)%nat -> c i = d i) -> forall r, (r < np)%nat -> group_id np c r = group_id np d r /\ ngroup np c r = ngroup np d r.
Proof.
  intros np c d H r Hr. assert (GR : forall i, (i < np)%nat -> group_rank c i = group_rank d i).
  { intros i Hi. unfold group_rank. apply count_ext. intros j Hj. apply in_seq in Hj. unfold same. rewrite !H by lia. reflexivity. }
  assert (CR : forall k, (k <= np)%nat -> cr c k = cr d k).
  { intros k Hk. unfold cr. apply count_ext. intros j Hj. apply in_seq in Hj. unfold isr. rewrite GR by lia. reflexivity. }
  split; [|rewrite !ngroup_cr by lia; apply CR; lia]. unfold group_id.
  destruct (root_spec np c r Hr) as (R1 & R2 & R3), (root_spec np d r Hr) as (S1 & S2 & S3).
  assert (E : root np c r = root np d r).
  { apply (cr_inj c); auto.
    - unfold isr in *. rewrite GR by lia. auto.
    - f_equal. destruct (Nat.lt_trichotomy (root np c r) (root np d r)) as [L|[L|L]]; auto; exfalso.
      + apply (proj1 (isr_spec d _) S3 _ L). rewrite S2, <- (H (root np c r)) by lia. rewrite R2. apply H; lia.
      + apply (proj1 (isr_spec c _) R3 _ L). rewrite R2, (H (root np d r)) by lia. rewrite S2. symmetry. apply H; lia. }
  rewrite !own_id_cr by lia. rewrite E. apply CR. lia.
Qed.
Lemma cl_step : forall np ng, 0 < ng -> ng <= np -> forall i, cl np ng (S i) = cl np ng i \/ cl np ng (S i) = cl np ng i + 1.
Proof.
  intros np ng H1 H2 i. unfold cl. pose proof (Z.div_mod (Z.of_nat i * ng) np ltac:(lia)). pose proof (Z.mod_pos_bound (Z.of_nat i * ng) np ltac:(lia)).
  replace (Z.of_nat (S i) * ng) with (Z.of_nat i * ng + ng) by lia. set (q := Z.of_nat i * ng / np) in *. set (m := (Z.of_nat i * ng) mod np) in *.
  destruct (Z_lt_ge_dec (m + ng) np).
  - left. symmetry. apply Z.div_unique with (m + ng); lia.
  - right. symmetry. apply Z.div_unique with (m + ng - np); lia.
Qed.
(** Least rank of a group. *)
Definition bnd (np ng g : Z) : Z := (g * np + ng - 1) / ng.
Lemma bnd_iff : forall np ng g r, 0 < ng -> 0 < np -> 0 <= r -> (r * ng / np = g <-> bnd np ng g <= r < bnd np ng (g + 1)).
Proof.
  intros np ng g r H1 H2 H3. unfold bnd.
  assert (A : forall x, (x * np + ng - 1) / ng <= r <-> x * np <= r * ng).
  { intros x. split; intros H.
    - pose proof (Z.div_mod (x * np + ng - 1) ng ltac:(lia)). pose proof (Z.mod_pos_bound (x * np + ng - 1) ng ltac:(lia)). nia.
    - apply Z.lt_succ_r. apply Z.div_lt_upper_bound; nia. }
  rewrite A. rewrite Z.lt_nge, A. pose proof (Z.div_mod (r * ng) np ltac:(lia)). pose proof (Z.mod_pos_bound (r * ng) np ltac:(lia)).
  split; [intros <-; nia|]. intros [G1 G2]. symmetry. apply Z.div_unique with (r * ng - g * np); nia.
Qed.
Lemma bnd_size : forall np ng g, 0 < ng -> ng <= np -> np / ng <= bnd np ng (g + 1) - bnd np ng g <= np / ng + 1.
Proof.
  intros np ng g H1 H2. unfold bnd. replace ((g + 1) * np + ng - 1) with (g * np + ng - 1 + np) by lia. set (a := g * np + ng - 1).
  pose proof (Z.div_mod a ng ltac:(lia)). pose proof (Z.mod_pos_bound a ng ltac:(lia)).
  pose proof (Z.div_mod np ng ltac:(lia)). pose proof (Z.mod_pos_bound np ng ltac:(lia)).
  pose proof (Z.div_mod (a + np) ng ltac:(lia)). pose proof (Z.mod_pos_bound (a + np) ng ltac:(lia)). nia.
Qed.

Lemma ranges : forall np ng r, (0 < ng)%nat -> (r < np)%nat -> Z.of_nat np * Z.of_nat ng < 2 ^ 31 ->
  let c := colors (Z.of_nat np) (Z.of_nat ng) in
  (forall i, (i < np)%nat -> color (Z.of_nat np) (Z.of_nat ng) i = Ok (c i)) /\
  ngroup np c r = Nat.min ng np /\ balanced_ranges np (Nat.min ng np) (group_id np c).
Proof.
  intros np ng r Hg Hr Hov c. set (P := Z.of_nat np) in *. set (G := Z.of_nat ng) in *.
  assert (OK : forall i, (i < np)%nat -> color P G i = Ok (cl P G i)) by (intros i Hi; apply color_ok; lia).
  assert (C : forall i, (i < np)%nat -> c i = cl P G i) by (intros i Hi; unfold c, colors; rewrite OK; auto).
  split; [intros i Hi; rewrite C; auto|]. destruct (Nat.le_ge_cases ng np) as [L|L].
  - rewrite Nat.min_l by auto.
    assert (ID : forall i, (i < np)%nat -> Z.of_nat (group_id np c i) = cl P G i).
    { intros i Hi. rewrite (proj1 (group_id_ext np c (cl P G) C i Hi)). apply group_id_steps; auto. intros j _. apply cl_step; lia. }
    split.
    + apply Nat2Z.inj. rewrite (proj2 (group_id_ext np c (cl P G) C r Hr)), ngroup_steps by (auto; intros; apply cl_step; lia).
      unfold cl. replace (Z.of_nat (np - 1)) with (P - 1) by lia. fold G. symmetry. rewrite <- (Z.sub_add 1 G) at 1. f_equal. apply Z.div_unique with (P - G); lia.
    + assert (B0 : forall g, 0 <= g -> 0 <= bnd P G g) by (intros g H; apply Z.div_pos; nia).
      exists (fun g => Z.to_nat (bnd P G (Z.of_nat g))). split; [|split; [|split]].
      * unfold bnd. rewrite Z.div_small by lia. reflexivity.
      * replace (bnd P G (Z.of_nat ng)) with P; [lia|]. unfold bnd. apply Z.div_unique with (G - 1); lia.
      * intros g i Hgg Hi. replace (group_id np c i = g) with (group_id np c i = g) by auto.
        pose proof (bnd_iff P G (Z.of_nat g) (Z.of_nat i) ltac:(lia) ltac:(lia) ltac:(lia)) as BI. pose proof (B0 (Z.of_nat g) ltac:(lia)). pose proof (B0 (Z.of_nat g + 1) ltac:(lia)).
        replace (Z.of_nat (S g)) with (Z.of_nat g + 1) by lia. specialize (ID i Hi). unfold cl in ID. rewrite <- ID in BI. split; intros HH.
        -- apply proj1 in BI. specialize (BI ltac:(lia)). lia.
        -- apply proj2 in BI. specialize (BI ltac:(lia)). lia.
      * intros g h Hgg Hh. pose proof (bnd_size P G (Z.of_nat g) ltac:(lia) ltac:(lia)). pose proof (bnd_size P G (Z.of_nat h) ltac:(lia) ltac:(lia)).
        pose proof (B0 (Z.of_nat g) ltac:(lia)). pose proof (B0 (Z.of_nat h) ltac:(lia)). pose proof (Z.div_le_lower_bound P G 1 ltac:(lia) ltac:(lia)).
        replace (Z.of_nat (S g)) with (Z.of_nat g + 1) by lia. replace (Z.of_nat (S h)) with (Z.of_nat h + 1) by lia. lia.
  - rewrite Nat.min_r by auto.
    assert (MI : forall i j, (i < j)%nat -> cl P G i < cl P G j).
    { intros i j H. unfold cl. pose proof (Z.div_mod (Z.of_nat i * G) P ltac:(lia)). pose proof (Z.mod_pos_bound (Z.of_nat i * G) P ltac:(lia)).
      apply (Z.lt_le_trans _ (Z.of_nat i * G / P + 1)); [lia|]. apply Z.div_le_lower_bound; nia. }
    assert (RT : forall i, (i < np)%nat -> isr c i = true).
    { intros i Hi. apply isr_spec. intros j Hj. rewrite !C by lia. specialize (MI j i Hj). lia. }
    assert (CR : forall k, (k <= np)%nat -> cr c k = k).
    { induction k; intros Hk; [reflexivity|]. rewrite cr_S, IHk, RT by lia. lia. }
    assert (ID : forall i, (i < np)%nat -> group_id np c i = i).
    { intros i Hi. unfold group_id. destruct (root_spec np c i Hi) as (R1 & R2 & R3). rewrite own_id_cr, CR by lia.
      destruct (Nat.eq_dec (root np c i) i); auto. exfalso. apply (proj1 (isr_spec c i) (RT i Hi) (root np c i)); [lia|auto]. }
    split; [rewrite ngroup_cr by lia; apply CR; lia|]. exists (fun g => g). repeat split; try lia; rewrite ID in * by auto; lia.
Qed.
