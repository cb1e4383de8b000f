(** Claims about groups of processes. *)
From Verif Require Import Base GroupModel GroupSpec GroupProofs.
From Coq Require Import ZifyNat.
Local Open Scope nat_scope.

Lemma gr_nth : forall np c i, i < np -> (nth i (group_ranks np c) 1 =? 0) = isr c i.
Proof.
  intros np c i H. unfold group_ranks. rewrite (nth_indep _ 1 (group_rank c 0)) by (rewrite map_length, seq_length; auto). rewrite map_nth, seq_nth by auto. reflexivity.
Qed.
Lemma prev_spec : forall np c k j, k <= np -> 0 < j ->
  match nth_zero (group_ranks np c) (rev (seq 0 k)) j with
  | Some i => i < k /\ isr c i = true /\ cr c i + j = cr c k
  | None => cr c k < j
  end.
Proof.
  induction k as [|k IH]; intros j Hk Hj; [cbn; auto|]. rewrite seq_S, rev_app_distr. cbn [rev app nth_zero Nat.add]. rewrite gr_nth by lia. rewrite cr_S.
  destruct (isr c k) eqn:E.
  - destruct j as [|[|j]]; [lia| |]; [repeat split; auto; lia|]. specialize (IH (S j) ltac:(lia) ltac:(lia)).
    destruct (nth_zero _ _ (S j)); [destruct IH as (? & ? & ?); repeat split; auto; lia|lia].
  - specialize (IH j ltac:(lia) Hj). destruct (nth_zero _ _ j); [destruct IH as (? & ? & ?); repeat split; auto; lia|lia].
Qed.
Lemma next_spec : forall np c n a j, a + n = np -> 0 < j ->
  match nth_zero (group_ranks np c) (seq a n) j with
  | Some i => a <= i < np /\ isr c i = true /\ cr c i + 1 = cr c a + j
  | None => cr c np < cr c a + j
  end.
Proof.
  induction n as [|n IH]; intros a j Ha Hj; [cbn; replace np with a by lia; lia|]. cbn [seq nth_zero]. rewrite gr_nth by lia. pose proof (cr_S c a) as CS.
  destruct (isr c a) eqn:E.
  - destruct j as [|[|j]]; [lia| |]; [repeat split; auto; lia|]. specialize (IH (S a) (S j) ltac:(lia) ltac:(lia)).
    destruct (nth_zero _ _ (S j)); [destruct IH as (? & ? & ?); repeat split; auto; lia|lia].
  - specialize (IH (S a) j ltac:(lia) Hj). destruct (nth_zero _ _ j); [destruct IH as (? & ? & ?); repeat split; auto; lia|lia].
Qed.
Lemma root_self : forall np c r, r < np -> isr c r = true -> group_id np c r = cr c r.
Proof.
  intros np c r Hr H. unfold group_id. destruct (root_spec np c r Hr) as (R1 & R2 & R3). rewrite own_id_cr by lia. f_equal.
  destruct (Nat.eq_dec (root np c r) r); auto. exfalso. apply (proj1 (isr_spec c r) H (root np c r)); [lia|auto].
Qed.
(** Group roots writing to the same storage target form chains. *)
Lemma chain : forall np c scount r, 0 < scount -> r < np -> group_rank c r = 0 ->
  (forall p, prev_rank np c scount r = Some p -> p < np /\ group_rank c p = 0 /\ group_id np c p + scount = group_id np c r) /\
  (forall p, next_rank np c scount r = Some p -> p < np /\ group_rank c p = 0 /\ group_id np c p = group_id np c r + scount) /\
  (prev_rank np c scount r = None <-> group_id np c r < scount) /\
  (next_rank np c scount r = None <-> ngroup np c r <= group_id np c r + scount).
Proof.
  intros np c sc r Hs Hr HR. assert (HI : isr c r = true) by (unfold isr; rewrite HR; auto).
  rewrite ngroup_cr, (root_self np c r) by (auto; lia). unfold prev_rank, next_rank.
  pose proof (prev_spec np c r sc ltac:(lia) Hs) as PS. pose proof (next_spec np c (np - S r) (S r) sc ltac:(lia) Hs) as NS.
  rewrite cr_S, HI in NS. split; [|split; [|split]].
  - intros p E. rewrite E in PS. destruct PS as (P1 & P2 & P3). split; [lia|]. split; [apply Nat.eqb_eq; exact P2|]. rewrite root_self by (auto; lia). auto.
  - intros p E. rewrite E in NS. destruct NS as (P1 & P2 & P3). split; [lia|]. split; [apply Nat.eqb_eq; exact P2|]. rewrite root_self by (auto; lia). lia.
  - destruct (nth_zero _ (rev _) _); split; try discriminate; auto; lia.
  - destruct (nth_zero _ (seq (S r) _) _) as [p|]; split; try discriminate; auto; try lia. intros H. exfalso. destruct NS as (P1 & P2 & P3).
    pose proof (cr_mono c (S p) np ltac:(lia)). rewrite cr_S, P2 in H0. lia.
Qed.
(** Every message has a receiver waiting for it, and the other way round. *)
Lemma chain_match : forall np c scount r p, 0 < scount -> r < np -> p < np -> group_rank c r = 0 -> group_rank c p = 0 ->
  (next_rank np c scount p = Some r <-> prev_rank np c scount r = Some p).
Proof.
  intros np c sc r p Hs Hr Hp GR GP. destruct (chain np c sc r Hs Hr GR) as (A1 & A2 & A3 & A4). destruct (chain np c sc p Hs Hp GP) as (B1 & B2 & B3 & B4).
  assert (IR : isr c r = true) by (unfold isr; rewrite GR; auto). assert (IP : isr c p = true) by (unfold isr; rewrite GP; auto).
  pose proof (proj1 (groups_partition np c r Hr) r Hr) as LT. rewrite ngroup_cr in * by lia.
  split; intros E.
  - destruct (B2 r E) as (_ & _ & E1). destruct (prev_rank np c sc r) as [q|] eqn:E2.
    + destruct (A1 q eq_refl) as (Q1 & Q2 & Q3). f_equal. apply (cr_inj c); auto; [unfold isr; rewrite Q2; auto|].
      rewrite <- (root_self np c q), <- (root_self np c p) by (auto; unfold isr; rewrite Q2; auto). lia.
    + pose proof (proj1 A3 eq_refl). lia.
  - destruct (A1 p E) as (_ & _ & E1). destruct (next_rank np c sc p) as [q|] eqn:E2.
    + destruct (B2 q eq_refl) as (Q1 & Q2 & Q3). f_equal. apply (cr_inj c); auto; [unfold isr; rewrite Q2; auto|].
      rewrite <- (root_self np c q), <- (root_self np c r) by (auto; unfold isr; rewrite Q2; auto). lia.
    + pose proof (proj1 B4 eq_refl). lia.
Qed.

(** Examples and counterexamples. *)
Lemma groups_example : map (group_id 7 (colors 7 3)) (seq 0 7) = [0;0;0;1;1;2;2] /\ map (ngroup 7 (colors 7 3)) (seq 0 7) = [3;3;3;3;3;3;3].
Proof. split; vm_compute; reflexivity. Qed.
Definition nodes_ex (r : nat) : Z := nth r [5; 9; 5; 2; 9; 2]%Z 0%Z.
Lemma nodes_example : map (group_id 6 nodes_ex) (seq 0 6) = [0;1;0;2;1;2].
Proof. vm_compute. reflexivity. Qed.
Lemma color_overflow : color 65536 65536 40000 = UB.
Proof. vm_compute. reflexivity. Qed.
(** A file of two groups is opened with another number of groups. *)
Lemma reopen_groups : forall config, open_ngroup (create_att config 2) = config.
Proof. reflexivity. Qed.
Lemma reopen_example : let att := create_att 522 2 in open_config att = 522%Z /\
  map (group_id 4 (colors 4 2)) (seq 0 4) = [0;0;1;1] /\ map (group_id 4 (colors 4 (open_ngroup att))) (seq 0 4) = [0;1;2;3].
Proof. cbv zeta. split; [reflexivity|]. split; vm_compute; reflexivity. Qed.
