(** Properties of the groups of processes sharing a subfile. *)
From Verif Require Import Base GroupModel GroupSpec GroupProofs GroupClaims.
Local Open Scope nat_scope.

(** ** C25 Groups

    For [ng] groups requested and [np] processes: all agree on the number of groups, which is [ng]
    or, with fewer processes, [np]; each group is a range of ranks; none is empty; sizes differ by
    at most one.  Assumed: the product of the two numbers fits a C int. *)
Theorem C25_ranges_partial : forall np ng r, 0 < ng -> r < np -> (Z.of_nat np * Z.of_nat ng < 2 ^ 31)%Z ->
  let c := colors (Z.of_nat np) (Z.of_nat ng) in
  (forall i, i < np -> color (Z.of_nat np) (Z.of_nat ng) i = Ok (c i)) /\
  ngroup np c r = Nat.min ng np /\ balanced_ranges np (Nat.min ng np) (group_id np c).
Proof. exact ranges. Qed.
Print Assumptions C25_ranges_partial.
Example C25_applies : map (group_id 7 (colors 7 3)) (seq 0 7) = [0;0;0;1;1;2;2].
Proof. exact (proj1 groups_example). Qed.
(** For any way of sharing nodes, also interleaved ones: groups are numbered without gaps, and two
    processes have the same number exactly when they share a node. *)
Theorem C25_partition : forall np c r, r < np -> partition np (ngroup np c r) (group_id np c).
Proof. exact groups_partition. Qed.
Print Assumptions C25_partition.
Theorem C25_same_group : forall np c r s, r < np -> s < np -> (group_id np c r = group_id np c s <-> c r = c s).
Proof. exact groups_agree. Qed.
Print Assumptions C25_same_group.
Theorem C25_number_agrees : forall np c r s, r < np -> s < np -> ngroup np c r = ngroup np c s.
Proof. exact ngroup_same. Qed.
Print Assumptions C25_number_agrees.
Example C25_nodes : map (group_id 6 nodes_ex) (seq 0 6) = [0;1;0;2;1;2].
Proof. exact nodes_example. Qed.
(** In the aligned layout the groups writing to one storage target are chained in the order of
    their numbers, and every message sent along the chain has a receiver. *)
Theorem C25_chain : forall np c scount r, 0 < scount -> r < np -> group_rank c r = 0 ->
  (forall p, prev_rank np c scount r = Some p -> p < np /\ group_rank c p = 0 /\ group_id np c p + scount = group_id np c r) /\
  (forall p, next_rank np c scount r = Some p -> p < np /\ group_rank c p = 0 /\ group_id np c p = group_id np c r + scount) /\
  (prev_rank np c scount r = None <-> group_id np c r < scount) /\
  (next_rank np c scount r = None <-> ngroup np c r <= group_id np c r + scount).
Proof. exact chain. Qed.
Print Assumptions C25_chain.
Theorem C25_messages_match : forall np c scount r p, 0 < scount -> r < np -> p < np -> group_rank c r = 0 -> group_rank c p = 0 ->
  (next_rank np c scount p = Some r <-> prev_rank np c scount r = Some p).
Proof. exact chain_match. Qed.
Print Assumptions C25_messages_match.

(** Large numbers overflow; and opening a file of two groups makes a number of groups out of the
    settings of the file, so the processes are divided differently. *)
Theorem C25_overflow_refuted : color 65536 65536 40000 = UB.
Proof. exact color_overflow. Qed.
Print Assumptions C25_overflow_refuted.
Theorem C25_reopen_refuted : let att := create_att 522 2 in open_config att = 522%Z /\
  map (group_id 4 (colors 4 2)) (seq 0 4) = [0;0;1;1] /\ map (group_id 4 (colors 4 (open_ngroup att))) (seq 0 4) = [0;1;2;3].
Proof. exact reopen_example. Qed.
Print Assumptions C25_reopen_refuted.
