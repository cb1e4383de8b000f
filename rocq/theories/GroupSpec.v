(** Specification of the division of processes into groups. *)
From Verif Require Import Base.

(** The [n] groups [0 .. n-1] partition the processes [0 .. np-1]: every process has one, none is
    empty. *)
Definition partition (np n : nat) (gid : nat -> nat) : Prop :=
  (forall r, (r < np)%nat -> (gid r < n)%nat) /\ (forall g, (g < n)%nat -> exists r, (r < np)%nat /\ gid r = g).

(** Each group is a range of ranks, and sizes differ by at most one. *)
Definition balanced_ranges (np n : nat) (gid : nat -> nat) : Prop :=
  exists b : nat -> nat, b O = O /\ b n = np /\
    (forall g r, (g < n)%nat -> (r < np)%nat -> (gid r = g <-> (b g <= r < b (S g))%nat)) /\
    (forall g h, (g < n)%nat -> (h < n)%nat -> (0 < b (S g) - b g)%nat /\ (b (S g) - b g <= b (S h) - b h + 1)%nat).
