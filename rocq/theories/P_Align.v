(** Properties of the stripe-aligned write path. *)
From Verif Require Import Base AlignModel AlignSpec AlignProofs AlignClaims.

(** ** C43 Aligned writes store every byte once

    One process writes all its bytes, in order, each once, to places that do not overlap each
    other, for every stripe size, stripe count, target, offset and list of requests. *)
Theorem C43_own_bytes_partial : forall ssize scount target doff off segs, 0 < ssize -> 0 <= scount ->
  flat_map snd (ost_write ssize scount target doff off segs) = concat segs /\
  one_after_other (ost_write ssize scount target doff off segs).
Proof. exact ost_write_ok. Qed.
Print Assumptions C43_own_bytes_partial.
Example C43_own_bytes_applies :
  ost_write 4 2 1 100 3 [[1;2;3]; [4;5]; [6;7]] = [(107, [1]); (116, [2;3;4;5]); (128, [6;7])].
Proof. reflexivity. Qed.

(** Data that ends before the end of a stripe is written in one piece at the place of the logical
    offset on the target: stripe number off / ssize of the target, byte off mod ssize in it. *)
Theorem C43_within_stripe_partial : forall ssize scount target doff off segs, concat segs <> [] ->
  off mod ssize + Zlen (concat segs) < ssize ->
  ost_write ssize scount target doff off segs =
    [(doff + ssize * target + off / ssize * (ssize * scount) + off mod ssize, concat segs)].
Proof. exact within_stripe. Qed.
Print Assumptions C43_within_stripe_partial.

(** The position recorded in the metadata is the logical offset, never the place written to: the
    first byte of every non-empty flush is elsewhere. *)
Theorem C43_recorded_refuted : forall ssize scount target doff off segs,
  0 < ssize -> 1 <= scount -> 0 <= target -> 0 < doff -> 0 <= off -> concat segs <> [] ->
  exists w rest, ost_write ssize scount target doff off segs = w :: rest /\
    hd_error (align_recorded off segs) = Some off /\ off < fst w.
Proof. exact recorded_wrong. Qed.
Print Assumptions C43_recorded_refuted.

(** Two processes of a group, three stripes and one stripe: the second overwrites the first. *)
Theorem C43_overwritten_refuted :
  let w1 := ost_write 4 2 0 100 0 [[1;2;3;4;5;6;7;8;9;10;11;12]] in
  let w2 := ost_write 4 2 0 100 12 [[21;22;23;24]] in
  w1 = [(100, [1;2;3;4]); (112, [5;6;7;8]); (124, [9;10;11;12])] /\ w2 = [(124, [21;22;23;24])] /\
  get (after_writes (after_writes (fun _ => 0) w1) w2) 124 4 = [21;22;23;24].
Proof. exact overwritten. Qed.
Print Assumptions C43_overwritten_refuted.

(** Logical offsets of the processes: consecutive when at most two groups share a target, not for
    three. *)
Theorem C43_offsets_partial : forall node1 node2,
  concat (chain_offs 0 [node1; node2]) = group_offs 0 (node1 ++ node2).
Proof. exact two_nodes. Qed.
Print Assumptions C43_offsets_partial.
Theorem C43_offsets_refuted : concat (chain_offs 0 [[10]; [10]; [10]]) = [0; 10; 10].
Proof. exact three_nodes. Qed.
Print Assumptions C43_offsets_refuted.
