(** Properties of the replay utility. *)
From Verif Require Import Base MetaModel LogSpec ReplayModel ReplaySpec ReplayProofs ReplayClaims.

(** ** C40 Replay distributes every metadata section exactly once

    [replay_meta share r np md] are the positions of the entries of the metadata dataset that
    process r of np takes.  When there are at least as many sections as processes, no process fails
    and together they take every entry of every section once, in the order of the dataset. *)
Theorem C40_once_partial : forall share secs np, Forall (Forall entry_ok) secs -> Zlen (meta_dataset secs) < 2 ^ 31 ->
  1 <= np <= Zlen secs ->
  exists parts, map (fun r => replay_meta share r np (meta_dataset secs)) (zseq np) = map Ok parts /\
    concat parts = all_positions secs /\ NoDup (concat parts).
Proof. exact once. Qed.
Print Assumptions C40_once_partial.
Example C40_once_applies : Forall (Forall entry_ok) ex_secs /\ Zlen (meta_dataset ex_secs) = 118 /\
  all_positions ex_secs = [32; 60; 90] /\
  map (fun r => replay_meta true r 2 (meta_dataset ex_secs)) (zseq 2) = [Ok [32; 60]; Ok [90]].
Proof. exact once_applies. Qed.

(** With fewer sections than processes and without metadata sharing every entry is taken by at
    least one process. *)
Theorem C40_covered_partial : forall secs np, Forall (Forall entry_ok) secs -> Zlen (meta_dataset secs) < 2 ^ 31 ->
  1 <= Zlen secs < np ->
  (forall r, 0 <= r < np -> exists l, replay_meta false r np (meta_dataset secs) = Ok l) /\
  forall x, In x (all_positions secs) ->
    exists r l, 0 <= r < np /\ replay_meta false r np (meta_dataset secs) = Ok l /\ In x l.
Proof. exact replay_covers. Qed.
Print Assumptions C40_covered_partial.
Example C40_covered_applies : Forall (Forall entry_ok) ex_secs /\ Zlen ex_secs = 3 /\
  replay_meta false 1 5 (meta_dataset ex_secs) = Ok [32; 60].
Proof. split; [exact (proj1 once_applies)|]. split; vm_compute; reflexivity. Qed.

(** But several processes may take all of it, and with metadata sharing (the default) some entries
    are taken by no process. *)
Theorem C40_twice_refuted : exists secs, Forall (Forall entry_ok) secs /\
  forall share, replay_meta share 0 2 (meta_dataset secs) = Ok (all_positions secs) /\
  replay_meta share 1 2 (meta_dataset secs) = Ok (all_positions secs) /\ all_positions secs <> [].
Proof. exact twice_refuted. Qed.
Print Assumptions C40_twice_refuted.
Theorem C40_missed_refuted : exists secs x, Forall (Forall entry_ok) secs /\ In x (all_positions secs) /\
  forall r l, 0 <= r < 3 -> replay_meta true r 3 (meta_dataset secs) = Ok l -> ~ In x l.
Proof. exact missed_refuted. Qed.
Print Assumptions C40_missed_refuted.
