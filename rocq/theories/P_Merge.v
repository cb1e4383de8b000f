(** Properties of metadata merging.

    [merge_writes] performs a list of writes (dataset, blocks, data) of one process between two
    flushes, [queued] are the entries it then adds to the metadata log, [merge_rounds] performs
    several such lists, each followed by a flush, [decode] is what a reader makes of an entry. *)
From Verif Require Import Base Spec MetaModel LocalSpec MergeModel MergeSpec MergeClaims MetaExamples.

(** ** C22 Metadata merging never changes results

    Proved when every dataset is written at most once between two flushes, without compression,
    and without selection encoding or in one dimension: whatever the rounds of writes, every
    flush adds one entry per write of its round and no other entry, with the data of the write,
    and readers recover the blocks of the write. *)
Theorem C22_once_each_partial : forall z cfg infos rounds,
  Z.lxor cfg CFG_METADATA_MERGE <> 0 -> has cfg CFG_SEL_DEFLATE = false ->
  Forall (round_ok cfg infos) rounds ->
  exists qs, merge_rounds cfg infos (repeat None (length infos)) rounds = Ok qs /\
    Forall2 (entries_of z infos) rounds qs.
Proof. exact rounds_once. Qed.
Print Assumptions C22_once_each_partial.
Example C22_once_each_applies :
  let ws := [(1, ([mkblock [1;2] [1;2]; mkblock [3;0] [1;1]], [1;2;3])); (0, ([mkblock [0;0] [1;1]], [9]))] in
  let ws' := [(1, ([mkblock [1;2] [1;2]], [4;5]))] in
  Z.lxor 9 CFG_METADATA_MERGE <> 0 /\ has 9 CFG_SEL_DEFLATE = false /\
  Forall (round_ok 9 [Some m_d2; Some m_d2]) [ws; []; ws'].
Proof. exact rounds_apply. Qed.

(** Two one-block writes to the same dataset are read back only when the second block happens to
    start at the coordinates that are the size of the first. *)
Theorem C22_twice_refuted : forall z cfg infos did d a b da db,
  Z.lxor cfg CFG_METADATA_MERGE <> 0 -> has cfg CFG_SEL_DEFLATE = false ->
  (has cfg CFG_SEL_ENCODE = false \/ (di_ndim d <= 1)%nat) ->
  0 <= did < 2 ^ 31 -> nth_error infos (Z.to_nat did) = Some (Some d) ->
  well_shaped (di_ndim d) a -> well_shaped (di_ndim d) b -> coordinate (Zlen (da ++ db)) ->
  exists ms w, merge_writes cfg infos (repeat None (length infos)) [(did, ([a], da)); (did, ([b], db))] = Ok ms /\
    In w (queued ms) /\ w_data w = da ++ db /\
    forall foff pre post, coordinate foff -> Zlen (wreq_bytes w) < 2 ^ 31 ->
      exists m, decode z d (pre ++ wreq_bytes (published w foff (Zlen (da ++ db))) ++ post) (Zlen pre) = Ok m /\
        (describes m did foff (Zlen (da ++ db)) (di_esize d) [a; b] <-> b_count a = b_start b).
Proof. exact twice. Qed.
Print Assumptions C22_twice_refuted.

(** The default settings with merging turned on: a single one-block write of a 4x4 array is not
    read back. *)
Theorem C22_encoded_refuted : exists z d b ms w m,
  described d /\ well_shaped (di_ndim d) b /\ in_array (di_dims d) b /\
  merge_writes 11 [Some d] [None] [(0, ([b], [1; 2]))] = Ok ms /\ queued ms = [w] /\
  decode z d (wreq_bytes (published w 100 2)) 0 = Ok m /\
  ~ describes m 0 100 2 (di_esize d) [b].
Proof. exact encoded_refuted. Qed.
Print Assumptions C22_encoded_refuted.

(** With merging as the only setting every write uses indeterminate values. *)
Theorem C22_only_bit_refuted : forall infos ms did sels data, sels <> [] ->
  merge_write CFG_METADATA_MERGE infos ms did sels data = UB.
Proof. exact only_bit. Qed.
Print Assumptions C22_only_bit_refuted.
