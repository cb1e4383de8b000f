(** C17 Reads served together: overlapping requests.

    [perform_read] (ReadModel.v) serves all pieces found for the pending requests; a row of a piece asks for [ro_len]
    bytes of the file from [ro_f] on, to be put at [ro_m] ([rows_of]).  P_Read.v has the statement for whole histories,
    for requests that share no element. *)
From Verif Require Import Base Spec MetaModel QueueModel FlushModel IndexModel ReadModel PendSpec OverlapSpec OverlapClaims.

(** Requests may overlap: as long as no row lies inside another one, each row receives its bytes of the file, whatever
    the number of rows, and no other byte of memory changes.  Partial: see the refutation. *)
Theorem C17_overlapping_rows_partial : forall sort file mem blocks, is_sort sort -> Forall piece_ok blocks ->
  let rows := flat_map rows_of blocks in not_inside rows -> ForallOrdPairs memory_apart rows ->
  (forall r, In r rows -> get (perform_read sort file mem blocks) (ro_m r) (Z.to_nat (ro_len r)) = get file (ro_f r) (Z.to_nat (ro_len r))) /\
  (forall x, (forall r, In r rows -> ~ in_memory r x) -> perform_read sort file mem blocks x = mem x).
Proof. exact overlapping_pieces. Qed.
Print Assumptions C17_overlapping_rows_partial.
(** Three reads of a block of ten elements that overlap in turn. *)
Example C17_overlapping_applies : Forall piece_ok three_reads /\ not_inside (flat_map rows_of three_reads) /\ ForallOrdPairs memory_apart (flat_map rows_of three_reads) /\
  exists mem', mem' = perform_read isort f_ten (fun _ => 77) three_reads /\ get mem' 0 5 = [0;1;2;3;77] /\ get mem' 10 5 = [2;3;4;5;6] /\ get mem' 20 5 = [5;6;7;8;77].
Proof. exact three_ok. Qed.

(** Refuted for every pair of nested requests: of two reads of the same block, [p] elements from [a] on and [q] elements
    from [b] on, the second inside the first, the second always receives the last [q] elements of the first. *)
Theorem C17_nested_reads_refuted : forall sort file mem foff es n a p m b q m' blocks, is_sort sort -> 0 < es ->
  0 <= a -> a < b -> 0 < q -> b + q < a + p -> a + p <= n -> p * es < 2 ^ 31 ->
  m + p * es <= m' \/ m' + q * es <= m ->
  blocks = [line foff es n a p m; line foff es n b q m'] \/ blocks = [line foff es n b q m'; line foff es n a p m] ->
  let mem' := perform_read sort file mem blocks in
  get mem' m (Z.to_nat (p * es)) = get file (foff + es * a) (Z.to_nat (p * es)) /\
  get mem' m' (Z.to_nat (q * es)) = get file (foff + es * (a + p - q)) (Z.to_nat (q * es)).
Proof. exact nested_lines. Qed.
Print Assumptions C17_nested_reads_refuted.
Example C17_nested_example : let mem' := perform_read isort f_ten (fun _ => 77) [line 100 1 10 0 10 0; line 100 1 10 2 3 20] in
  get mem' 0 10 = [0;1;2;3;4;5;6;7;8;9] /\ get mem' 20 4 = [7;8;9;77].
Proof. exact nested_ex. Qed.
