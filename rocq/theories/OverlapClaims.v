(** What P_Overlap states. *)
From Verif Require Import Base BaseProofs Spec MetaModel QueueModel FlushModel IndexModel ReadModel SortProofs ReadProofs PendSpec ViewProofs OverlapSpec OverlapProofs.
From Coq Require Import ZifyNat ZifyN Permutation Sorting.Sorted.

Theorem overlapping_pieces : forall sort file mem blocks, is_sort sort -> Forall piece_ok blocks -> let rows := flat_map rows_of blocks in
  not_inside rows -> ForallOrdPairs memory_apart rows ->
  (forall r, In r rows -> get (perform_read sort file mem blocks) (ro_m r) (Z.to_nat (ro_len r)) = get file (ro_f r) (Z.to_nat (ro_len r))) /\
  (forall x, (forall r, In r rows -> ~ in_memory r x) -> perform_read sort file mem blocks x = mem x).
Proof. intros sort file mem blocks Hs H. apply overlapping_blocks; auto. eapply Forall_impl; [|exact H]. apply piece_sr_ok. Qed.

Lemma line_rows : forall foff es n a p m, 0 < p -> 0 < es -> p * es < 2 ^ 31 -> rows_of (line foff es n a p m) = [mkrow (foff + es * a) m (p * es)].
Proof.
  intros foff es n a p m Hp He Hl. unfold rows_of, line, sr_key, lin. cbn [sr_count ctrs sr_esize sr_dsize sr_dstart sr_msize sr_mstart sr_foff sr_doff sr_xbuf last].
  destruct (Z.ltb_spec 0 p); [|lia]. cbn [map addv]. rewrite i32_id by nia. cbn [dsteps_of sel_encode]. f_equal. f_equal; ring.
Qed.

Lemma sort_two : forall sort x y, is_sort sort -> sr_lt x y = true -> sort [x; y] = [x; y] /\ sort [y; x] = [x; y].
Proof.
  intros sort x y Hs L.
  assert (H : forall l, Permutation [x; y] l -> StronglySorted (fun a b => sr_lt b a = false) l -> l = [x; y]).
  { intros l P S0. apply Permutation_length_2_inv in P. destruct P as [->| ->]; auto. inversion S0 as [|? ? _ F]; subst. inversion F; congruence. }
  split; apply H; try apply Hs. eapply perm_trans; [apply perm_swap|]. apply Hs.
Qed.

Theorem nested_lines : forall sort file mem foff es n a p m b q m' blocks, is_sort sort -> 0 < es -> 0 <= a -> a < b -> 0 < q -> b + q < a + p -> a + p <= n -> p * es < 2 ^ 31 ->
  m + p * es <= m' \/ m' + q * es <= m -> blocks = [line foff es n a p m; line foff es n b q m'] \/ blocks = [line foff es n b q m'; line foff es n a p m] ->
  let mem' := perform_read sort file mem blocks in
  get mem' m (Z.to_nat (p * es)) = get file (foff + es * a) (Z.to_nat (p * es)) /\
  get mem' m' (Z.to_nat (q * es)) = get file (foff + es * (a + p - q)) (Z.to_nat (q * es)).
Proof.
  intros sort file mem foff es n a p m b q m' blocks Hs He Ha Hab Hq Hn Hp Hl Hm Hb.
  assert (L : sr_lt (line foff es n a p m) (line foff es n b q m') = true).
  { unfold sr_lt, line, sr_key. cbn [sr_foff sr_doff sr_dstart lex_lt]. rewrite Z.ltb_irrefl. destruct (Z.ltb_spec a b); [reflexivity|lia]. }
  assert (E : sort blocks = [line foff es n a p m; line foff es n b q m']) by (destruct (sort_two sort _ _ Hs L); destruct Hb as [->| ->]; auto).
  cbv zeta. unfold perform_read, gen_rtypes. rewrite E. cbn [groups groups_from].
  assert (I0 : (sr_foff (line foff es n a p m) =? sr_foff (line foff es n b q m')) && (sr_doff (line foff es n a p m) =? sr_doff (line foff es n b q m')) &&
    interleve (sr_dstart (line foff es n a p m)) (sr_count (line foff es n a p m)) (sr_dstart (line foff es n b q m')) = true).
  { unfold line. cbn [sr_foff sr_doff sr_dstart sr_count interleve]. rewrite !Z.eqb_refl. cbn [andb]. destruct (Z.ltb_spec (a + p - 1) b); [lia|]. destruct (Z.ltb_spec b (a + p - 1)); [reflexivity|lia]. }
  rewrite I0. cbn [rev app map flat_map]. unfold group_rtype. cbn [flat_map]. rewrite !line_rows by nia. cbn [app length].
  set (k := mkrow (foff + es * a) m (p * es)). set (l := mkrow (foff + es * b) m' (q * es)).
  assert (SO : sortoffsets 3 [k; l] = [k; l]).
  { unfold sortoffsets. cbn [length Nat.ltb Nat.leb bubble bubble_pass bubble_from]. unfold k, l. cbn [ro_f]. destruct (Z.ltb_spec (foff + es * b) (foff + es * a)); [nia|reflexivity]. }
  rewrite SO. pose proof (nested_row file mem k l) as NR. pose proof (nested_first file mem k l) as NF. unfold deliver in NR, NF. cbn [length] in NR, NF. destruct (trim 2 [k; l]) as [rs cs]. cbn [fst snd] in *. rewrite !app_nil_r.
  unfold row_end, memory_apart in NR, NF. unfold k, l in *. cbn [ro_f ro_m ro_len] in *. rewrite NR, NF by nia. split; [reflexivity|]. f_equal. ring.
Qed.

(** Examples. *)
Definition f_ten (a : Z) : Z := if (100 <=? a) && (a <? 110) then a - 100 else 0.
Definition three_reads : list sret := [line 100 1 10 5 4 20; line 100 1 10 0 4 0; line 100 1 10 2 5 10].
Lemma three_ok : Forall piece_ok three_reads /\ not_inside (flat_map rows_of three_reads) /\ ForallOrdPairs memory_apart (flat_map rows_of three_reads) /\
  exists mem', mem' = perform_read isort f_ten (fun _ => 77) three_reads /\ get mem' 0 5 = [0;1;2;3;77] /\ get mem' 10 5 = [2;3;4;5;6] /\ get mem' 20 5 = [5;6;7;8;77].
Proof.
  split; [|split; [|split]].
  - unfold three_reads, line. repeat (apply Forall_cons || apply Forall_nil); unfold piece_ok; cbn; repeat split; try lia; try discriminate; repeat (apply Forall2_cons || apply Forall2_nil); cbn; lia.
  - vm_compute flat_map. intros x y Hx Hy. cbn [In] in *. unfold row_end. repeat (destruct Hx as [<-|Hx]); try contradiction; repeat (destruct Hy as [<-|Hy]); try contradiction; cbn [ro_f ro_len]; lia.
  - vm_compute flat_map. unfold memory_apart. constructor; [repeat (apply Forall_cons || apply Forall_nil); cbn; lia|]. constructor; [repeat (apply Forall_cons || apply Forall_nil); cbn; lia|]. constructor; [apply Forall_nil|constructor].
  - eexists. split; [reflexivity|]. vm_compute. repeat split.
Qed.
Lemma nested_ex : let mem' := perform_read isort f_ten (fun _ => 77) [line 100 1 10 0 10 0; line 100 1 10 2 3 20] in get mem' 0 10 = [0;1;2;3;4;5;6;7;8;9] /\ get mem' 20 4 = [7;8;9;77].
Proof. vm_compute. split; reflexivity. Qed.
