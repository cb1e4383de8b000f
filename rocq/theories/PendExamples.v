(** Examples and witnesses for pending reads and file views. *)
From Verif Require Import Base Spec MetaModel QueueModel FlushModel IndexModel ReadModel SysModel
  SysSpec History HistoryProofs SysCheck SortProofs StoreProofs PendModel PendSpec Examples.
From Coq Require Import ZifyNat ZifyN Permutation.

(** Three pending reads of two datasets into one memory. *)
Definition p_calls : list rcall :=
  [mkrcall 0 [B [0;0] [2;3]; B [3;4] [1;2]] 100 junk; mkrcall 1 [B [0;0] [9;4]] 0 junk;
   mkrcall 0 [B [1;3] [2;2]] 200 junk].
Definition p_bufs : list (list Z) :=
  match run e_dflt (init cfg_dflt 2 f_zero) h_pre with
  | Ok (s, _) => match step e_dflt s (ORead 1000 (map (with_mem junk) p_calls)) with Ok (_, b) => b | _ => [] end
  | _ => []
  end.

Lemma p_calls_ok : ok_history e_dflt cfg_dflt (mkconv (fun _ _ => false) (fun _ => 2)) 2 (h_pre ++ [ORead 1000 (map (with_mem junk) p_calls)]).
Proof. hist. Qed.
Lemma p_calls_apart : ForallOrdPairs apart_in_memory (combine p_calls p_bufs).
Proof.
  assert (E : p_bufs = ltac:(let b := eval vm_compute in p_bufs in exact b)) by (vm_compute; reflexivity). rewrite E. clear E.
  unfold p_calls, apart_in_memory. cbn [combine].
  repeat (apply FOP_cons; [repeat (apply Forall_cons; [vm_compute; intuition congruence|]); apply Forall_nil|]). apply FOP_nil.
Qed.
Definition share_b (x y : rcall) : bool :=
  negb (rc_did x =? rc_did y) ||
  forallb (fun c => negb (existsb (coord_eqb c) (sel_coords (rc_sels y)))) (sel_coords (rc_sels x)).
Lemma share_b_ok : forall x y, share_b x y = true -> no_common_element x y.
Proof.
  intros x y H E c H1 H2. unfold share_b in H. rewrite (proj2 (Z.eqb_eq _ _) E) in H. cbn [negb orb] in H. rewrite forallb_forall in H.
  specialize (H c H1). apply negb_true_iff in H. assert (existsb (coord_eqb c) (sel_coords (rc_sels y)) = true); [|congruence].
  apply existsb_exists. exists c. split; auto. apply coord_eqb_eq. reflexivity.
Qed.
Lemma p_calls_share : ForallOrdPairs no_common_element p_calls.
Proof.
  unfold p_calls.
  repeat (apply FOP_cons; [repeat (apply Forall_cons; [apply share_b_ok; vm_compute; reflexivity|]); apply Forall_nil|]). apply FOP_nil.
Qed.

(** Requests [0,10) and [7,9) of one written block of ten elements: the second receives elements
    8 and 9. *)
Definition d10 : dinfo := mkdinfo 1 [20] [20] [] None.
Definition h_nest : list op := [OCreate d10; OWrite 0 0 [B [0] [10]] (by_ 10 10)].
Definition nest_calls : list rcall := [mkrcall 0 [B [0] [10]] 0 junk; mkrcall 0 [B [7] [2]] 100 junk].
(** Requests [4,10) and [0,6), neither inside the other, of a written block [4,12). *)
Definition h_lap : list op := [OCreate d10; OWrite 0 0 [B [4] [8]] (by_ 10 8)].
Definition lap_calls : list rcall := [mkrcall 0 [B [4] [6]] 0 junk; mkrcall 0 [B [0] [6]] 100 junk].

Definition disturbed (ops : list op) (calls : list rcall) : Prop :=
  ok_history e_dflt cfg_dflt (mkconv (fun _ _ => false) (fun _ => 2)) 1 (ops ++ [ORead 100 (map (with_mem junk) calls)]) /\
  exists s outs s1 bufs s2 mem',
    run e_dflt (init cfg_dflt 1 f_zero) ops = Ok (s, outs) /\
    step e_dflt s (ORead 100 (map (with_mem junk) calls)) = Ok (s1, bufs) /\
    ForallOrdPairs apart_in_memory (combine calls bufs) /\
    flush_reads e_dflt s 100 junk calls = Ok (s2, mem') /\
    ~ Forall2 (fun c buf => get mem' (rc_buf c) (length buf) = buf) calls bufs.


Definition two_ways (ops : list op) (calls : list rcall) : option (list (list Z) * list Z) :=
  match run e_dflt (init cfg_dflt 1 f_zero) ops with
  | Ok (s, _) =>
      match step e_dflt s (ORead 100 (map (with_mem junk) calls)), flush_reads e_dflt s 100 junk calls with
      | Ok (_, bufs), Ok (_, mem') => Some (bufs, get mem' 100 (length (nth 1 bufs [])))
      | _, _ => None
      end
  | _ => None
  end.

Lemma two_ways_spec : forall ops calls bufs m, two_ways ops calls = Some (bufs, m) ->
  ForallOrdPairs apart_in_memory (combine calls bufs) ->
  (forall mem', get mem' 100 (length (nth 1 bufs [])) = m -> ~ Forall2 (fun c buf => get mem' (rc_buf c) (length buf) = buf) calls bufs) ->
  exists s outs s1 bufs s2 mem',
    run e_dflt (init cfg_dflt 1 f_zero) ops = Ok (s, outs) /\
    step e_dflt s (ORead 100 (map (with_mem junk) calls)) = Ok (s1, bufs) /\
    ForallOrdPairs apart_in_memory (combine calls bufs) /\
    flush_reads e_dflt s 100 junk calls = Ok (s2, mem') /\
    ~ Forall2 (fun c buf => get mem' (rc_buf c) (length buf) = buf) calls bufs.
Proof.
  intros ops calls bufs m H HA HN. unfold two_ways in H.
  destruct (run e_dflt (init cfg_dflt 1 f_zero) ops) as [[s outs]| |]; [|discriminate|discriminate].
  destruct (step e_dflt s (ORead 100 (map (with_mem junk) calls))) as [[s1 b]| |] eqn:E2; [|discriminate|discriminate].
  destruct (flush_reads e_dflt s 100 junk calls) as [[s2 mem']| |] eqn:E3; [|discriminate|discriminate].
  injection H as HB HM. subst b. exists s, outs, s1, bufs, s2, mem'. auto 10.
Qed.

Lemma nest_disturbed : disturbed h_nest nest_calls.
Proof.
  split; [hist|]. apply (two_ways_spec _ _ [[10;11;12;13;14;15;16;17;18;19]; [17; 18]] [18; 19]).
  - vm_compute. reflexivity.
  - unfold nest_calls, apart_in_memory. cbn [combine].
    repeat (apply FOP_cons; [repeat (apply Forall_cons; [vm_compute; intuition congruence|]); apply Forall_nil|]). apply FOP_nil.
  - intros mem' HM H. inversion H as [|? ? ? ? _ H2]; subst. inversion H2 as [|? ? ? ? H3 _]; subst. cbn [rc_buf length nth] in H3, HM.
    rewrite HM in H3. discriminate.
Qed.

Lemma lap_disturbed : disturbed h_lap lap_calls.
Proof.
  split; [hist|]. apply (two_ways_spec _ _ [[10;11;12;13;14;15]; [77; 77; 77; 77; 10; 11]] [77; 77; 77; 77; 14; 15]).
  - vm_compute. reflexivity.
  - unfold lap_calls, apart_in_memory. cbn [combine].
    repeat (apply FOP_cons; [repeat (apply Forall_cons; [vm_compute; intuition congruence|]); apply Forall_nil|]). apply FOP_nil.
  - intros mem' HM H. inversion H as [|? ? ? ? _ H2]; subst. inversion H2 as [|? ? ? ? H3 _]; subst. cbn [rc_buf length nth] in H3, HM.
    rewrite HM in H3. discriminate.
Qed.

(** ** File views *)

(** Pieces of two one-dimensional logged blocks, some overlapping. *)
Definition pc (foff n a c x : Z) : sret := mksret 2 1 foff 0 0 0 x [n] [a] [c] [0] [c].
Lemma pc_ok : forall foff n a c x, 0 <= a -> 0 < c -> a + c <= n -> c < 1000 -> piece_ok (pc foff n a c x).
Proof.
  intros foff n a c x H1 H2 H3 H4. unfold piece_ok. cbn [pc sr_esize sr_count sr_msize sr_mstart sr_dsize sr_dstart combine last length].
  split; [lia|]. split; [discriminate|]. split; [reflexivity|]. split; [reflexivity|]. split; [reflexivity|]. split; [|split; [reflexivity|lia]].
  apply Forall2_cons; [|apply Forall2_nil]. cbn [fst snd]. lia.
Qed.
Definition v_pieces : list sret := [pc 100 10 0 10 0; pc 100 10 7 2 50; pc 40 5 1 4 60; pc 100 10 3 6 70].
Lemma v_pieces_ok : Forall piece_ok v_pieces /\
  ForallOrdPairs (fun s t => blocks_apart s t \/ same_1d_block s t) v_pieces /\
  file_view isort v_pieces = map (fun i => 42 + i) (zseq 8) ++ map (fun i => 100 + i) (zseq 20).
Proof.
  split; [|split].
  - unfold v_pieces. repeat (apply Forall_cons; [apply pc_ok; lia|]). apply Forall_nil.
  - unfold v_pieces. repeat (apply FOP_cons; [repeat (apply Forall_cons; [unfold blocks_apart, same_1d_block, block_to, block_from, pc; cbn; first [left; lia | right; repeat split; reflexivity]|]); apply Forall_nil|]). apply FOP_nil.
  - vm_compute. reflexivity.
Qed.

(** A 10x10 block; one read selects column 0 and the elements (1,5) and (3,5). *)
Definition dM : dinfo := mkdinfo 1 [10;10] [10;10] [] None.
Definition h_mat : list op := [OCreate dM; OWrite 0 0 [B [0;0] [10;10]] (by_ 0 100); OFlush 100; ORead 300 [mkrcall 0 [B [0;0] [1;1]] 0 junk]].
Definition mat_sels : list block := [B [0;0] [10;1]; B [1;5] [1;1]; B [3;5] [1;1]].

Lemma legal_nth : forall l i j, legal_view l -> (i < j < length l)%nat -> nth i l 0 < nth j l 0.
Proof.
  intros l i j H. revert i j. induction H as [|x l H IH HF]; intros i j Hij; [cbn in Hij; lia|]. destruct j as [|j]; [lia|]. cbn in Hij.
  destruct i as [|i].
  - cbn. rewrite Forall_forall in HF. apply HF. apply nth_In. lia.
  - cbn. apply IH. lia.
Qed.

Definition view_back (ops : list op) (sels : list block) : bool :=
  match run e_dflt (init cfg_dflt 1 f_zero) ops with
  | Ok (s, _) =>
      match read_search (e_zlib e_dflt) (g_cfg (s_g s)) (g_infos (s_g s)) (e_kind e_dflt) (e_limit e_dflt) (g_mdsets (s_g s)) (s_idx s)
              [mkrreq 0 sels 0 1] with
      | Ok (u, _) => let v := file_view (e_sort e_dflt) u in (11 <? length v)%nat && (nth 11 v 0 <=? nth 10 v 0)
      | _ => false
      end
  | _ => false
  end.

Lemma view_back_spec : forall ops sels, view_back ops sels = true -> exists s outs u c,
  run e_dflt (init cfg_dflt 1 f_zero) ops = Ok (s, outs) /\
  read_search (e_zlib e_dflt) (g_cfg (s_g s)) (g_infos (s_g s)) (e_kind e_dflt) (e_limit e_dflt) (g_mdsets (s_g s)) (s_idx s)
    [mkrreq 0 sels 0 1] = Ok (u, c) /\
  ~ legal_view (file_view (e_sort e_dflt) u).
Proof.
  intros ops sels H. unfold view_back in H.
  destruct (run e_dflt (init cfg_dflt 1 f_zero) ops) as [[s outs]| |]; [|discriminate|discriminate].
  destruct (read_search (e_zlib e_dflt) (g_cfg (s_g s)) (g_infos (s_g s)) (e_kind e_dflt) (e_limit e_dflt) (g_mdsets (s_g s)) (s_idx s)
    [mkrreq 0 sels 0 1]) as [[u c]| |] eqn:E2; [|discriminate|discriminate].
  apply andb_prop in H. destruct H as [HV1 HV2]. apply Nat.ltb_lt in HV1. apply Z.leb_le in HV2.
  exists s, outs, u, c. split; [reflexivity|]. split; [exact E2|]. intros H.
  pose proof (legal_nth _ 10 11 H ltac:(lia)). lia.
Qed.
Lemma view_illegal : exists s outs u c,
  legal_history true 1 (h_mat ++ [ORead 300 [mkrcall 0 mat_sels 0 junk]]) /\ ForallOrdPairs disjoint_blocks mat_sels /\
  run e_dflt (init cfg_dflt 1 f_zero) h_mat = Ok (s, outs) /\
  read_search (e_zlib e_dflt) (g_cfg (s_g s)) (g_infos (s_g s)) (e_kind e_dflt) (e_limit e_dflt) (g_mdsets (s_g s)) (s_idx s)
    [mkrreq 0 mat_sels 0 1] = Ok (u, c) /\
  ~ legal_view (file_view (e_sort e_dflt) u).
Proof.
  destruct (view_back_spec h_mat mat_sels ltac:(vm_compute; reflexivity)) as (s & outs & u & c & H1 & H2 & H3).
  exists s, outs, u, c. split; [legal|]. split; [|auto].
  unfold mat_sels, disjoint_blocks, in_block. repeat (apply FOP_cons; [repeat (apply Forall_cons; [intros [|x [|y [|z c']]]; cbn; lia|]); apply Forall_nil|]). apply FOP_nil.
Qed.

(** ** sortoffsets *)
Definition rows20 : list row := map (fun i => mkrow ((i * 7) mod 20) i (i + 1)) (zseq 20).
Lemma rows20_sorted : sortoffsets 21 rows20 <> rows20 /\ map ro_f (sortoffsets 21 rows20) = zseq 20.
Proof. split; vm_compute; [discriminate|reflexivity]. Qed.
