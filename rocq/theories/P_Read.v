(** Properties of reads: C17 (pending reads), C18 (file view), C39 (sorting of rows). *)
From Verif Require Import Base Spec MetaModel QueueModel FlushModel IndexModel ReadModel SysModel
  SysSpec History PendModel PendSpec SortProofs ViewProofs PendClaims HistoryProofs Examples PendExamples TameSpec TameMoreClaims.
From Coq Require Import Permutation.

(** ** C17 Pending reads do not disturb each other

    [flush_reads] serves the queue [calls] of pending reads in one go; [step … (ORead …)] with the
    same calls executes them one by one.  After any legal history, each buffer holds what the read
    returns when it is executed alone, and no other byte of memory changes.  Assumed: buffers do
    not overlap and no element is requested twice. *)
Theorem C17_pending_reads_partial : forall e cfg cv np f0 ops doff calls mem,
  e_coll e = true ->
  ok_history e cfg cv np (ops ++ [ORead doff (map (with_mem mem) calls)]) ->
  exists s outs s1 bufs,
    run e (init cfg np f0) ops = Ok (s, outs) /\
    step e s (ORead doff (map (with_mem mem) calls)) = Ok (s1, bufs) /\
    (ForallOrdPairs apart_in_memory (combine calls bufs) -> ForallOrdPairs no_common_element calls ->
     exists s2 mem', flush_reads e s doff mem calls = Ok (s2, mem') /\
       Forall2 (fun c buf => get mem' (rc_buf c) (length buf) = buf) calls bufs /\
       (forall a, (forall c buf, In (c, buf) (combine calls bufs) -> a < rc_buf c \/ rc_buf c + Zlen buf <= a) ->
          mem' a = mem a)).
Proof. exact pending_reads. Qed.
Print Assumptions C17_pending_reads_partial.
Example C17_applies : e_coll e_dflt = true /\
  ok_history e_dflt cfg_dflt (mkconv (fun _ _ => false) (fun _ => 2)) 2 (h_pre ++ [ORead 1000 (map (with_mem junk) p_calls)]) /\
  ForallOrdPairs apart_in_memory (combine p_calls p_bufs) /\ ForallOrdPairs no_common_element p_calls.
Proof. exact (conj eq_refl (conj p_calls_ok (conj p_calls_apart p_calls_share))). Qed.

(** The same for tame histories (TameSpec.v), with either index and any limit of the metadata buffer. *)
Theorem C17_tame_partial : forall e cfg np f0 ops doff calls mem,
  tame e cfg np (ops ++ [ORead doff (map (with_mem mem) calls)]) ->
  exists s outs s1 bufs,
    run e (init cfg np f0) ops = Ok (s, outs) /\
    step e s (ORead doff (map (with_mem mem) calls)) = Ok (s1, bufs) /\
    (ForallOrdPairs apart_in_memory (combine calls bufs) -> ForallOrdPairs no_common_element calls ->
     exists s2 mem', flush_reads e s doff mem calls = Ok (s2, mem') /\
       Forall2 (fun c buf => get mem' (rc_buf c) (length buf) = buf) calls bufs /\
       (forall a, (forall c buf, In (c, buf) (combine calls bufs) -> a < rc_buf c \/ rc_buf c + Zlen buf <= a) ->
          mem' a = mem a)).
Proof. exact pending_reads_tame. Qed.
Print Assumptions C17_tame_partial.
Example C17_tame_applies : tame e_dflt cfg_dflt 2 (h_pre ++ [ORead 1000 (map (with_mem junk) p_calls)]) /\ tame e_arr cfg_dflt 2 (h_pre ++ [ORead 1000 (map (with_mem junk) p_calls)]) /\
  tame e_small cfg_dflt 2 (h_pre ++ [ORead 1000 (map (with_mem junk) p_calls)]).
Proof. exact p_calls_tame. Qed.

(** Without the last assumption the property is false: when a request lies inside another one, and
    when two requests merely overlap, one of them receives the bytes of other elements. *)
Theorem C17_pending_reads_refuted :
  (exists ops calls, disturbed ops calls) /\ disturbed h_lap lap_calls.
Proof. exact (conj (ex_intro _ h_nest (ex_intro _ nest_calls nest_disturbed)) lap_disturbed). Qed.
Print Assumptions C17_pending_reads_refuted.

(** ** C18 The file view is a legal MPI filetype

    For every list of pieces of which any two belong to different logged blocks, or to the same
    one-dimensional one (where they may overlap or be nested). *)
Theorem C18_file_view_partial : forall sort blocks, is_sort sort -> Forall piece_ok blocks ->
  ForallOrdPairs (fun s t => blocks_apart s t \/ same_1d_block s t) blocks ->
  legal_view (file_view sort blocks).
Proof. exact view_legal. Qed.
Print Assumptions C18_file_view_partial.
Example C18_applies : is_sort isort /\ Forall piece_ok v_pieces /\
  ForallOrdPairs (fun s t => blocks_apart s t \/ same_1d_block s t) v_pieces /\
  file_view isort v_pieces = map (fun i => 42 + i) (zseq 8) ++ map (fun i => 100 + i) (zseq 20).
Proof. exact (conj isort_is_sort v_pieces_ok). Qed.

(** Missing: several pieces of one logged block in two or more dimensions.  There the property is
    false: a legal read of three disjoint regions of a written block produces a view that goes
    backwards. *)
Theorem C18_file_view_refuted : exists s outs u c,
  legal_history true 1 (h_mat ++ [ORead 300 [mkrcall 0 mat_sels 0 junk]]) /\ ForallOrdPairs disjoint_blocks mat_sels /\
  run e_dflt (init cfg_dflt 1 f_zero) h_mat = Ok (s, outs) /\
  read_search (e_zlib e_dflt) (g_cfg (s_g s)) (g_infos (s_g s)) (e_kind e_dflt) (e_limit e_dflt) (g_mdsets (s_g s)) (s_idx s)
    [mkrreq 0 mat_sels 0 1] = Ok (u, c) /\
  ~ legal_view (file_view (e_sort e_dflt) u).
Proof. exact view_illegal. Qed.
Print Assumptions C18_file_view_refuted.

(** ** C39 Rows are sorted by file offset and stay whole

    A row is the triple of file offset, memory address and length. *)
Theorem C39_sorted_permutation : forall l : list row,
  StronglySorted (fun a b => ro_f a <= ro_f b) (sortoffsets (S (length l)) l) /\
  Permutation l (sortoffsets (S (length l)) l).
Proof. exact (fun l => sortoffsets_ok (S (length l)) l (Nat.lt_succ_diag_r (length l))). Qed.
Print Assumptions C39_sorted_permutation.
Example C39_example : sortoffsets 21 rows20 <> rows20 /\ map ro_f (sortoffsets 21 rows20) = zseq 20.
Proof. exact rows20_sorted. Qed.
