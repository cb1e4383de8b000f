(** Properties of the log and of the metadata datasets: C11, C12, C13 (loading), C23.

    [run e (init cfg np f0) ops] executes the API calls [ops]; [flushes_of] (LogSpec.v) computes
    from the calls alone which flush has to store the data of which writes, and where the new log
    dataset is placed.  [shaped_history]: writes name existing datasets, have blocks of the
    dataset's rank, a positive number of data bytes, and metadata that fits a C int. *)
From Verif Require Import Base Spec MetaModel QueueModel FlushModel IndexModel SysModel History
  MergeModel LogSpec LogClaims LogClaims2 Examples LogExamples.
From Coq Require Import Permutation.

(** ** C23 Every queued write is flushed exactly once

    The file is what the flushes put there, in order: each flush stores the data of exactly the
    writes made since the previous one.  The number of waiting writes is as expected. *)
Theorem C23_flushed_once_partial : forall e cfg np f0 ops s outs,
  shaped_history (e_coll e) np ops ->
  Forall (fun f => 0 <= f_at f /\ f_at f + Zlen (f_bytes f) < 2 ^ 63) (fst (flushes_of (e_coll e) np ops)) ->
  run e (init cfg np f0) ops = Ok (s, outs) ->
  (forall x, g_file (s_g s) x = written f0 (fst (flushes_of (e_coll e) np ops)) x) /\
  pending_counts (s_g s) = map (@length (list Z)) (snd (flushes_of (e_coll e) np ops)).
Proof. exact flush_result. Qed.
Print Assumptions C23_flushed_once_partial.

(** After a flush nothing is waiting, and another flush does nothing. *)
Theorem C23_flush_twice_partial : forall e cfg np f0 ops s outs d1 d2 s1 o1,
  shaped_history (e_coll e) np ops ->
  Forall (fun f => 0 <= f_at f /\ f_at f + Zlen (f_bytes f) < 2 ^ 63)
    (fst (flushes_of (e_coll e) np (ops ++ [OFlush d1]))) ->
  run e (init cfg np f0) ops = Ok (s, outs) -> step e s (OFlush d1) = Ok (s1, o1) ->
  Forall (fun n => n = 0%nat) (pending_counts (s_g s1)) /\ step e s1 (OFlush d2) = Ok (s1, []).
Proof. exact flush_twice. Qed.
Print Assumptions C23_flush_twice_partial.
Example C23_applies : shaped_history (e_coll e_dflt) 2 h_full /\
  Forall (fun f => 0 <= f_at f /\ f_at f + Zlen (f_bytes f) < 2 ^ 63) (fst (flushes_of (e_coll e_dflt) 2 h_full)) /\
  flushes_of (e_coll e_dflt) 2 h_full = (flushes_full, [[];[];[]]) /\
  exists s outs, run e_dflt (init cfg_dflt 2 f_zero) h_full = Ok (s, outs).
Proof. exact (conj h_full_shaped (conj h_full_range (conj h_full_flushes h_full_runs))). Qed.

(** Missing: writes of no element.  When only such writes are waiting, they still wait after any
    number of flushes. *)
Theorem C23_flushed_once_refuted : exists s outs,
  run e_dflt (init cfg_dflt 1 f_zero)
    [OCreate dA; OWrite 0 0 [B [0;0] [0;3]] []; OFlush 100; OFlush 200] = Ok (s, outs) /\
  pending_counts (s_g s) = [1%nat].
Proof. exact zero_refuted. Qed.
Print Assumptions C23_flushed_once_refuted.

(** ** C11 Log extents never overlap

    The positions and lengths recorded for flushed writes (in the metadata datasets and in the
    queues) are, as a multiset, those of the writes laid out one behind the other from the start
    of their flush's log dataset.  So, when the log datasets do not overlap each other, no two
    recorded extents overlap, each lies inside the log dataset of a flush, and the file still
    holds at each extent the data of its write. *)
Theorem C11_extents_disjoint_partial : forall e cfg np f0 ops s outs,
  let fs := fst (flushes_of (e_coll e) np ops) in
  shaped_history (e_coll e) np ops ->
  Forall (fun f => 0 <= f_at f /\ f_at f + Zlen (f_bytes f) < 2 ^ 63) fs ->
  run e (init cfg np f0) ops = Ok (s, outs) ->
  Permutation (recorded (s_g s)) (map (fun p => (fst p, Zlen (snd p))) (flat_map f_places fs)) /\
  (ForallOrdPairs apart (map region fs) ->
   ForallOrdPairs apart (recorded (s_g s)) /\
   (forall a, In a (recorded (s_g s)) -> exists f, In f fs /\ inside_region a (region f)) /\
   (forall f q, In f fs -> In q (f_places f) ->
      get (g_file (s_g s)) (fst q) (length (snd q)) = snd q)).
Proof. exact extents_apart. Qed.
Print Assumptions C11_extents_disjoint_partial.
Example C11_applies : ForallOrdPairs apart (map region (fst (flushes_of true 2 h_full))).
Proof. exact h_full_apart. Qed.

(** Missing: histories with independent reads while writes wait.  The read stores the metadata of
    the waiting writes before they have a place in the log; every one is recorded at the start of
    the file. *)
Theorem C11_independent_refuted : exists s outs,
  run e_indep (init cfg_dflt 1 f_zero)
    [OCreate dA; OWrite 0 0 [B [0;0] [1;2]] [1;1;2;2]; OFlush 100; OWrite 0 0 [B [1;0] [1;2]] [3;3;4;4];
     OWrite 0 0 [B [2;0] [1;2]] [5;5;6;6]; ORead 0 [mkrcall 0 [B [0;0] [1;2]] 0 junk]] = Ok (s, outs) /\
  recorded (s_g s) = [(100, 4); (0, 4); (0, 4)].
Proof. exact indep_extents. Qed.
Print Assumptions C11_independent_refuted.

(** ** C12 Metadata sections tile the metadata dataset

    Every metadata dataset of a reachable file is a [layout] of sections made of whole entries;
    flushing the metadata adds one whose sections are the processes' entries in rank order, or
    none when no process has entries. *)
Theorem C12_sections_tile_partial : forall e cfg np f0 ops s outs,
  shaped_history (e_coll e) np ops ->
  Forall (fun f => 0 <= f_at f /\ f_at f + Zlen (f_bytes f) < 2 ^ 63) (fst (flushes_of (e_coll e) np ops)) ->
  run e (init cfg np f0) ops = Ok (s, outs) ->
  Forall (fun md => exists secs, md = layout secs /\ Forall whole_entries secs) (g_mdsets (s_g s)) /\
  let secs := map meta_bytes (g_ranks (s_g s)) in
  g_mdsets (metaflush (s_g s)) =
    g_mdsets (s_g s) ++ (if Zlen (concat secs) =? 0 then [] else [layout secs]).
Proof. exact sections_of. Qed.
Print Assumptions C12_sections_tile_partial.

(** The same for every history whose writes name existing datasets and have blocks of their rank:
    writes of no element, independent reads and overlapping log datasets included. *)
Theorem C12_sections_tile : forall e cfg np f0 ops s outs,
  regular [] ops -> run e (init cfg np f0) ops = Ok (s, outs) ->
  Forall (fun md => exists secs, md = layout secs /\ Forall whole_entries secs) (g_mdsets (s_g s)) /\
  let secs := map meta_bytes (g_ranks (s_g s)) in
  Forall whole_entries secs /\
  g_mdsets (metaflush (s_g s)) =
    g_mdsets (s_g s) ++ (if Zlen (concat secs) =? 0 then [] else [layout secs]).
Proof. exact sections_any. Qed.
Print Assumptions C12_sections_tile.
Example C12_tile_applies : regular [] h_odd /\ exists outs,
  match run e_indep (init cfg_dflt 1 f_zero) h_odd with
  | Ok (s, o) => o = outs /\ length (g_mdsets (s_g s)) = 1%nat /\
                 map (fun st => length (k_wreqs st)) (g_ranks (s_g s)) = [1%nat]
  | _ => False end.
Proof. exact h_odd_regular. Qed.

(** And for queues filled in any way with entries whose header gives their size, which those made
    from merged writes (the merge setting) are. *)
Theorem C12_any_queue : forall g, Forall (fun st => Forall announced (k_wreqs st)) (g_ranks g) ->
  let secs := map meta_bytes (g_ranks g) in
  Forall whole_entries secs /\
  g_mdsets (metaflush g) = g_mdsets g ++ (if Zlen (concat secs) =? 0 then [] else [layout secs]).
Proof. exact any_queue. Qed.
Print Assumptions C12_any_queue.
Theorem C12_merged_entries : forall ms w, In w (fst (merge_drain ms)) -> announced w.
Proof. exact merged_announced. Qed.
Print Assumptions C12_merged_entries.

(** In a [layout], the stored offsets bound the sections, which follow each other from the end of
    the header to the end of the dataset. *)
Theorem C12_layout : forall secs i sec, nth_error secs i = Some sec -> Zlen (layout secs) < 2 ^ 63 ->
  rd (layout secs) (section_start secs i) (length sec) = Some sec /\
  rd_i64 (layout secs) 0 = Some (Zlen secs) /\
  rd_i64 (layout secs) (8 * (Z.of_nat i + 1)) = Some (section_start secs (S i)) /\
  section_start secs (S i) = section_start secs i + Zlen sec /\
  section_start secs 0 = 8 * (Zlen secs + 1) /\ section_start secs (length secs) = Zlen (layout secs).
Proof. exact section_at. Qed.
Print Assumptions C12_layout.
Example C12_applies : let secs := [[1;2;3]; []; [4]] in
  nth_error secs 2 = Some [4] /\ Zlen (layout secs) = 36.
Proof. split; reflexivity. Qed.

(** ** C13 Loading with a bounded buffer

    Loading terminates after at most as many loads as there are sections; the buffers loaded hold
    consecutive groups of whole sections, every section of every dataset once and in order; a
    group of several sections is no larger than the limit. *)
Theorem C13_loads_each_section_once : forall limit ms,
  ms <> [] -> Forall (fun secs => secs <> [] /\ Zlen (layout secs) < 2 ^ 63) ms ->
  exists groups,
    loaded_parts (length (concat ms)) limit (map layout ms) 0 0 = Some (map (@concat Z) groups) /\
    concat groups = concat ms /\
    Forall (fun g => g <> [] /\ (length g = 1%nat \/ Zlen (concat g) <= limit)) groups.
Proof. exact parts_all. Qed.
Print Assumptions C13_loads_each_section_once.
Example C13_loads_applies : let ms := [[[1;2;3]; []; [4]]; [[5;6]]] in
  Forall (fun secs => secs <> [] /\ Zlen (layout secs) < 2 ^ 63) ms /\
  loaded_parts 4 3 (map layout ms) 0 0 = Some [[1;2;3];[4];[5;6]].
Proof. split; [repeat (apply Forall_cons; [split; [discriminate|reflexivity]|]); apply Forall_nil|vm_compute; reflexivity]. Qed.
