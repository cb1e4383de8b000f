(** Properties of whole files: C01, C02, C03, C07, C08, C13, C21, C31, C32, C33, C34, C37, C42.

    [run e (init cfg np f0) ops] executes the API calls [ops] in the model of the connector and
    returns what every read delivers.  What a user expects is defined in History.v.  The
    restrictions on histories ([ok_history]) are in SysSpec.v. *)
From Verif Require Import Base Spec MetaModel QueueModel FlushModel IndexModel ReadModel SysModel
  SysSpec History HistoryProofs ClaimProofs SysCheck Examples ClaimProofs2 SizedProofs DefSpec DefProofs LimitClaims ScalarClaims.

(** ** C01 Read returns the last write *)

(** Every read of a one-process history: element [k] of the returned buffer, at coordinate [x],
    is the value given to [x] by the last write in program order; [expected] also covers
    elements never written (C02).
    Missing from the full property: the histories excluded by [ok_history] (refuted below). *)
Theorem C01_read_returns_last_write_partial : forall e cfg cv f0 ops,
  e_coll e = true -> Forall one_process ops -> ok_history e cfg cv 1 ops ->
  exists s outs, run e (init cfg 1 f0) ops = Ok (s, outs) /\ length outs = length ops /\
    forall i doff calls, nth_error ops i = Some (ORead doff calls) ->
      exists bufs, nth_error outs i = Some bufs /\
        Forall2 (fun c buf => exists d,
          nth_error (t_sets (trace_of true 1 (firstn i ops))) (Z.to_nat (rc_did c)) = Some d /\
          length (elems (di_esize d) buf) = length (sel_coords (rc_sels c)) /\
          forall k x, nth_error (sel_coords (rc_sels c)) k = Some x ->
            nth_error (elems (di_esize d) buf) k
              = Some (expected (program_order [] (firstn i ops)) d c k x)) calls bufs.
Proof. exact one_process_reads. Qed.
Print Assumptions C01_read_returns_last_write_partial.
Example C01_partial_applies : e_coll e_dflt = true /\ Forall one_process h_one /\
  ok_history e_dflt cfg_dflt (mkconv (fun _ _ => false) (fun _ => 2)) 1 h_one.
Proof. split; [reflexivity|]. split; [repeat constructor|exact h_one_ok]. Qed.

(** With datasets of fixed shape and one block per call there is no restriction left: every
    legal history is covered, in every plain configuration, with both indexes. *)
Theorem C01_fixed_shape : forall e cfg f0 ops,
  e_coll e = true -> e_limit e = None -> is_sort (e_sort e) -> plain_cfg cfg ->
  Forall one_process ops -> Forall simple_op ops -> legal_history true 1 ops ->
  exists s outs, run e (init cfg 1 f0) ops = Ok (s, outs) /\ length outs = length ops /\
    forall i doff calls, nth_error ops i = Some (ORead doff calls) ->
      exists bufs, nth_error outs i = Some bufs /\
        Forall2 (fun c buf => exists d,
          nth_error (t_sets (trace_of true 1 (firstn i ops))) (Z.to_nat (rc_did c)) = Some d /\
          length (elems (di_esize d) buf) = length (sel_coords (rc_sels c)) /\
          forall k x, nth_error (sel_coords (rc_sels c)) k = Some x ->
            nth_error (elems (di_esize d) buf) k
              = Some (expected (program_order [] (firstn i ops)) d c k x)) calls bufs.
Proof. exact simple_reads. Qed.
Print Assumptions C01_fixed_shape.
Example C01_fixed_shape_applies : Forall one_process h_simple /\ Forall simple_op h_simple /\
  legal_history true 1 h_simple.
Proof. exact h_simple_ok. Qed.

(** With selections stored as coordinates and not shared ([CFG_SEL_ENCODE] and
    [CFG_METADATA_SHARE] off) every legal history is covered, of several blocks per call, with
    extensible datasets; only sizes are bounded ([sized_history]). *)
Theorem C01_coordinates : forall e cfg f0 ops,
  e_coll e = true -> e_limit e = None -> is_sort (e_sort e) -> plain_cfg cfg ->
  has cfg CFG_SEL_ENCODE = false -> has cfg CFG_METADATA_SHARE = false ->
  Forall one_process ops -> legal_history true 1 ops -> sized_history true 1 ops ->
  exists s outs, run e (init cfg 1 f0) ops = Ok (s, outs) /\ length outs = length ops /\
    forall i doff calls, nth_error ops i = Some (ORead doff calls) ->
      exists bufs, nth_error outs i = Some bufs /\
        Forall2 (fun c buf => exists d,
          nth_error (t_sets (trace_of true 1 (firstn i ops))) (Z.to_nat (rc_did c)) = Some d /\
          length (elems (di_esize d) buf) = length (sel_coords (rc_sels c)) /\
          forall k x, nth_error (sel_coords (rc_sels c)) k = Some x ->
            nth_error (elems (di_esize d) buf) k
              = Some (expected (program_order [] (firstn i ops)) d c k x)) calls bufs.
Proof. exact coordinate_reads. Qed.
Print Assumptions C01_coordinates.
Example C01_coordinates_applies : Forall one_process h_one /\ legal_history true 1 h_one /\ sized_history true 1 h_one /\
  plain_cfg 4 /\ has 4 CFG_SEL_ENCODE = false /\ has 4 CFG_METADATA_SHARE = false.
Proof. exact h_one_sized. Qed.

(** With the default settings: encoded selections, shared metadata, compact index (and in every other
    plain configuration with the compact index).  [default_history] (DefSpec.v): writes of several
    blocks consist of blocks shorter than the dataset in every dimension but the first and do not
    all lie in one record, record writes are not repeated. *)
Theorem C01_default_partial : forall e cfg f0 ops,
  e_coll e = true -> e_limit e = None -> is_sort (e_sort e) -> plain_cfg cfg -> e_kind e = KCompact ->
  Forall one_process ops -> legal_history true 1 ops -> sized_history true 1 ops -> default_history 1 ops ->
  exists s outs, run e (init cfg 1 f0) ops = Ok (s, outs) /\ length outs = length ops /\
    forall i doff calls, nth_error ops i = Some (ORead doff calls) ->
      exists bufs, nth_error outs i = Some bufs /\
        Forall2 (fun c buf => exists d,
          nth_error (t_sets (trace_of true 1 (firstn i ops))) (Z.to_nat (rc_did c)) = Some d /\
          length (elems (di_esize d) buf) = length (sel_coords (rc_sels c)) /\
          forall k x, nth_error (sel_coords (rc_sels c)) k = Some x ->
            nth_error (elems (di_esize d) buf) k
              = Some (expected (program_order [] (firstn i ops)) d c k x)) calls bufs.
Proof. exact default_reads_one. Qed.
Print Assumptions C01_default_partial.
Example C01_default_applies : Forall one_process h_one /\ legal_history true 1 h_one /\ sized_history true 1 h_one /\ default_history 1 h_one.
Proof. exact h_one_default. Qed.

(** The full property is false: in the default configuration a legal two-block write, one block of
    which spans all columns, is read back wrongly (its elements are lost and the elements of the
    other block get the wrong bytes). *)
Theorem C01_read_returns_last_write_refuted : exists ops doff calls s outs bufs,
  Forall one_process ops /\ legal_history true 1 (ops ++ [ORead doff calls]) /\
  run e_dflt (init cfg_dflt 1 f_zero) (ops ++ [ORead doff calls]) = Ok (s, outs ++ [bufs]) /\
  ~ Forall2 (correct_read (trace_of true 1 (ops ++ [ORead doff calls]))) calls bufs.
Proof. exact wide_refuted. Qed.
Print Assumptions C01_read_returns_last_write_refuted.

(** ** C02 Unwritten elements *)
Theorem C02_unwritten_elements_partial : forall e cfg cv np f0 ops, ok_history e cfg cv np ops ->
  exists s outs, run e (init cfg np f0) ops = Ok (s, outs) /\ length outs = length ops /\
    forall i doff calls, nth_error ops i = Some (ORead doff calls) ->
      exists bufs, nth_error outs i = Some bufs /\
        Forall2 (fun c buf => exists d,
          nth_error (t_sets (trace_of (e_coll e) np (firstn i ops))) (Z.to_nat (rc_did c)) = Some d /\
          forall k x, nth_error (sel_coords (rc_sels c)) k = Some x ->
            ~ ever_written (rc_did c) x (firstn i ops) ->
            nth_error (elems (di_esize d) buf) k =
              Some (match di_fill d with
                    | Some f => f
                    | None => get (rc_mem c) (rc_buf c + di_esize d * Z.of_nat k) (Z.to_nat (di_esize d))
                    end)) calls bufs.
Proof. exact unwritten_reads. Qed.
Print Assumptions C02_unwritten_elements_partial.
Example C02_applies : ok_history e_dflt cfg_dflt (mkconv (fun _ _ => false) (fun _ => 2)) 2 h_full /\
  ~ ever_written 0 [3; 0] h_full /\ In [3; 0] (sel_coords [B [0;0] [4;6]]).
Proof. exact h_full_unwritten. Qed.

(** ** C03 Collective flush *)

(** After a flush, reads see everything published before ([t_pub]) followed by the pending writes of
    process 0, 1, ..., each in program order. *)
Theorem C03_flush_publishes_partial : forall e cfg cv np f0 ops doff doff' calls,
  ok_history e cfg cv np ((ops ++ [OFlush doff]) ++ [ORead doff' calls]) ->
  exists s outs bufs, run e (init cfg np f0) ((ops ++ [OFlush doff]) ++ [ORead doff' calls]) = Ok (s, outs ++ [bufs]) /\
    let t := trace_of (e_coll e) np ops in
    Forall2 (correct_read (mktr (t_sets t) (t_pub t ++ concat (t_pend t)) [])) calls bufs.
Proof. exact flush_publishes. Qed.
Print Assumptions C03_flush_publishes_partial.

(** In particular, of conflicting writes the latest of the highest rank wins. *)
Theorem C03_highest_rank_wins_partial : forall e cfg cv np f0 ops doff doff' did sels buf mem r k x v,
  let t := trace_of (e_coll e) np ops in
  ok_history e cfg cv np ((ops ++ [OFlush doff]) ++ [ORead doff' [mkrcall did sels buf mem]]) ->
  nth_error (sel_coords sels) k = Some x ->
  last_assigned did x (nth r (t_pend t) []) = Some v ->
  (forall r', (r < r')%nat -> last_assigned did x (nth r' (t_pend t) []) = None) ->
  exists s outs out d, run e (init cfg np f0) ((ops ++ [OFlush doff]) ++ [ORead doff' [mkrcall did sels buf mem]]) = Ok (s, outs ++ [[out]]) /\
    nth_error (t_sets t) (Z.to_nat did) = Some d /\ nth_error (elems (di_esize d) out) k = Some v.
Proof. exact highest_rank_wins. Qed.
Print Assumptions C03_highest_rank_wins_partial.
Example C03_applies : ok_history e_dflt cfg_dflt (mkconv (fun _ _ => false) (fun _ => 2)) 2 ((firstn 6 h_pre ++ [OFlush 100]) ++ [ORead 1000 [mkrcall 0 [B [0;0] [4;6]] 0 junk]]) /\
  last_assigned 0 [1; 2] (nth 1 (t_pend (trace_of true 2 (firstn 6 h_pre))) []) = Some [50; 51] /\
  last_assigned 0 [1; 2] (nth 0 (t_pend (trace_of true 2 (firstn 6 h_pre))) []) = Some [114; 115].
Proof. split; [hist|]. split; vm_compute; reflexivity. Qed.

(** Without selection encoding and sharing there is no restriction but sizes: every read of every
    legal history sees all writes of all processes before it. *)
Theorem C03_coordinates : forall e cfg np f0 ops,
  e_coll e = true -> e_limit e = None -> is_sort (e_sort e) -> plain_cfg cfg ->
  has cfg CFG_SEL_ENCODE = false -> has cfg CFG_METADATA_SHARE = false ->
  legal_history true np ops -> sized_history true np ops ->
  exists s outs, run e (init cfg np f0) ops = Ok (s, outs) /\ length outs = length ops /\
    forall i doff calls, nth_error ops i = Some (ORead doff calls) ->
      exists bufs, nth_error outs i = Some bufs /\
        let t := trace_of true np (firstn i ops) in
        Forall2 (correct_read (mktr (t_sets t) (t_pub t ++ concat (t_pend t)) [])) calls bufs.
Proof. exact coordinate_reads_all. Qed.
Print Assumptions C03_coordinates.
Example C03_coordinates_applies : legal_history true 2 h_any /\ sized_history true 2 h_any.
Proof. exact h_any_ok. Qed.

Theorem C03_default_partial : forall e cfg np f0 ops,
  e_coll e = true -> e_limit e = None -> is_sort (e_sort e) -> plain_cfg cfg -> e_kind e = KCompact ->
  legal_history true np ops -> sized_history true np ops -> default_history np ops ->
  exists s outs, run e (init cfg np f0) ops = Ok (s, outs) /\ length outs = length ops /\
    forall i doff calls, nth_error ops i = Some (ORead doff calls) ->
      exists bufs, nth_error outs i = Some bufs /\
        let t := trace_of true np (firstn i ops) in
        Forall2 (correct_read (mktr (t_sets t) (t_pub t ++ concat (t_pend t)) [])) calls bufs.
Proof. exact default_reads. Qed.
Print Assumptions C03_default_partial.
Example C03_default_applies : legal_history true 2 h_full /\ sized_history true 2 h_full /\ default_history 2 h_full.
Proof. exact h_full_default. Qed.

(** ** C07 Metadata sharing *)
Theorem C07_sharing_transparent_partial : forall e cfg cv np f0 ops, has cfg CFG_METADATA_SHARE = true ->
  ok_history e cfg cv np ops ->
  exists s s' outs, run e (init cfg np f0) ops = Ok (s, outs) /\
                    run e (init (cfg - CFG_METADATA_SHARE) np f0) ops = Ok (s', outs).
Proof. exact sharing_transparent. Qed.
Print Assumptions C07_sharing_transparent_partial.
Example C07_applies : has cfg_dflt CFG_METADATA_SHARE = true /\ ok_history e_dflt cfg_dflt (mkconv (fun _ _ => false) (fun _ => 2)) 2 h_full.
Proof. split; [reflexivity|exact h_full_ok]. Qed.

(** False in general: with the (default) compact index, writing the same record twice makes the
    read undefined; without sharing it returns the data. *)
Theorem C07_sharing_transparent_refuted : legal_history true 1 w_rec2 /\
  run e_dflt (init cfg_dflt 1 f_zero) w_rec2 = UB /\
  exists s outs, run e_dflt (init (cfg_dflt - CFG_METADATA_SHARE) 1 f_zero) w_rec2 = Ok (s, outs).
Proof. exact rec2_refuted. Qed.
Print Assumptions C07_sharing_transparent_refuted.
(** And with the array index, two datasets of different element size written with the same
    multi-block selection. *)
Theorem C07_sharing_esize_refuted : legal_history true 1 w_esize /\
  exists s s' outs outs', outs <> outs' /\
    run e_arr (init cfg_dflt 1 f_zero) w_esize = Ok (s, outs) /\
    run e_arr (init (cfg_dflt - CFG_METADATA_SHARE) 1 f_zero) w_esize = Ok (s', outs').
Proof. exact esize_refuted. Qed.
Print Assumptions C07_sharing_esize_refuted.

(** In the default configuration, a record write can be taken for an earlier write that is not one
    (to a dataset of the same rank, with the same number of blocks). *)
Theorem C07_sharing_kind_refuted : legal_history true 1 w_kind /\
  exists s s' outs outs', outs <> outs' /\
    run e_dflt (init cfg_dflt 1 f_zero) w_kind = Ok (s, outs) /\
    run e_dflt (init (cfg_dflt - CFG_METADATA_SHARE) 1 f_zero) w_kind = Ok (s', outs').
Proof. exact kind_refuted. Qed.
Print Assumptions C07_sharing_kind_refuted.
Example C07_mixed_applies : ok_history e_dflt cfg_dflt cv_mixed 1 h_mixed /\ ok_history e_arr cfg_dflt cv_mixed 1 h_mixed.
Proof. exact h_mixed_ok. Qed.

(** ** C08 Index kinds *)
Theorem C08_index_kinds_same_reads_partial : forall z lim srt coll cfg cv cv' np f0 ops,
  ok_history (mkenv z KCompact lim srt coll) cfg cv np ops ->
  ok_history (mkenv z KArray lim srt coll) cfg cv' np ops ->
  exists s s' outs, run (mkenv z KCompact lim srt coll) (init cfg np f0) ops = Ok (s, outs) /\
                    run (mkenv z KArray lim srt coll) (init cfg np f0) ops = Ok (s', outs).
Proof. exact kinds_same. Qed.
Print Assumptions C08_index_kinds_same_reads_partial.
Example C08_applies : ok_history e_dflt cfg_dflt (mkconv (fun _ _ => false) (fun _ => 2)) 2 h_full /\ ok_history e_arr cfg_dflt (mkconv (fun _ _ => false) (fun _ => 2)) 2 h_full.
Proof. split; hist. Qed.

(** ** C13 Bounded metadata buffer *)
Theorem C13_limit_same_reads_partial : forall z kd lim lim' srt coll cfg cv cv' np f0 ops,
  ok_history (mkenv z kd lim srt coll) cfg cv np ops ->
  ok_history (mkenv z kd lim' srt coll) cfg cv' np ops ->
  exists s s' outs, run (mkenv z kd lim srt coll) (init cfg np f0) ops = Ok (s, outs) /\
                    run (mkenv z kd lim' srt coll) (init cfg np f0) ops = Ok (s', outs).
Proof. exact limits_same. Qed.
Print Assumptions C13_limit_same_reads_partial.
Example C13_applies : ok_history e_dflt cfg_dflt (mkconv (fun _ _ => false) (fun _ => 2)) 2 h_full /\ ok_history e_small cfg_dflt (mkconv (fun _ _ => false) (fun _ => 2)) 2 h_full.
Proof. split; hist. Qed.

(** A file without metadata cannot be read with a bounded buffer, though it can with an unbounded
    one. *)
Theorem C13_limit_same_reads_refuted : let ops := [OCreate sq; ORead 100 rd_sq] in legal_history true 1 ops /\
  run e_small (init cfg_dflt 1 f_zero) ops = Err /\
  exists s outs, run e_dflt (init cfg_dflt 1 f_zero) ops = Ok (s, outs).
Proof. exact limit_refuted. Qed.
Print Assumptions C13_limit_same_reads_refuted.

(** Whatever the limit, the configuration and the calls made, as long as nothing was written: no
    read that selects something succeeds with a bounded buffer, also after reopening the file. *)
Theorem C13_nothing_written_refuted : forall e lim cfg np f0 ops doff calls r, e_limit e = Some lim ->
  Forall (fun o => match o with OWrite _ _ _ _ => False | _ => True end) ops ->
  Exists (fun c => rc_sels c <> []) calls ->
  run e (init cfg np f0) (ops ++ [ORead doff calls]) <> Ok r.
Proof. exact blank_unreadable. Qed.
Print Assumptions C13_nothing_written_refuted.
(** The same calls are legal, and succeed with an unbounded buffer. *)
Example C13_nothing_written_applies : let ops := [OCreate sq; OFlush 50; OReopen 60 1] in
  Forall (fun o => match o with OWrite _ _ _ _ => False | _ => True end) ops /\
  Exists (fun c => rc_sels c <> []) rd_sq /\ (exists lim, e_limit e_small = Some lim) /\
  legal_history true 1 (ops ++ [ORead 100 rd_sq]) /\
  (exists s outs, run e_small (init cfg_dflt 1 f_zero) ops = Ok (s, outs)) /\
  exists s outs, run e_dflt (init cfg_dflt 1 f_zero) (ops ++ [ORead 100 rd_sq]) = Ok (s, outs).
Proof. exact blank_case. Qed.

(** ** C21 Metadata compression *)
Theorem C21_compression_changes_nothing_partial : forall z z' kd lim srt coll cfg cv np f0 ops, has cfg CFG_SEL_DEFLATE = true ->
  ok_history (mkenv z kd lim srt coll) cfg cv np ops ->
  exists s s' outs, run (mkenv z kd lim srt coll) (init cfg np f0) ops = Ok (s, outs) /\
                    run (mkenv z' kd lim srt coll) (init (cfg - CFG_SEL_DEFLATE) np f0) ops = Ok (s', outs).
Proof. exact deflate_same. Qed.
Print Assumptions C21_compression_changes_nothing_partial.
Example C21_applies : has 14 CFG_SEL_DEFLATE = true /\ ok_history e_dflt 14 (mkconv (fun _ _ => false) (fun _ => 2)) 2 h_full.
Proof. split; [reflexivity|hist]. Qed.

(** ** C31 Extending a dataset *)
Theorem C31_set_extent_keeps_data_partial : forall e cfg cv np f0 ops did dims doff calls,
  ok_history e cfg cv np (ops ++ [ORead doff calls]) -> ok_history e cfg cv np ((ops ++ [OSetExtent did dims]) ++ [ORead doff calls]) ->
  exists s s' outs outs' bufs,
    run e (init cfg np f0) (ops ++ [ORead doff calls]) = Ok (s, outs ++ [bufs]) /\
    run e (init cfg np f0) ((ops ++ [OSetExtent did dims]) ++ [ORead doff calls]) = Ok (s', outs' ++ [bufs]).
Proof. exact extent_same. Qed.
Print Assumptions C31_set_extent_keeps_data_partial.
Example C31_applies : ok_history e_dflt cfg_dflt (mkconv (fun _ _ => false) (fun _ => 2)) 2 (h_pre ++ [ORead 1000 h_read]) /\
  ok_history e_dflt cfg_dflt (mkconv (fun _ _ => false) (fun _ => 2)) 2 ((h_pre ++ [OSetExtent 1 [12; 4]]) ++ [ORead 1000 h_read]).
Proof. split; hist. Qed.

(** A rejected H5Dset_extent has already changed the sizes that precede the offending one. *)
Theorem C31_rejected_extent_refuted : exists d new, snd (set_extent cfg_dflt d new) = false /\
  di_dims (fst (set_extent cfg_dflt d new)) <> di_dims d.
Proof. exact rejected_refuted. Qed.
Print Assumptions C31_rejected_extent_refuted.
(** After shrinking and growing again the old data reappear instead of the fill value. *)
Theorem C31_shrink_grow_refuted : legal_history true 1 (w_shrink ++ [ORead 1000 [mkrcall 0 [B [1;0] [1;4]] 0 junk]]) /\
  di_fill dR9 = Some [9] /\
  exists s outs, run e_dflt (init cfg_dflt 1 f_zero) (w_shrink ++ [ORead 1000 [mkrcall 0 [B [1;0] [1;4]] 0 junk]])
    = Ok (s, outs ++ [[[10; 11; 12; 13]]]).
Proof. exact shrink_refuted. Qed.
Print Assumptions C31_shrink_grow_refuted.

(** ** C32 Dataset isolation *)
(** Two histories that differ only in writes to other datasets - even run with different
    configurations - return the same for [did]. *)
Theorem C32_dataset_isolation_partial : forall e cfg cv e' cfg' cv' np f0 f0' did ops ops' doff calls, e_coll e = e_coll e' ->
  ok_history e cfg cv np (ops ++ [ORead doff calls]) -> ok_history e' cfg' cv' np (ops' ++ [ORead doff calls]) ->
  filter (touches did) ops = filter (touches did) ops' ->
  Forall (fun c => rc_did c = did) calls ->
  exists s s' outs outs' bufs,
    run e (init cfg np f0) (ops ++ [ORead doff calls]) = Ok (s, outs ++ [bufs]) /\
    run e' (init cfg' np f0') (ops' ++ [ORead doff calls]) = Ok (s', outs' ++ [bufs]).
Proof. exact isolation. Qed.
Print Assumptions C32_dataset_isolation_partial.
Example C32_applies : let ops' := filter (touches 0) h_pre in let rd := [ORead 1000 [mkrcall 0 [B [0;0] [4;6]] 0 junk]] in
  ops' <> h_pre /\ filter (touches 0) h_pre = filter (touches 0) ops' /\
  ok_history e_dflt cfg_dflt (mkconv (fun _ _ => false) (fun _ => 2)) 2 (h_pre ++ rd) /\ ok_history e_dflt cfg_dflt (mkconv (fun _ _ => false) (fun _ => 2)) 2 (ops' ++ rd).
Proof. split; [vm_compute; discriminate|]. split; [reflexivity|]. split; hist. Qed.

(** ** C33 H5Dwrite_n *)
Theorem C33_write_n_is_n_writes_partial : forall e cfg cv e' cfg' cv' np f0 f0' pre post rk did sels data doff doff' calls, e_coll e = e_coll e' ->
  let es := esize_at (t_sets (trace_of (e_coll e) np pre)) did in
  ok_history e cfg cv np ((pre ++ OWrite rk did sels data :: post) ++ [ORead doff calls]) ->
  ok_history e' cfg' cv' np ((pre ++ write_each rk did es sels data ++ post) ++ [ORead doff' calls]) ->
  exists s s' outs outs' bufs,
    run e (init cfg np f0) ((pre ++ OWrite rk did sels data :: post) ++ [ORead doff calls]) = Ok (s, outs ++ [bufs]) /\
    run e' (init cfg' np f0') ((pre ++ write_each rk did es sels data ++ post) ++ [ORead doff' calls]) = Ok (s', outs' ++ [bufs]).
Proof. exact write_n_each. Qed.
Print Assumptions C33_write_n_is_n_writes_partial.
Example C33_applies : let w := OWrite 0 0 [B [0;0] [2;3]; B [1;1] [2;2]] (by_ 10 20) in
  let rd := [ORead 1000 [mkrcall 0 [B [0;0] [4;6]] 0 junk]] in
  ok_history e_dflt cfg_dflt (mkconv (fun _ _ => false) (fun _ => 2)) 2 (([OCreate dA] ++ w :: []) ++ rd) /\
  ok_history e_dflt cfg_dflt (mkconv (fun _ _ => false) (fun _ => 2)) 2 (([OCreate dA] ++ write_each 0 0 2 [B [0;0] [2;3]; B [1;1] [2;2]] (by_ 10 20) ++ []) ++ rd).
Proof. split; hist. Qed.

(** ** C34 Close and reopen *)
Theorem C34_reopen_preserves_partial : forall e cfg cv np np' f0 ops doff doff1 doff2 calls, e_coll e = true ->
  ok_history e cfg cv np (ops ++ [ORead doff calls]) -> ok_history e cfg cv np ((ops ++ [OReopen doff1 np']) ++ [ORead doff2 calls]) ->
  exists s s' outs outs' bufs,
    run e (init cfg np f0) (ops ++ [ORead doff calls]) = Ok (s, outs ++ [bufs]) /\
    run e (init cfg np f0) ((ops ++ [OReopen doff1 np']) ++ [ORead doff2 calls]) = Ok (s', outs' ++ [bufs]).
Proof. exact reopen_same. Qed.
Print Assumptions C34_reopen_preserves_partial.
Example C34_applies : ok_history e_dflt cfg_dflt (mkconv (fun _ _ => false) (fun _ => 2)) 2 (h_pre ++ [ORead 1000 h_read]) /\
  ok_history e_dflt cfg_dflt (mkconv (fun _ _ => false) (fun _ => 2)) 2 ((h_pre ++ [OReopen 1000 3]) ++ [ORead 5000 h_read]).
Proof. split; hist. Qed.

(** ** C37 Independent reads *)
(** With independent reads every read returns what is published, provided nothing is pending. *)
Theorem C37_independent_reads_partial : forall e cfg cv np f0 ops doff calls, e_coll e = false ->
  ok_history e cfg cv np (ops ++ [ORead doff calls]) ->
  exists s outs bufs, run e (init cfg np f0) (ops ++ [ORead doff calls]) = Ok (s, outs ++ [bufs]) /\
    Forall2 (correct_read (trace_of false np ops)) calls bufs.
Proof. exact independent_reads. Qed.
Print Assumptions C37_independent_reads_partial.
Example C37_applies : ok_history e_indep cfg_dflt (mkconv (fun _ _ => false) (fun _ => 2)) 2 ((firstn 7 h_pre) ++ [ORead 1000 [mkrcall 0 [B [0;0] [4;6]] 0 junk]]).
Proof. hist. Qed.
(** Otherwise the pending write is lost: its metadata is published without data and the later
    flush does not write it. *)
Theorem C37_independent_reads_refuted : legal_history false 2 (w_indep ++ [ORead 6000 rd_sq]) /\
  exists s outs bufs, run e_indep (init cfg_dflt 2 f_zero) (w_indep ++ [ORead 6000 rd_sq]) = Ok (s, outs ++ [bufs]) /\
    ~ Forall2 (correct_read (trace_of false 2 (w_indep ++ [ORead 6000 rd_sq]))) rd_sq bufs.
Proof. exact indep_refuted. Qed.
Print Assumptions C37_independent_reads_refuted.

(** ** C42 Scalar datasets *)
(** Without selection encoding a scalar dataset returns the value written. *)
Theorem C42_scalar_round_trip_partial : forall e cfg f0 es v fill doff buf mem,
  plain_cfg cfg -> has cfg CFG_SEL_ENCODE = false -> is_sort (e_sort e) -> e_coll e = true ->
  0 < es < 2 ^ 31 -> Zlen v = es -> match fill with Some f => Zlen f = es | None => True end -> 0 <= doff < 2 ^ 62 ->
  exists s, run e (init cfg 1 f0)
      [OCreate (mkdinfo es [] [] [] fill); OWrite 0 0 [mkblock [] []] v; ORead doff [mkrcall 0 [mkblock [] []] buf mem]]
    = Ok (s, [[]; []; [v]]).
Proof. exact scalar_round_trip. Qed.
Print Assumptions C42_scalar_round_trip_partial.
Example C42_applies : plain_cfg 8 /\ has 8 CFG_SEL_ENCODE = false /\ is_sort (e_sort e_dflt) /\ Zlen [1; 2; 3; 4] = 4.
Proof. split; [split; [lia|reflexivity]|]. split; [reflexivity|]. split; [exact isort_is_sort|reflexivity]. Qed.
(** With selection encoding (the default), creating a scalar dataset is undefined behaviour, whatever
    was done to the file before. *)
Theorem C42_scalar_refuted : forall e cfg np f0 pre es fill rest s outs, has cfg CFG_SEL_ENCODE = true ->
  run e (init cfg np f0) pre = Ok (s, outs) ->
  run e (init cfg np f0) (pre ++ OCreate (mkdinfo es [] [] [] fill) :: rest) = UB.
Proof. exact scalar_encoded_run. Qed.
Print Assumptions C42_scalar_refuted.
Example C42_scalar_applies : has cfg_dflt CFG_SEL_ENCODE = true /\
  exists s outs, run e_dflt (init cfg_dflt 2 f_zero) h_full = Ok (s, outs).
Proof. split; [reflexivity|]. eexists. eexists. vm_compute. reflexivity. Qed.
