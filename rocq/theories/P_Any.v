(** Properties of whole files, continued: what holds for every history (C21, C31, C34, C55), what
    holds for every [tame] history (TameSpec.v: legal, of reasonable sizes, avoiding the defects listed
    in DefSpec.v unless selections are stored as plain coordinates), and counterexamples to the full
    statements of C02, C03, C08, C32, C33 and C55.

    [observed r] is what a program observes of a run: the buffers of all its reads, or that a call
    fails, or that it is undefined; [last_read r] the same for the last call. *)
From Verif Require Import Base Spec MetaModel QueueModel FlushModel IndexModel ReadModel SysModel
  SysSpec History SysCheck Examples ClaimProofs ClaimProofs2 SizedProofs DefSpec DefProofs AnySpec AnyProofs TameSpec AnyClaims TameMoreClaims.

(** ** C21 Metadata compression *)
(** For every sequence of calls, legal or not, and every compressor. *)
Theorem C21_compression_changes_nothing : forall e cfg np f0 ops, plain_cfg cfg -> has cfg CFG_SEL_DEFLATE = true ->
  observed (run e (init cfg np f0) ops) = observed (run e (init (cfg - CFG_SEL_DEFLATE) np f0) ops).
Proof. exact deflate_any. Qed.
Print Assumptions C21_compression_changes_nothing.
Example C21_any_applies : plain_cfg 14 /\ has 14 CFG_SEL_DEFLATE = true /\
  observed (run e_dflt (init 14 1 f_zero) w_rec2) = UB /\
  (exists outs, observed (run e_dflt (init 14 2 f_zero) h_full) = Ok outs).
Proof. exact any_deflate_ex. Qed.

(** ** C34 Close and reopen *)
(** After any sequence of calls, a read of the reopened file (by any number of processes) gives what
    the read would have given without closing. *)
Theorem C34_reopen_preserves : forall e cfg np np' f0 ops doff doff2 calls, e_coll e = true -> Forall with_data ops ->
  last_read (run e (init cfg np f0) (ops ++ [OReopen doff np'; ORead doff2 calls])) =
  last_read (run e (init cfg np f0) (ops ++ [ORead doff calls])).
Proof. exact reopen_any. Qed.
Print Assumptions C34_reopen_preserves.
(** With collective or independent reads, when the file was flushed before. *)
Theorem C34_reopen_flushed : forall e cfg np np' f0 ops doff doff1 doff2 doff3 calls, Forall with_data ops ->
  last_read (run e (init cfg np f0) (ops ++ [OFlush doff; OReopen doff2 np'; ORead doff3 calls])) =
  last_read (run e (init cfg np f0) (ops ++ [OFlush doff; ORead doff1 calls])).
Proof. exact reopen_flushed. Qed.
Print Assumptions C34_reopen_flushed.
Example C34_any_applies : Forall with_data h_pre /\ exists b, last_read (run e_dflt (init cfg_dflt 2 f_zero) (h_pre ++ [ORead 1000 h_read])) = Ok b.
Proof. exact any_reopen_ex. Qed.

(** ** C31 Extending a dataset *)
(** After any sequence of calls, an accepted H5Dset_extent changes the result of no read. *)
Theorem C31_accepted_extent : forall e cfg np f0 ops did dims doff calls s outs s' out, Forall with_data ops ->
  run e (init cfg np f0) ops = Ok (s, outs) -> step e s (OSetExtent did dims) = Ok (s', out) ->
  last_read (run e (init cfg np f0) (ops ++ [OSetExtent did dims; ORead doff calls])) =
  last_read (run e (init cfg np f0) (ops ++ [ORead doff calls])).
Proof. exact extent_any. Qed.
Print Assumptions C31_accepted_extent.
Example C31_any_applies : Forall with_data h_pre /\ exists s outs s' out, run e_dflt (init cfg_dflt 2 f_zero) h_pre = Ok (s, outs) /\
  step e_dflt s (OSetExtent 1 [12; 4]) = Ok (s', out).
Proof. exact any_extent_ex. Qed.

(** ** C55 Reads do not change later reads *)
(** After any sequence of calls, a read that succeeds does not change what the next read gives. *)
Theorem C55_read_again_partial : forall e cfg np f0 ops doff doff' calls calls' s outs, e_coll e = true -> Forall with_data ops ->
  run e (init cfg np f0) (ops ++ [ORead doff calls]) = Ok (s, outs) ->
  last_read (run e (init cfg np f0) (ops ++ [ORead doff calls; ORead doff' calls'])) =
  last_read (run e (init cfg np f0) (ops ++ [ORead doff calls'])).
Proof. exact read_again. Qed.
Print Assumptions C55_read_again_partial.
(** One process: two programs that make the same changes read the same at the end, however they
    place flushes, reads and reopenings, and whatever their settings are. *)
Theorem C55_between_partial : forall e cfg e' cfg' f0 f0' ops ops' doff doff' calls,
  tame e cfg 1 (ops ++ [ORead doff calls]) -> tame e' cfg' 1 (ops' ++ [ORead doff' calls]) ->
  Forall one_process ops -> Forall one_process ops' -> filter makes_change ops = filter makes_change ops' ->
  exists s s' outs outs' bufs,
    run e (init cfg 1 f0) (ops ++ [ORead doff calls]) = Ok (s, outs ++ [bufs]) /\
    run e' (init cfg' 1 f0') (ops' ++ [ORead doff' calls]) = Ok (s', outs' ++ [bufs]).
Proof. exact tame_between. Qed.
Print Assumptions C55_between_partial.
Example C55_applies : let ops := firstn 11 h_one in let ops' := filter makes_change ops in
  tame e_dflt cfg_dflt 1 (ops ++ [ORead 9000 h_read]) /\ tame e_small 4 1 (ops' ++ [ORead 9000 h_read]) /\
  Forall one_process ops /\ Forall one_process ops' /\ ops <> ops' /\ filter makes_change ops = filter makes_change ops'.
Proof. exact any_between_ex. Qed.
(** In general it is not so: the read between the two writes makes the second one safe. *)
Theorem C55_between_refuted : let rd doff := ORead doff [mkrcall 0 [B [0;0] [3;4]] 0 junk] in
  let w v := OWrite 0 0 [B [2;0] [1;4]] (by_ v 4) in
  legal_history true 1 [OCreate dR9; w 10; w 20; rd 100] /\ legal_history true 1 [OCreate dR9; w 10; rd 100; w 20; rd 1000] /\
  run e_dflt (init cfg_dflt 1 f_zero) [OCreate dR9; w 10; w 20; rd 100] = UB /\
  exists s outs, run e_dflt (init cfg_dflt 1 f_zero) [OCreate dR9; w 10; rd 100; w 20; rd 1000] = Ok (s, outs).
Proof. exact rec2_read. Qed.
Print Assumptions C55_between_refuted.

(** ** Tame histories: C01, C02, C03, C07, C08, C13, C32, C33 *)
Theorem C01_tame_partial : forall e cfg f0 ops, tame e cfg 1 ops -> Forall one_process ops ->
  exists s outs, run e (init cfg 1 f0) ops = Ok (s, outs) /\ length outs = length ops /\
    forall i doff calls, nth_error ops i = Some (ORead doff calls) ->
      exists bufs, nth_error outs i = Some bufs /\
        Forall2 (fun c buf => exists d,
          nth_error (t_sets (trace_of true 1 (firstn i ops))) (Z.to_nat (rc_did c)) = Some d /\
          length (elems (di_esize d) buf) = length (sel_coords (rc_sels c)) /\
          forall k x, nth_error (sel_coords (rc_sels c)) k = Some x ->
            nth_error (elems (di_esize d) buf) k
              = Some (expected (program_order [] (firstn i ops)) d c k x)) calls bufs.
Proof. exact tame_one. Qed.
Print Assumptions C01_tame_partial.

Theorem C02_tame_partial : forall e cfg np f0 ops, tame e cfg np ops ->
  exists s outs, run e (init cfg np f0) ops = Ok (s, outs) /\ length outs = length ops /\
    forall i doff calls, nth_error ops i = Some (ORead doff calls) ->
      exists bufs, nth_error outs i = Some bufs /\
        Forall2 (fun c buf => exists d,
          nth_error (t_sets (trace_of true np (firstn i ops))) (Z.to_nat (rc_did c)) = Some d /\
          forall k x, nth_error (sel_coords (rc_sels c)) k = Some x ->
            ~ ever_written (rc_did c) x (firstn i ops) ->
            nth_error (elems (di_esize d) buf) k =
              Some (match di_fill d with
                    | Some f => f
                    | None => get (rc_mem c) (rc_buf c + di_esize d * Z.of_nat k) (Z.to_nat (di_esize d))
                    end)) calls bufs.
Proof. exact tame_unwritten. Qed.
Print Assumptions C02_tame_partial.
(** In the default configuration an element that was never written can be read as written data. *)
Theorem C02_unwritten_elements_refuted : exists ops doff did sels buf mem s outs out k x d f,
  legal_history true 1 (ops ++ [ORead doff [mkrcall did sels buf mem]]) /\
  run e_dflt (init cfg_dflt 1 f_zero) (ops ++ [ORead doff [mkrcall did sels buf mem]]) = Ok (s, outs ++ [[out]]) /\
  nth_error (t_sets (trace_of true 1 ops)) (Z.to_nat did) = Some d /\ di_fill d = Some f /\
  nth_error (sel_coords sels) k = Some x /\ ~ ever_written did x ops /\
  nth_error (elems (di_esize d) out) k <> Some f.
Proof. exact kind_fill. Qed.
Print Assumptions C02_unwritten_elements_refuted.

Theorem C03_tame_partial : forall e cfg np f0 ops, tame e cfg np ops ->
  exists s outs, run e (init cfg np f0) ops = Ok (s, outs) /\ length outs = length ops /\
    forall i doff calls, nth_error ops i = Some (ORead doff calls) ->
      exists bufs, nth_error outs i = Some bufs /\
        let t := trace_of true np (firstn i ops) in
        Forall2 (correct_read (mktr (t_sets t) (t_pub t ++ concat (t_pend t)) [])) calls bufs.
Proof. exact tame_reads. Qed.
Print Assumptions C03_tame_partial.
(** In particular, of conflicting writes the latest of the highest rank wins. *)
Theorem C03_highest_rank_tame_partial : forall e cfg np f0 ops doff doff' did sels buf mem r k x v,
  let t := trace_of true np ops in
  tame e cfg np ((ops ++ [OFlush doff]) ++ [ORead doff' [mkrcall did sels buf mem]]) ->
  nth_error (sel_coords sels) k = Some x ->
  last_assigned did x (nth r (t_pend t) []) = Some v ->
  (forall r', (r < r')%nat -> last_assigned did x (nth r' (t_pend t) []) = None) ->
  exists s outs out d, run e (init cfg np f0) ((ops ++ [OFlush doff]) ++ [ORead doff' [mkrcall did sels buf mem]]) = Ok (s, outs ++ [[out]]) /\
    nth_error (t_sets t) (Z.to_nat did) = Some d /\ nth_error (elems (di_esize d) out) k = Some v.
Proof. exact highest_rank_tame. Qed.
Print Assumptions C03_highest_rank_tame_partial.
(** (Process 1 wins over process 0: P_System.v, C03_applies.) *)
Example C03_highest_rank_tame_applies : tame e_arr cfg_dflt 2 ((firstn 6 h_pre ++ [OFlush 100]) ++ [ORead 1000 [mkrcall 0 [B [0;0] [4;6]] 0 junk]]) /\
  tame e_small cfg_dflt 2 ((firstn 6 h_pre ++ [OFlush 100]) ++ [ORead 1000 [mkrcall 0 [B [0;0] [4;6]] 0 junk]]).
Proof. exact rank_tame. Qed.

(** In the default configuration a flushed write of another process may not be seen. *)
Theorem C03_flush_publishes_refuted : exists ops doff doff' calls s outs bufs,
  legal_history true 2 ((ops ++ [OFlush doff]) ++ [ORead doff' calls]) /\
  run e_dflt (init cfg_dflt 2 f_zero) ((ops ++ [OFlush doff]) ++ [ORead doff' calls]) = Ok (s, outs ++ [bufs]) /\
  let t := trace_of true 2 ops in
  ~ Forall2 (correct_read (mktr (t_sets t) (t_pub t ++ concat (t_pend t)) [])) calls bufs.
Proof. exact wide_flush. Qed.
Print Assumptions C03_flush_publishes_refuted.

Theorem C07_tame_partial : forall e cfg np f0 ops, has cfg CFG_METADATA_SHARE = true -> tame e cfg np ops ->
  exists s s' outs, run e (init cfg np f0) ops = Ok (s, outs) /\
                    run e (init (cfg - CFG_METADATA_SHARE) np f0) ops = Ok (s', outs).
Proof. exact tame_sharing. Qed.
Print Assumptions C07_tame_partial.

(** C08, C13: any two index kinds, any two limits, any two plain configurations. *)
Theorem C08_C13_tame_partial : forall e e' cfg cfg' np f0 f0' ops, tame e cfg np ops -> tame e' cfg' np ops ->
  exists s s' outs, run e (init cfg np f0) ops = Ok (s, outs) /\ run e' (init cfg' np f0') ops = Ok (s', outs).
Proof. exact tame_same. Qed.
Print Assumptions C08_C13_tame_partial.
Example tame_applies : tame e_dflt cfg_dflt 2 h_full /\ tame e_arr 4 2 h_full /\ tame e_small cfg_dflt 2 h_full /\ tame e_arr cfg_dflt 2 h_full /\
  e_kind e_dflt = KCompact /\ e_kind e_arr = KArray /\ e_limit e_small = Some 400.
Proof. exact any_tame_ex. Qed.
(** The kind of index matters in general: the same record written twice; two datasets of different
    element size written with the same selection. *)
Theorem C08_index_kinds_refuted : legal_history true 1 w_rec2 /\
  run e_dflt (init cfg_dflt 1 f_zero) w_rec2 = UB /\
  exists s outs, run e_arr (init cfg_dflt 1 f_zero) w_rec2 = Ok (s, outs).
Proof. exact rec2_kinds. Qed.
Print Assumptions C08_index_kinds_refuted.
Theorem C08_index_kinds_differ_refuted : legal_history true 1 w_esize /\
  exists s s' outs outs', outs <> outs' /\
    run e_dflt (init cfg_dflt 1 f_zero) w_esize = Ok (s, outs) /\ run e_arr (init cfg_dflt 1 f_zero) w_esize = Ok (s', outs').
Proof. exact esize_kinds. Qed.
Print Assumptions C08_index_kinds_differ_refuted.

Theorem C32_tame_partial : forall e cfg e' cfg' np f0 f0' did ops ops' doff calls,
  tame e cfg np (ops ++ [ORead doff calls]) -> tame e' cfg' np (ops' ++ [ORead doff calls]) ->
  filter (touches did) ops = filter (touches did) ops' -> Forall (fun c => rc_did c = did) calls ->
  exists s s' outs outs' bufs,
    run e (init cfg np f0) (ops ++ [ORead doff calls]) = Ok (s, outs ++ [bufs]) /\
    run e' (init cfg' np f0') (ops' ++ [ORead doff calls]) = Ok (s', outs' ++ [bufs]).
Proof. exact tame_isolation. Qed.
Print Assumptions C32_tame_partial.
Example C32_tame_applies : let ops' := filter (touches 0) h_pre in let rd := [ORead 1000 [mkrcall 0 [B [0;0] [4;6]] 0 junk]] in
  ops' <> h_pre /\ filter (touches 0) h_pre = filter (touches 0) ops' /\
  tame e_dflt cfg_dflt 2 (h_pre ++ rd) /\ tame e_dflt cfg_dflt 2 (ops' ++ rd).
Proof. exact any_isolation_ex. Qed.
(** A write to one dataset can change what another dataset reads as. *)
Theorem C32_dataset_isolation_refuted : exists did ops ops' doff calls s s' outs outs' bufs bufs',
  filter (touches did) ops = filter (touches did) ops' /\ Forall (fun c => rc_did c = did) calls /\
  legal_history true 1 (ops ++ [ORead doff calls]) /\ legal_history true 1 (ops' ++ [ORead doff calls]) /\
  run e_dflt (init cfg_dflt 1 f_zero) (ops ++ [ORead doff calls]) = Ok (s, outs ++ [bufs]) /\
  run e_dflt (init cfg_dflt 1 f_zero) (ops' ++ [ORead doff calls]) = Ok (s', outs' ++ [bufs']) /\ bufs <> bufs'.
Proof. exact kind_isolation. Qed.
Print Assumptions C32_dataset_isolation_refuted.

Theorem C33_tame_partial : forall e cfg e' cfg' np f0 f0' pre post rk did sels data doff doff' calls,
  let es := esize_at (t_sets (trace_of true np pre)) did in
  tame e cfg np ((pre ++ OWrite rk did sels data :: post) ++ [ORead doff calls]) ->
  tame e' cfg' np ((pre ++ write_each rk did es sels data ++ post) ++ [ORead doff' calls]) ->
  exists s s' outs outs' bufs,
    run e (init cfg np f0) ((pre ++ OWrite rk did sels data :: post) ++ [ORead doff calls]) = Ok (s, outs ++ [bufs]) /\
    run e' (init cfg' np f0') ((pre ++ write_each rk did es sels data ++ post) ++ [ORead doff' calls]) = Ok (s', outs' ++ [bufs]).
Proof. exact tame_write_n. Qed.
Print Assumptions C33_tame_partial.
Example C33_tame_applies : let w := OWrite 0 0 [B [0;0] [2;3]; B [1;1] [2;2]] (by_ 10 20) in
  let rd := [ORead 1000 [mkrcall 0 [B [0;0] [4;6]] 0 junk]] in
  tame e_dflt cfg_dflt 2 (([OCreate dA] ++ w :: []) ++ rd) /\
  tame e_dflt cfg_dflt 2 (([OCreate dA] ++ write_each 0 0 2 [B [0;0] [2;3]; B [1;1] [2;2]] (by_ 10 20) ++ []) ++ rd).
Proof. exact any_write_n_ex. Qed.
(** Writing two blocks with one call or with two can give different results. *)
Theorem C33_write_n_refuted : let sels := [B [0;0] [2;4]; B [3;0] [1;2]] in
  exists s s' outs outs' bufs bufs',
  legal_history true 1 ([OCreate sq; OWrite 0 0 sels (by_ 10 10)] ++ [ORead 100 rd_sq]) /\
  legal_history true 1 ((OCreate sq :: write_each 0 0 1 sels (by_ 10 10)) ++ [ORead 100 rd_sq]) /\
  run e_dflt (init cfg_dflt 1 f_zero) ([OCreate sq; OWrite 0 0 sels (by_ 10 10)] ++ [ORead 100 rd_sq]) = Ok (s, outs ++ [bufs]) /\
  run e_dflt (init cfg_dflt 1 f_zero) ((OCreate sq :: write_each 0 0 1 sels (by_ 10 10)) ++ [ORead 100 rd_sq]) = Ok (s', outs' ++ [bufs']) /\
  bufs <> bufs'.
Proof. exact wide_write_n. Qed.
Print Assumptions C33_write_n_refuted.
