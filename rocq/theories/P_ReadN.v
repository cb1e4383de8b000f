(** C79 H5Dread_n equals its sequence of H5Dread calls.

    doc/api.md: "It is equivalent to calling H5Dread n times with dataspace selection set to starts[i] and
    counts[i] on the i-th call."  [read_one_by_one] (ReadNSpec.v) is that sequence.  [arun] (ReadNModel.v): programs
    that keep blocks in arrays ([ASet]) and issue non-blocking H5Dread_n calls with them ([AReadN]). *)
From Verif Require Import Base Spec MetaModel QueueModel FlushModel IndexModel ReadModel SysModel
  SysSpec History SysCheck Examples DefSpec AnySpec TameSpec PendModel RealModel NbModel NbSpec ReadNModel ReadNSpec ReadNProofs ReadNClaims.

(** Blocking: for every tame history the bytes one H5Dread_n returns are those the single calls return, one after
    the other.  Partial: the blocks of the call do not overlap (part of [tame]). *)
Theorem C79_read_n_partial : forall e cfg e' cfg' np f0 f0' ops doff doffs c,
  let es := esize_at (t_sets (trace_of true np ops)) (rc_did c) in length doffs = length (rc_sels c) ->
  tame e cfg np (ops ++ [ORead doff [c]]) -> tame e' cfg' np (ops ++ read_one_by_one doffs es c) ->
  exists s s' outs outs' bytes pieces,
    run e (init cfg np f0) (ops ++ [ORead doff [c]]) = Ok (s, outs ++ [[bytes]]) /\
    run e' (init cfg' np f0') (ops ++ read_one_by_one doffs es c) = Ok (s', outs' ++ map (fun p => [p]) pieces) /\
    length pieces = length (rc_sels c) /\ concat pieces = bytes.
Proof. exact read_n_each. Qed.
Print Assumptions C79_read_n_partial.
Example C79_applies : tame e_dflt cfg_dflt 1 (w_line ++ [ORead 100 [r_apart]]) /\
  tame e_dflt cfg_dflt 1 (w_line ++ read_one_by_one [200;300;400] 1 r_apart) /\
  read_one_by_one [200;300;400] 1 r_apart = [ORead 200 [mkrcall 0 [B [4] [3]] 0 junk]; ORead 300 [mkrcall 0 [B [9] [1]] 3 junk]; ORead 400 [mkrcall 0 [B [0] [2]] 4 junk]] /\
  exists s outs, run e_dflt (init cfg_dflt 1 f_zero) (w_line ++ [ORead 100 [r_apart]]) = Ok (s, outs ++ [[[14;15;16;19;10;11]]]).
Proof. exact read_n_ex. Qed.

(** A block inside another one of the same call receives other elements. *)
Theorem C79_read_n_refuted : legal_history true 1 (w_line ++ [ORead 100 [r_line]]) /\ legal_history true 1 (w_line ++ read_one_by_one [200;300] 1 r_line) /\
  (exists s outs, run e_dflt (init cfg_dflt 1 f_zero) (w_line ++ [ORead 100 [r_line]]) = Ok (s, outs ++ [[[10;11;12;13;14;15;16;17;18;19;18;19]]])) /\
  (exists s outs, run e_dflt (init cfg_dflt 1 f_zero) (w_line ++ read_one_by_one [200;300] 1 r_line) = Ok (s, outs ++ [[[10;11;12;13;14;15;16;17;18;19]]; [[12;13]]])).
Proof. exact read_n_nested. Qed.
Print Assumptions C79_read_n_refuted.

(** Non-blocking: a program that leaves its arrays alone until H5Fflush gets what a program gets whose requests
    carry their blocks (C77): the same results, file and memories. *)
Theorem C79_arrays_kept : forall e cfg np f0 mem ops st outs, arrays_kept [] ops = true ->
  arun e (ainit cfg np f0 mem) ops = Ok (st, outs) ->
  exists n, nrun e (ninit cfg np f0 mem) (by_value (fun _ => []) ops) = Ok (n, outs) /\ n_sys n = n_sys (a_nst st) /\ n_mem n = n_mem (a_nst st).
Proof. exact arrays_kept_run. Qed.
Print Assumptions C79_arrays_kept.
Example C79_arrays_applies :
  let ops := a_pre ++ [AReadN 0 0 2 0 5; ASet 1 [B [7] [1]]; AReadN 0 0 1 1 0; ACall (NOp (OFlush 100)); ASet 0 []] in
  arrays_kept [] ops = true /\
  (exists st outs, arun e_dflt (ainit cfg_dflt 1 f_zero (fun _ => junk)) ops = Ok (st, outs) /\ get (n_mem (a_nst st) 0) 0 11 = [17;77;77;77;77;14;15;16;10;11;77]) /\
  by_value (fun _ => []) ops = [NOp (OCreate d_line); NOp (OWrite 0 0 [B [0] [10]] [10;11;12;13;14;15;16;17;18;19]);
    NRead 0 (mkrcall 0 [B [4] [3]; B [0] [2]] 5 (fun _ => 0)); NRead 0 (mkrcall 0 [B [7] [1]] 0 (fun _ => 0)); NOp (OFlush 100)].
Proof. exact arrays_ex. Qed.

(** A program that stores other blocks of the same size in the arrays before H5Fflush reads those instead: the
    outcome is that of storing them before the call, whatever happens in between. *)
Theorem C79_arrays_changed_refuted : forall e st rk did n arr buf mid new doff st1 outs1, Forall (leaves arr) mid ->
  length (firstn n new) = n -> sel_size (firstn n new) = sel_size (firstn n (a_arrs st arr)) ->
  arun e st (AReadN rk did n arr buf :: mid ++ [ASet arr new; ACall (NOp (OFlush doff))]) = Ok (st1, outs1) ->
  exists st2, arun e st (ASet arr new :: AReadN rk did n arr buf :: mid ++ [ACall (NOp (OFlush doff))]) = Ok (st2, outs1) /\ a_nst st2 = a_nst st1.
Proof. exact arrays_changed. Qed.
Print Assumptions C79_arrays_changed_refuted.
Example C79_arrays_changed_applies :
  let asked := [B [4] [3]; B [0] [2]] in let new := [B [7] [3]; B [2] [2]] in
  let prog := a_pre ++ [AReadN 0 0 2 0 5; ASet 0 new; ACall (NOp (OFlush 100))] in
  length (firstn 2 new) = 2%nat /\ sel_size (firstn 2 new) = sel_size (firstn 2 asked) /\
  (exists st outs, arun e_dflt (ainit cfg_dflt 1 f_zero (fun _ => junk)) prog = Ok (st, outs) /\ get (n_mem (a_nst st) 0) 5 5 = [17;18;19;12;13]) /\
  (exists st outs, arun e_dflt (ainit cfg_dflt 1 f_zero (fun _ => junk)) (a_pre ++ [AReadN 0 0 2 0 5; ACall (NOp (OFlush 100))]) = Ok (st, outs) /\ get (n_mem (a_nst st) 0) 5 5 = [14;15;16;10;11]).
Proof. exact arrays_changed_ex. Qed.
