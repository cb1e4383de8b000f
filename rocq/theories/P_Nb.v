(** C77 A non-blocking read is completed by H5Fflush.

    [nrun] (NbModel.v): programs that also issue non-blocking reads ([NRead rk c]: process [rk]), with a memory
    per process.  Vocabulary (NbSpec.v): [pending_reads [] ops] are the reads not completed after [ops];
    [as_blocking [] ops] is the same program with blocking reads right after the flush that completes them, used
    only to say what a legal program is ([tame], [settled]) and what has been written ([trace_of]). *)
From Verif Require Import Base Spec MetaModel QueueModel FlushModel IndexModel ReadModel SysModel
  SysSpec History SysCheck Examples PendModel PendSpec DefSpec AnySpec TameSpec RealModel RealSpec RealClaims2 NbModel NbSpec NbClaims NbClaims2.

(** When H5Fflush returns, the buffer of each read a process has issued since the last flush holds the values
    written last (by any process, before or after the read was issued), and no other byte of its memory has
    changed.  Partial: the reads of one process do not share buffer bytes or elements (C17). *)
Theorem C77_flush_delivers_partial : forall e cfg np f0 mem ops doff, tame (with_coll e true) cfg np (as_blocking [] (ops ++ [NOp (OFlush doff)])) ->
  settled np false (as_blocking [] (ops ++ [NOp (OFlush doff)])) = true -> issued_well np 0 ops = true ->
  exists st outs st', nrun e (ninit cfg np f0 mem) ops = Ok (st, outs) /\
    nrun e (ninit cfg np f0 mem) (ops ++ [NOp (OFlush doff)]) = Ok (st', outs ++ [[]]) /\
    forall rk, let reads := reads_of rk (pending_reads [] ops) in
      let t := trace_of true np (as_blocking [] ops) in
      ForallOrdPairs (apart_buffers (t_sets t)) reads -> ForallOrdPairs no_common_element reads ->
      Forall (fun c => correct_read (mktr (t_sets t) (publish t) []) (with_mem (n_mem st rk) c)
                         (get (n_mem st' rk) (rc_buf c) (Z.to_nat (buf_size (t_sets t) c)))) reads /\
      (forall a, (forall c, In c reads -> a < rc_buf c \/ rc_buf c + buf_size (t_sets t) c <= a) -> n_mem st' rk a = n_mem st rk a).
Proof. exact nb_delivers. Qed.
Print Assumptions C77_flush_delivers_partial.
Example C77_applies : tame (with_coll e_ind true) cfg_dflt 2 (as_blocking [] (nb_pre ++ [NOp (OFlush 200)])) /\
  tame (with_coll e_ind true) cfg_dflt 2 (as_blocking [] (nb_h ++ [NOp (OFlush 300)])) /\
  settled 2 false (as_blocking [] (nb_pre ++ [NOp (OFlush 200)])) = true /\ settled 2 false (as_blocking [] (nb_h ++ [NOp (OFlush 300)])) = true /\
  issued_well 2 0 nb_pre = true /\ issued_well 2 0 nb_h = true /\
  reads_of 0 (pending_reads [] nb_pre) = [mkrcall 0 [B [0;0] [1;3]] 0 junk; mkrcall 0 [B [1;0] [1;2]] 6 junk] /\
  (let reads := reads_of 0 (pending_reads [] nb_pre) in let t := trace_of true 2 (as_blocking [] nb_pre) in
   ForallOrdPairs (apart_buffers (t_sets t)) reads /\ ForallOrdPairs no_common_element reads) /\
  (exists st outs, nrun e_ind (ninit cfg_dflt 2 f_zero nb_mem) (nb_pre ++ [NOp (OFlush 200)]) = Ok (st, outs) /\
     get (n_mem st 0) 0 10 = [1;2;3;4;9;9;9;9;7;8] /\ get (n_mem st 1) 10 8 = [1;2;3;4;9;9;7;8]) /\
  (exists st outs, nrun e_ind (ninit cfg_dflt 2 f_zero nb_mem) (nb_h ++ [NOp (OFlush 300)]) = Ok (st, outs) /\ get (n_mem st 1) 2 2 = [5;5] /\ get (n_mem st 0) 0 10 = [1;2;3;4;9;9;9;9;7;8]).
Proof. exact nb_ex. Qed.

(** The blocking reads of such a program are right as well, and leave the queued ones alone. *)
Theorem C77_blocking_reads_partial : forall e cfg np f0 mem ops doff calls, tame (with_coll e true) cfg np (as_blocking [] (ops ++ [NOp (ORead doff calls)])) ->
  settled np false (as_blocking [] (ops ++ [NOp (ORead doff calls)])) = true -> issued_well np 0 ops = true ->
  exists st outs s' bufs, nrun e (ninit cfg np f0 mem) ops = Ok (st, outs) /\
    nstep e st (NOp (ORead doff calls)) = Ok (mknst s' (n_mem st) (n_rreqs st), [bufs]) /\
    let t := trace_of true np (as_blocking [] ops) in Forall2 (correct_read (mktr (t_sets t) (publish t) [])) calls bufs.
Proof. exact nb_blocking. Qed.
Print Assumptions C77_blocking_reads_partial.
Example C77_blocking_applies : tame (with_coll e_ind true) cfg_dflt 2 (as_blocking [] (nb_pre ++ [NOp (OFlush 200); nb_rd] ++ [NOp (ORead 300 [mkrcall 0 [B [1;1] [1;1]] 0 junk])])) /\
  settled 2 false (as_blocking [] (nb_pre ++ [NOp (OFlush 200); nb_rd] ++ [NOp (ORead 300 [mkrcall 0 [B [1;1] [1;1]] 0 junk])])) = true /\ issued_well 2 0 (nb_pre ++ [NOp (OFlush 200); nb_rd]) = true.
Proof. exact nb_blocking_ex. Qed.

(** Until H5Fflush no byte of any buffer changes, whatever the program does. *)
Theorem C77_not_before_flush : forall e ops st st' outs, Forall no_flush ops -> nrun e st ops = Ok (st', outs) -> n_mem st' = n_mem st.
Proof. exact nb_untouched. Qed.
Print Assumptions C77_not_before_flush.
Example C77_before : Forall no_flush (skipn 3 nb_pre) /\ exists st outs, nrun e_ind (ninit cfg_dflt 2 f_zero nb_mem) nb_pre = Ok (st, outs) /\ length (n_rreqs st) = 3%nat.
Proof. split; [repeat constructor|]. eexists. eexists. split; [vm_compute; reflexivity|reflexivity]. Qed.

(** H5Fclose does not complete reads: it succeeds and forgets them.  A read that no flush follows before the
    file is closed might as well not have been issued: results, memory and file are the same, whatever comes
    afterwards. *)
Theorem C77_close_completes_refuted : forall e pre st rk c mid doff np rest st1 outs1, Forall stays_open mid ->
  nrun e st (pre ++ [NRead rk c]) = Ok (st1, outs1) ->
  nrun e st (pre ++ NRead rk c :: mid ++ NOp (OReopen doff np) :: rest) = nrun e st (pre ++ mid ++ NOp (OReopen doff np) :: rest).
Proof. exact nb_dropped. Qed.
Print Assumptions C77_close_completes_refuted.
Example C77_dropped :
  let pre := [NOp (OCreate dA); NOp (OWrite 0 0 [B [0;0] [1;2]] [1;2;3;4]); NOp (OFlush 100)] in
  (exists st outs, nrun e_ind (ninit cfg_dflt 2 f_zero nb_mem) (pre ++ [nb_rd]) = Ok (st, outs)) /\
  (exists st outs, nrun e_ind (ninit cfg_dflt 2 f_zero nb_mem) (pre ++ nb_rd :: [] ++ [NOp (OReopen 200 2); NOp (OFlush 300)]) = Ok (st, outs) /\ get (n_mem st 1) 10 8 = [77;77;77;77;77;77;77;77]) /\
  (exists st outs, nrun e_ind (ninit cfg_dflt 2 f_zero nb_mem) (pre ++ nb_rd :: [NOp (OFlush 150)] ++ [NOp (OReopen 200 2); NOp (OFlush 300)]) = Ok (st, outs) /\ get (n_mem st 1) 10 8 = [1;2;3;4;9;9;9;9]).
Proof. exact nb_dropped_ex. Qed.
