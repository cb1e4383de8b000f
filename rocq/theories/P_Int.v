(** Property C74: writes of any amount of data.

    [run_int] is [run] with the sizes held in C ints (IntModel.v); [modest cfg np ops]: every write has
    fewer than 2^31 bytes and at most 2^21 blocks, datasets have at most 32 dimensions, and with
    H5VL_LOG_PASSTHRU the whole history writes fewer than 2^31 bytes; [queues o]: [o] creates, resizes or
    writes a dataset; [flushes e o]: [o] is a flush, a closing or a collective read; [counted data]: the
    first |data| mod 2^32 bytes; [observed r]: what the calls of a run return (IntSpec.v, AnySpec.v). *)
From Verif Require Import Base Spec MetaModel QueueModel FlushModel IndexModel ReadModel SysModel AnySpec Examples
  IntModel IntSpec IntClaims IntClaims2 IntClaims3 IntClaims4 IntClaims5.

(** ** C74 A write of any amount of data is stored whole

    Below 2 GiB per write the ints make no difference: what every other theorem says of [run] is said
    of [run_int]. *)
Theorem C74_below_2GiB_partial : forall e cfg np f0 ops, modest cfg np ops ->
  run_int e (init cfg np f0) ops = run e (init cfg np f0) ops.
Proof. exact moderate_whole. Qed.
Print Assumptions C74_below_2GiB_partial.
Example C74_below_2GiB_applies : modest cfg_dflt 2 h_full /\ modest 18 2 h_full.
Proof. exact modest_ex. Qed.

(** A write of between 2 and 4 GiB (or so many more than a multiple of 4 GiB) is accepted, and so are
    further writes, but every flush, closing or collective read after it fails; with H5VL_LOG_PASSTHRU,
    from 2 GiB on, it is undefined. *)
Theorem C74_2GiB_refuted : forall e cfg np f0 ops rk did b sels data later s outs o,
  run_int e (init cfg np f0) (ops ++ OWrite rk did (b :: sels) data :: later) = Ok (s, outs) ->
  Forall queues later -> flushes e o -> Zlen ops + 1 + Zlen later < 2 ^ 31 ->
  (has cfg CFG_PASSTHRU = false -> 2 ^ 31 <= Zlen data mod 2 ^ 32 ->
   run_int e (init cfg np f0) ((ops ++ OWrite rk did (b :: sels) data :: later) ++ [o]) = Err) /\
  (has cfg CFG_PASSTHRU = true -> 2 ^ 31 <= Zlen data ->
   run_int e (init cfg np f0) ((ops ++ OWrite rk did (b :: sels) data :: later) ++ [o]) = UB).
Proof. exact large_refused. Qed.
Print Assumptions C74_2GiB_refuted.
Example C74_2GiB_applies : exists data s outs, Zlen data = 1 * (65536 * 32768) /\ 2 ^ 31 <= Zlen data mod 2 ^ 32 /\
  run_int e_dflt (init cfg_dflt 1 f_zero) ([OCreate (wide 1 65536 32768)] ++ OWrite 0 0 (whole 65536 32768) data :: [OCreate dA]) = Ok (s, outs) /\
  Forall queues [OCreate dA] /\ flushes e_dflt (OFlush 100) /\ flushes e_dflt (OReopen 100 1) /\ flushes e_dflt (ORead 100 []).
Proof. exact refused_ex. Qed.

(** Other writes of 4 GiB and more: every call succeeds and the program goes on as if it had written
    other data.  One process makes the writes [l] of [datas] with nothing pending before; what is stored
    are the counted parts one after the other, then whatever the file held at that place ([datas']), cut
    where the full sizes say. *)
Theorem C74_4GiB_refuted : forall e cfg np f0 ops s outs rk l datas datas' doff later,
  has cfg CFG_PASSTHRU = false -> Z.of_nat np < 2 ^ 20 -> Forall moderate ops -> Forall moderate later ->
  Zlen ops + Zlen l + 1 + Zlen later < 2 ^ 31 ->
  run e (init cfg np f0) ops = Ok (s, outs) -> any_pending (s_g s) = false ->
  length l = length datas -> Forall (fun p => snd p <> [] /\ Zlen (snd p) <= 2 ^ 21) l ->
  Forall (fun d => Zlen d mod 2 ^ 32 < 2 ^ 31) datas -> concat datas <> [] ->
  map (@Zlen Z) datas' = map (@Zlen Z) datas ->
  concat datas' = flat_map counted datas ++
    get (g_file (s_g s)) (doff + Zlen (flat_map counted datas)) (length (concat datas) - length (flat_map counted datas)) ->
  observed (run_int e (init cfg np f0) (ops ++ writes rk l datas ++ OFlush doff :: later)) =
  observed (run e (init cfg np f0) (ops ++ writes rk l datas' ++ OFlush doff :: later)).
Proof. exact large_cut. Qed.
Print Assumptions C74_4GiB_refuted.

(** For instance a program that writes a whole dataset and reads it back: from the counted part on it
    gets what was in the file before. *)
Theorem C74_read_back_refuted : forall es a b doff mem f0 data,
  0 < es -> 0 < a -> 0 < b -> a * es < 2 ^ 31 -> b * es < 2 ^ 31 ->
  Zlen data = es * (a * b) -> 0 <= doff -> doff + es * (a * b) < 2 ^ 62 -> Zlen data mod 2 ^ 32 < 2 ^ 31 ->
  exists buf, observed (run_int e_dflt (init cfg_dflt 1 f0) (whole_history es a b doff mem data)) = Ok [[]; []; []; [buf]] /\
    elems es buf = elems es (counted data ++ get f0 (doff + Zlen (counted data)) (length data - length (counted data))).
Proof. exact whole_lost. Qed.
Print Assumptions C74_read_back_refuted.
(** Of exactly 4 GiB nothing is stored. *)
Example C74_read_back_applies : exists data, Zlen data = 1 * (65536 * 65536) /\ 65536 * 1 < 2 ^ 31 /\
  100 + 1 * (65536 * 65536) < 2 ^ 62 /\ Zlen data mod 2 ^ 32 < 2 ^ 31 /\ counted data = [].
Proof. exact lost_ex. Qed.
