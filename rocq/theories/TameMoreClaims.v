(** Tame histories (TameSpec.v): the claims stated for [ok_history] hold of them. *)
From Verif Require Import Base BaseProofs Spec MetaModel QueueModel FlushModel IndexModel ReadModel SelModel SelSpec SysModel
  SysSpec History HistoryProofs ClaimProofs ClaimProofs2 SysCheck Examples SizedProofs DefSpec DefProofs AnySpec TameSpec TameProofs AnyClaims PendModel PendSpec PendClaims PendExamples ApiModel ApiSpec ApiSim ApiClaims SelExamples.

Lemma api_reads_tame : forall e order cfg np f0 us, is_order order -> legal_program order np us ->
  exists ops, operations order np us = Ok ops /\ (tame e cfg np ops ->
    exists s mems, arun e order (init cfg np f0) (map call_of us) = Ok (s, mems) /\ length mems = length us /\
      forall i doff l, nth_error us i = Some (URead doff l) ->
        exists ms, nth_error mems i = Some ms /\
          let t := utrace np (firstn i us) in
          Forall2 (fun ap m => correct_memory (t_sets t) (publish t) (fst ap) (snd ap) m) l ms).
Proof.
  intros e order cfg np f0 us HO HL.
  assert (exists ops, operations order np us = Ok ops) as [ops Ho].
  { destruct (api_reads_any (mkenv (e_zlib e) (e_kind e) (e_limit e) (e_sort e) true) order cfg (mkconv (fun _ _ => false) (fun _ => 1)) np f0 us eq_refl HO HL) as (ops & H & _). eauto. }
  exists ops. split; [exact Ho|]. intros T. destruct (tame_ok _ _ _ _ T) as [cv H]. destruct T as [E _].
  destruct (api_reads_any e order cfg cv np f0 us E HO HL) as (ops' & Ho' & K). assert (ops' = ops) by congruence. subst ops'. exact (K H).
Qed.

Lemma pending_reads_tame : forall e cfg np f0 ops doff calls mem,
  tame e cfg np (ops ++ [ORead doff (map (with_mem mem) calls)]) ->
  exists s outs s1 bufs,
    run e (init cfg np f0) ops = Ok (s, outs) /\
    step e s (ORead doff (map (with_mem mem) calls)) = Ok (s1, bufs) /\
    (ForallOrdPairs apart_in_memory (combine calls bufs) -> ForallOrdPairs no_common_element calls ->
     exists s2 mem', flush_reads e s doff mem calls = Ok (s2, mem') /\
       Forall2 (fun c buf => get mem' (rc_buf c) (length buf) = buf) calls bufs /\
       (forall a, (forall c buf, In (c, buf) (combine calls bufs) -> a < rc_buf c \/ rc_buf c + Zlen buf <= a) ->
          mem' a = mem a)).
Proof. intros e cfg np f0 ops doff calls mem T. destruct (tame_ok _ _ _ _ T) as [cv H]. destruct T as [E _]. exact (pending_reads e cfg cv np f0 ops doff calls mem E H). Qed.

Lemma highest_rank_tame : forall e cfg np f0 ops doff doff' did sels buf mem r k x v,
  let t := trace_of true np ops in
  tame e cfg np ((ops ++ [OFlush doff]) ++ [ORead doff' [mkrcall did sels buf mem]]) ->
  nth_error (sel_coords sels) k = Some x ->
  last_assigned did x (nth r (t_pend t) []) = Some v ->
  (forall r', (r < r')%nat -> last_assigned did x (nth r' (t_pend t) []) = None) ->
  exists s outs out d, run e (init cfg np f0) ((ops ++ [OFlush doff]) ++ [ORead doff' [mkrcall did sels buf mem]]) = Ok (s, outs ++ [[out]]) /\
    nth_error (t_sets t) (Z.to_nat did) = Some d /\ nth_error (elems (di_esize d) out) k = Some v.
Proof.
  intros e cfg np f0 ops doff doff' did sels buf mem r k x v t T. destruct (tame_ok _ _ _ _ T) as [cv H]. destruct T as [E _].
  pose proof (highest_rank_wins e cfg cv np f0 ops doff doff' did sels buf mem r k x v) as K. rewrite E in K. exact (K H).
Qed.

Lemma u_ex_tame : exists ops, operations iorder 2 u_ex = Ok ops /\ tame e_dflt cfg_dflt 2 ops /\ tame e_small cfg_dflt 2 ops /\ tame e_arr 4 2 ops.
Proof. eexists. split; [vm_compute; reflexivity|]. split; [tame_dflt|]. split; [tame_dflt|tame_coords]. Qed.
Lemma p_calls_tame : tame e_dflt cfg_dflt 2 (h_pre ++ [ORead 1000 (map (with_mem junk) p_calls)]) /\ tame e_arr cfg_dflt 2 (h_pre ++ [ORead 1000 (map (with_mem junk) p_calls)]) /\
  tame e_small cfg_dflt 2 (h_pre ++ [ORead 1000 (map (with_mem junk) p_calls)]).
Proof. split; [tame_dflt|]. split; [tame_arr 2|tame_dflt]. Qed.
Lemma rank_tame : tame e_arr cfg_dflt 2 ((firstn 6 h_pre ++ [OFlush 100]) ++ [ORead 1000 [mkrcall 0 [B [0;0] [4;6]] 0 junk]]) /\
  tame e_small cfg_dflt 2 ((firstn 6 h_pre ++ [OFlush 100]) ++ [ORead 1000 [mkrcall 0 [B [0;0] [4;6]] 0 junk]]).
Proof. split; [tame_arr 2|tame_dflt]. Qed.
