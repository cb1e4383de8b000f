(** Lemmas behind P_Int.v, continued: what a program reads back. *)
From Coq Require Import ZifyNat ZifyN.
From Verif Require Import Base BaseProofs Spec MetaModel QueueModel FlushModel IndexModel ReadModel SysModel SysSpec History
  GeomProofs StoreProofs HistoryProofs SysCheck Examples ClaimProofs SizedProofs DefSpec DefProofs AnySpec AnyProofs TameSpec AnyClaims
  IntModel IntSpec IntClaims IntClaims2 IntClaims3 IntClaims4.

Lemma last_of_nodup : forall did cs vs k c, NoDup cs -> length vs = length cs -> nth_error cs k = Some c ->
  last_assigned did c (map (fun cv => (did, fst cv, snd cv)) (combine cs vs)) = nth_error vs k.
Proof.
  intros did cs. induction cs as [|x cs IH]; intros [|v vs] k c HN HL HK; try discriminate; [destruct k; discriminate|]. inversion HN; subst. cbn [combine map last_assigned fst snd].
  rewrite Z.eqb_refl. cbn [andb]. destruct k as [|k]; cbn [nth_error] in *.
  - injection HK as ->. rewrite last_assigned_none.
    + replace (coord_eqb c c) with true; [reflexivity|]. symmetry. apply coord_eqb_eq. reflexivity.
    + intros w Hin. apply in_map_iff in Hin. destruct Hin as ([a b] & E & Hin). cbn in E. injection E as -> ->. apply in_combine_l in Hin. contradiction.
  - rewrite (IH vs k c); auto. assert (HX : nth_error vs k <> None) by (apply nth_error_Some; cbn in HL; assert (nth_error cs k <> None) by congruence; apply nth_error_Some in H; lia).
    destruct (nth_error vs k); [reflexivity|congruence].
Qed.

Lemma silent : forall e ops s s' outs, run e s ops = Ok (s', outs) -> Forall2 (fun o out => match o with ORead _ _ => True | _ => out = [] end) ops outs.
Proof.
  intros e. induction ops as [|o ops IH]; intros s s' outs H; cbn [run] in H; [injection H as <- <-; constructor|].
  destruct (step e s o) as [[s1 o1]| |] eqn:E; cbn [bind fst snd] in H; try discriminate. destruct (run e s1 ops) as [[s2 o2]| |] eqn:R; cbn [bind fst snd] in H; try discriminate. injection H as <- <-.
  constructor; [|eapply IH; eauto]. destruct o as [d|did dims|rk did sels data|doff|doff calls|doff np]; cbn [step] in E; auto.
  - destruct (create_info _ d); try discriminate. injection E as <- <-. auto.
  - destruct (info_at _ did) as [[i|]|]; try discriminate. destruct (set_extent _ i dims) as [i' [|]]; try discriminate. injection E as <- <-. auto.
  - destruct (nth_error _ rk); try discriminate. destruct (ds_write _ _ _ _ _ _ _); try discriminate. injection E as <- <-. auto.
  - injection E as <- <-. auto.
  - destruct (reopen_infos _ _); try discriminate. injection E as <- <-. auto.
Qed.

Lemma whole_len : forall a b, 0 < a -> 0 < b -> Zlen (sel_coords (whole a b)) = a * b.
Proof.
  intros a b Ha Hb. unfold sel_coords, whole. cbn [flat_map]. rewrite app_nil_r. unfold coords, Zlen. cbn [b_start b_count]. rewrite coords_of_length; [|reflexivity|repeat constructor; lia].
  unfold Zprod. cbn [fold_right]. lia.
Qed.

Lemma whole_tame : forall es a b doff mem data, 0 < es -> 0 < a -> 0 < b -> a * es < 2 ^ 31 -> b * es < 2 ^ 31 ->
  Zlen data = es * (a * b) -> 0 <= doff -> doff + es * (a * b) < 2 ^ 62 -> tame e_dflt cfg_dflt 1 (whole_history es a b doff mem data).
Proof.
  intros es a b doff mem data He Ha Hb Hae Hbe HD Hd0 Hd1. pose proof (whole_len a b Ha Hb) as HW.
  assert (HAS : Zsum (map (fun a : assignment => Zlen (snd a)) (assigns_of es 0 (whole a b) data)) = es * (a * b)) by (rewrite assigns_sum; [exact HD|exact He|rewrite HW; exact HD]).
  assert (HB : Forall (block_in (wide es a b)) (whole a b)) by (constructor; [|constructor]; unfold block_in; cbn; lia).
  split; [reflexivity|]. split; [auto|]. split; [exact isort_is_sort|]. split; [vm_compute; intuition discriminate|]. split; [|split].
  - split; [lia|]. split; [reflexivity|]. split; [reflexivity|]. unfold whole_history. cbn [legal_run legal_op tstep log_end repeat t_sets t_pub t_pend app].
    assert (PB : forall s p, pending_bytes (mktr s p [assigns_of es 0 (whole a b) data]) = es * (a * b)) by (intros; unfold pending_bytes; cbn [t_pend concat]; rewrite app_nil_r; exact HAS).
    assert (NZ : 0 < es * (a * b)) by (repeat apply Z.mul_pos_pos; auto).
    split; [split; [exact He|split; [|exact Logic.I]]; repeat constructor; cbn; try lia; right; lia|].
    split; [split; [cbn; lia|]; exists (wide es a b); split; [split; [lia|reflexivity]|]; split; [exact HB|]; cbn [di_esize wide]; rewrite HW; exact HD|].
    cbn [upd_nth nth esize_at nth_error Z.to_nat di_esize wide app]. fold (wide es a b).
    unfold placed_after. rewrite !PB. replace (es * (a * b) =? 0) with false by (symmetry; apply Z.eqb_neq; lia).
    split; [split; lia|]. cbn [map]. assert (P0 : forall s p, pending_bytes (mktr s p [[]]) = 0) by reflexivity. rewrite P0.
    split; [|exact Logic.I]. split; [split; [lia|]; lia|]. split; [discriminate|]. constructor; [|constructor]. split; [discriminate|]. exists (wide es a b). split; [split; [cbn; lia|reflexivity]|exact HB].
  - assert (HS : Forall sized_set [wide es a b]).
    { constructor; [|constructor]. unfold sized_set. cbn [di_dims di_esize wide]. split; [cbn; lia|]. split; [nia|]. repeat constructor; nia. }
    unfold sized_history, whole_history. cbn [sized_run sized_op tstep t_sets t_pub t_pend repeat app]. split; [constructor|]. split; [exact Logic.I|].
    split; [exact HS|]. split; [unfold Zlen; cbn; lia|]. split; [exact HS|]. split; [exact Logic.I|]. split; [exact HS|]. split; [repeat constructor|]. split; [exact HS|exact Logic.I].
  - right. left. split; [reflexivity|]. unfold default_history, whole_history. cbn [default_run default_op]. split; [discriminate|]. split; [|repeat split].
    intros d (_ & HN). cbn in HN. injection HN as <-. split; [cbn; lia|]. intros _ (HU & _). cbn in HU. unfold UNLIMITED in HU. exfalso. nia.
Qed.

Lemma whole_lost : forall es a b doff mem f0 data, 0 < es -> 0 < a -> 0 < b -> a * es < 2 ^ 31 -> b * es < 2 ^ 31 ->
  Zlen data = es * (a * b) -> 0 <= doff -> doff + es * (a * b) < 2 ^ 62 -> Zlen data mod 2 ^ 32 < 2 ^ 31 ->
  exists buf, observed (run_int e_dflt (init cfg_dflt 1 f0) (whole_history es a b doff mem data)) = Ok [[]; []; []; [buf]] /\
    elems es buf = elems es (counted data ++ get f0 (doff + Zlen (counted data)) (length data - length (counted data))).
Proof.
  intros es a b doff mem f0 data He Ha Hb Hae Hbe HD Hd0 Hd1 HM.
  assert (NZ : 0 < es * (a * b)) by (repeat apply Z.mul_pos_pos; auto).
  set (data' := counted data ++ get f0 (doff + Zlen (counted data)) (length data - length (counted data))).
  assert (HL : length (counted data) = Z.to_nat (Zlen data mod 2 ^ 32) /\ (length (counted data) <= length data)%nat).
  { unfold counted. rewrite firstn_length. pose proof (Z.mod_le (Zlen data) (2 ^ 32)). unfold Zlen in *. lia. }
  assert (HZ : Zlen data' = Zlen data) by (unfold data', Zlen; rewrite app_length, get_length; lia).
  assert (HT : tame e_dflt cfg_dflt 1 (whole_history es a b doff mem data')) by (apply whole_tame; auto; lia).
  destruct (tame_one e_dflt cfg_dflt f0 _ HT ltac:(repeat constructor)) as (s & outs & HR & HLN & HRD).
  specialize (HRD 3%nat _ _ eq_refl). destruct HRD as (bufs & HB & HF). inversion HF as [|c buf cs bs HC HF' E1 E2]; subst. inversion HF'; subst. clear HF HF'.
  destruct HC as (d & HDS & HEL & HEX). cbn in HDS. injection HDS as <-. cbn [rc_sels rc_did di_esize wide] in *.
  pose proof (large_cut e_dflt cfg_dflt 1 f0 [OCreate (wide es a b)] (mksys (set_infos (s_g (init cfg_dflt 1 f0)) [Some (mkdinfo es [a; b] [a; b] (dsteps_of [a; b]) None)]) None) [[]] 0%nat [(0, whole a b)] [data] [data'] doff [ORead (doff + es * (a * b)) [mkrcall 0 (whole a b) 0 mem]]) as HC.
  exists buf. split.
  - unfold whole_history. cbn [writes combine map fst snd app flat_map concat] in HC. rewrite !app_nil_r in HC. rewrite HC; auto.
    + unfold whole_history in HR. rewrite HR. cbn [observed snd]. f_equal. destruct outs as [|o0 [|o1 [|o2 [|o3 [|o4 outs]]]]]; try discriminate. cbn in HB. injection HB as ->.
      apply silent in HR. repeat match goal with H : Forall2 _ (_ :: _) _ |- _ => inversion H; clear H; subst end. reflexivity.
    + reflexivity.
    + constructor; [|constructor]. cbn. lia.
    + repeat constructor.
    + reflexivity.
    + constructor; [|constructor]. cbn [snd]. split; [discriminate|]. unfold whole, Zlen. cbn. lia.
    + intros E. rewrite E in HD. cbn in HD. lia.
    + cbn [map]. rewrite HZ. reflexivity.
  - pose proof (whole_len a b Ha Hb) as HW. assert (HAB : 0 <= a * b) by lia.
    destruct (elems_spec es data' (a * b) He HAB ltac:(rewrite HZ; exact HD)) as (EL & _).
    apply ReadOneProofs.nth_error_ext. intros k. destruct (nth_error (sel_coords (whole a b)) k) as [x|] eqn:EX.
    + rewrite (HEX k x EX). cbn [firstn whole_history program_order app]. unfold expected. cbn [esize_at nth_error Z.to_nat di_esize wide rc_did].
      rewrite app_nil_r. unfold assigns_of. rewrite (last_of_nodup 0 _ _ k x).
      * assert (HX : nth_error (elems es data') k <> None). { apply nth_error_Some. rewrite EL. assert (nth_error (sel_coords (whole a b)) k <> None) by congruence. apply nth_error_Some in H. unfold Zlen in HW. lia. }
        fold data'. destruct (nth_error (elems es data') k); [reflexivity|congruence].
      * unfold sel_coords, whole. cbn [flat_map]. rewrite app_nil_r. apply coords_of_NoDup. reflexivity.
      * rewrite EL. unfold Zlen in HW. lia.
      * exact EX.
    + apply nth_error_None in EX. unfold Zlen in HW. rewrite !(proj2 (nth_error_None _ _)); auto; [rewrite EL; lia|rewrite HEL; exact EX].
Qed.

(** ** Examples *)
Lemma modest_ex : modest cfg_dflt 2 h_full /\ modest 18 2 h_full.
Proof. assert (H : forall cfg, modest cfg 2 h_full) by (intros; unfold modest, h_full; repeat constructor; vm_compute; try discriminate; auto). auto. Qed.

Lemma queued_ex : forall data, exists s outs, run_int e_dflt (init cfg_dflt 1 f_zero) ([OCreate (wide 1 65536 32768)] ++ OWrite 0 0 (whole 65536 32768) data :: [OCreate dA]) = Ok (s, outs).
Proof. intros. eexists. eexists. vm_compute. reflexivity. Qed.
Lemma long_list : forall n, 0 <= n -> exists data : list Z, Zlen data = n.
Proof. intros n H. exists (repeat 7 (Z.to_nat n)). unfold Zlen. rewrite repeat_length. lia. Qed.
Lemma refused_ex : exists data s outs, Zlen data = 1 * (65536 * 32768) /\ 2 ^ 31 <= Zlen data mod 2 ^ 32 /\
  run_int e_dflt (init cfg_dflt 1 f_zero) ([OCreate (wide 1 65536 32768)] ++ OWrite 0 0 (whole 65536 32768) data :: [OCreate dA]) = Ok (s, outs) /\
  Forall queues [OCreate dA] /\ flushes e_dflt (OFlush 100) /\ flushes e_dflt (OReopen 100 1) /\ flushes e_dflt (ORead 100 []).
Proof.
  destruct (long_list (1 * (65536 * 32768)) ltac:(lia)) as (data & HD). destruct (queued_ex data) as (s & outs & H). exists data, s, outs. split; auto. split; [rewrite HD; vm_compute; discriminate|]. split; [exact H|].
  split; [repeat constructor|]. repeat split.
Qed.
Lemma lost_ex : exists data, Zlen data = 1 * (65536 * 65536) /\ 65536 * 1 < 2 ^ 31 /\ 100 + 1 * (65536 * 65536) < 2 ^ 62 /\ Zlen data mod 2 ^ 32 < 2 ^ 31 /\ counted data = [].
Proof.
  destruct (long_list (1 * (65536 * 65536)) ltac:(lia)) as (data & HD). exists data. split; auto. split; [reflexivity|]. split; [reflexivity|]. unfold counted. rewrite HD. split; reflexivity.
Qed.
