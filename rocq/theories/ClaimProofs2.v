(** Remaining lemmas behind P_System.v, including the refutation witnesses. *)
From Verif Require Import Base BaseProofs Spec MetaModel QueueModel FlushModel IndexModel ReadModel SysModel
  SysSpec History SysProofs HistoryProofs ClaimProofs SysCheck Examples.
From Coq Require Import ZifyNat ZifyN.

Lemma simple_reads : forall e cfg f0 ops,
  e_coll e = true -> e_limit e = None -> is_sort (e_sort e) -> plain_cfg cfg ->
  Forall one_process ops -> Forall simple_op ops -> legal_history true 1 ops ->
  exists s outs, run e (init cfg 1 f0) ops = Ok (s, outs) /\ length outs = length ops /\
    forall i doff calls, nth_error ops i = Some (ORead doff calls) ->
      exists bufs, nth_error outs i = Some bufs /\
        Forall2 (fun c buf => exists d,
          nth_error (t_sets (trace_of true 1 (firstn i ops))) (Z.to_nat (rc_did c)) = Some d /\
          length (elems (di_esize d) buf) = length (sel_coords (rc_sels c)) /\
          forall k x, nth_error (sel_coords (rc_sels c)) k = Some x ->
            nth_error (elems (di_esize d) buf) k
              = Some (expected (program_order [] (firstn i ops)) d c k x)) calls bufs.
Proof.
  intros e cfg f0 ops E1 E2 E3 E4 H1 H2 H3. apply (one_process_reads e cfg (mkconv (fun _ _ => false) (fun _ => 1))); auto. apply simple_ok; auto. rewrite E1. exact H3.
Qed.

Definition h_simple : list op :=
  [ OCreate dA; OCreate (mkdinfo 1 [5] [7] [] None);
    OWrite 0 0 [B [0;0] [2;3]] (by_ 10 12); OWrite 0 1 [B [2] [3]] (by_ 60 3); OFlush 100;
    OWrite 0 0 [B [1;1] [2;4]] (by_ 100 16);
    ORead 1000 [mkrcall 0 [B [0;0] [4;6]] 0 junk; mkrcall 1 [B [0] [5]] 8 junk];
    OReopen 5000 1; OWrite 0 0 [B [0;0] [1;1]] [5;6]; ORead 9000 [mkrcall 0 [B [0;0] [4;6]] 0 junk]].
Lemma h_simple_ok : Forall one_process h_simple /\ Forall simple_op h_simple /\ legal_history true 1 h_simple.
Proof.
  split; [repeat constructor|]. split; [|legal].
  unfold h_simple, dA. repeat (apply Forall_cons); try apply Forall_nil; cbn [simple_op]; auto; try reflexivity.
  - split; [cbn; lia|]. split; [vm_compute; discriminate|]. cbn. repeat constructor; lia.
  - split; [cbn; lia|]. split; [vm_compute; discriminate|]. cbn. repeat constructor; lia.
Qed.

(** A read result that differs at one element is not correct. *)
Lemma wrong_at : forall t c d buf k x, nth_error (t_sets t) (Z.to_nat (rc_did c)) = Some d ->
  nth_error (sel_coords (rc_sels c)) k = Some x -> nth_error (elems (di_esize d) buf) k <> Some (expected (t_pub t) d c k x) -> ~ correct_read t c buf.
Proof. intros t c d buf k x H1 H2 H3 (d' & D1 & _ & _ & D4). rewrite H1 in D1. injection D1 as <-. apply H3. apply D4. exact H2. Qed.
Lemma wrong_read : forall t c cs b bs, ~ correct_read t c b -> ~ Forall2 (correct_read t) (c :: cs) (b :: bs).
Proof. intros t c cs b bs H F. inversion F; subst. auto. Qed.
Ltac wrong k x d := apply wrong_read; apply (wrong_at _ _ d _ k x); [vm_compute; reflexivity|vm_compute; reflexivity|vm_compute; discriminate].

Lemma wide_refuted : exists ops doff calls s outs bufs,
  Forall one_process ops /\ legal_history true 1 (ops ++ [ORead doff calls]) /\
  run e_dflt (init cfg_dflt 1 f_zero) (ops ++ [ORead doff calls]) = Ok (s, outs ++ [bufs]) /\
  ~ Forall2 (correct_read (trace_of true 1 (ops ++ [ORead doff calls]))) calls bufs.
Proof.
  exists w_wide, 100, rd_sq. eexists. exists [[]; []], [[9; 9; 9; 9; 9; 9; 9; 9; 9; 9; 9; 9; 10; 11; 9; 9]].
  split; [repeat constructor|]. split; [legal|]. split; [vm_compute; reflexivity|]. wrong 0%nat [0; 0] sq.
Qed.

Lemma unwritten_reads : forall e cfg cv np f0 ops, ok_history e cfg cv np ops ->
  exists s outs, run e (init cfg np f0) ops = Ok (s, outs) /\ length outs = length ops /\
    forall i doff calls, nth_error ops i = Some (ORead doff calls) ->
      exists bufs, nth_error outs i = Some bufs /\
        Forall2 (fun c buf => exists d,
          nth_error (t_sets (trace_of (e_coll e) np (firstn i ops))) (Z.to_nat (rc_did c)) = Some d /\
          forall k x, nth_error (sel_coords (rc_sels c)) k = Some x ->
            ~ ever_written (rc_did c) x (firstn i ops) ->
            nth_error (elems (di_esize d) buf) k =
              Some (match di_fill d with
                    | Some f => f
                    | None => get (rc_mem c) (rc_buf c + di_esize d * Z.of_nat k) (Z.to_nat (di_esize d))
                    end)) calls bufs.
Proof.
  intros e cfg cv np f0 ops H. destruct (all_reads_correct _ _ _ _ f0 _ H) as (s & outs & R1 & R2 & R3). exists s, outs. split; auto. split; auto.
  intros i doff calls Hi. destruct (R3 _ _ _ Hi) as (bufs & B1 & B2). exists bufs. split; auto. rewrite (firstn_S_app _ _ _ _ Hi) in B2.
  eapply Forall2_impl; [|exact B2]. intros c buf (d & D1 & D2 & D3 & D4). exists d. split.
  - rewrite trace_snoc in D1. cbn [tstep] in D1. destruct (e_coll e); exact D1.
  - intros k x Hk Hn. rewrite (D4 k x Hk). unfold expected. rewrite never_written; auto.
    intros Q. apply Hn. unfold ever_written in *. apply Exists_app in Q. destruct Q as [Q|Q]; auto. inversion Q as [? ? Q1|? ? Q1]; subst; [destruct Q1|inversion Q1].
Qed.

Definition written_b (did : Z) (x : list Z) (o : op) : bool :=
  match o with OWrite _ did' sels _ => (did' =? did) && existsb (coord_eqb x) (sel_coords sels) | _ => false end.
Lemma never_written_b : forall did x ops, existsb (written_b did x) ops = false -> ~ ever_written did x ops.
Proof.
  intros did x ops H Q. unfold ever_written in Q. apply Exists_exists in Q. destruct Q as (o & Hin & Hs).
  assert (K : existsb (written_b did x) ops = true); [|congruence]. apply existsb_exists. exists o. split; auto. destruct o; try contradiction.
  destruct Hs as [-> Hs]. cbn [written_b]. rewrite Z.eqb_refl. cbn [andb]. apply existsb_exists. exists x. split; auto.
  unfold coord_eqb. destruct (list_eq_dec Z.eq_dec x x); congruence.
Qed.
Lemma h_full_unwritten : ok_history e_dflt cfg_dflt (mkconv (fun _ _ => false) (fun _ => 2)) 2 h_full /\
  ~ ever_written 0 [3; 0] h_full /\ In [3; 0] (sel_coords [B [0;0] [4;6]]).
Proof. split; [exact h_full_ok|]. split; [apply never_written_b; vm_compute; reflexivity|vm_compute; tauto]. Qed.

Lemma highest_rank_wins : forall e cfg cv np f0 ops doff doff' did sels buf mem r k x v,
  let t := trace_of (e_coll e) np ops in
  ok_history e cfg cv np ((ops ++ [OFlush doff]) ++ [ORead doff' [mkrcall did sels buf mem]]) ->
  nth_error (sel_coords sels) k = Some x ->
  last_assigned did x (nth r (t_pend t) []) = Some v ->
  (forall r', (r < r')%nat -> last_assigned did x (nth r' (t_pend t) []) = None) ->
  exists s outs out d, run e (init cfg np f0) ((ops ++ [OFlush doff]) ++ [ORead doff' [mkrcall did sels buf mem]]) = Ok (s, outs ++ [[out]]) /\
    nth_error (t_sets t) (Z.to_nat did) = Some d /\ nth_error (elems (di_esize d) out) k = Some v.
Proof.
  intros e cfg cv np f0 ops doff doff' did sels buf mem r k x v t H Hk Hv Hr.
  destruct (flush_publishes _ _ _ _ f0 _ _ _ _ H) as (s & outs & bufs & R1 & R2). cbv zeta in R2. fold t in R2.
  inversion R2 as [|c0 out cs bs Hc Hcs]; subst. inversion Hcs; subst. destruct Hc as (d & D1 & D2 & D3 & D4).
  exists s, outs, out, d. split; auto. split; [exact D1|]. cbn [rc_did rc_sels t_pub] in *. rewrite (D4 k x Hk). unfold expected. cbn [rc_did].
  rewrite last_assigned_app, (last_assigned_concat _ _ _ _ _ Hv Hr). reflexivity.
Qed.

Lemma cfg_cases : forall cfg, plain_cfg cfg -> In cfg [0; 2; 4; 6; 8; 10; 12; 14].
Proof.
  intros cfg [H1 H2]. assert (H : In cfg (map Z.of_nat (seq 0 16))).
  { apply in_map_iff. exists (Z.to_nat cfg). split; [lia|]. apply in_seq. lia. }
  vm_compute in H. repeat (destruct H as [<-|H]; [try (vm_compute in H2; discriminate H2); vm_compute; tauto|]). contradiction.
Qed.

Lemma sharing_transparent : forall e cfg cv np f0 ops, has cfg CFG_METADATA_SHARE = true ->
  ok_history e cfg cv np ops ->
  exists s s' outs, run e (init cfg np f0) ops = Ok (s, outs) /\
                    run e (init (cfg - CFG_METADATA_SHARE) np f0) ops = Ok (s', outs).
Proof.
  intros e cfg cv np f0 ops Hs H. apply (same_outputs e e cfg _ cv cv); auto.
  destruct (cfg_cases cfg (proj1 H)) as [<-|[<-|[<-|[<-|[<-|[<-|[<-|[<-|[]]]]]]]]]; vm_compute in Hs; try discriminate Hs;
  (eapply ok_history_weaken; [..|exact H]; auto; [apply H|split; [vm_compute; split; [discriminate|reflexivity]|reflexivity]]).
Qed.

Lemma deflate_same : forall z z' kd lim srt coll cfg cv np f0 ops, has cfg CFG_SEL_DEFLATE = true ->
  ok_history (mkenv z kd lim srt coll) cfg cv np ops ->
  exists s s' outs, run (mkenv z kd lim srt coll) (init cfg np f0) ops = Ok (s, outs) /\
                    run (mkenv z' kd lim srt coll) (init (cfg - CFG_SEL_DEFLATE) np f0) ops = Ok (s', outs).
Proof.
  intros z z' kd lim srt coll cfg cv np f0 ops Hs H.
  apply (same_outputs (mkenv z kd lim srt coll) (mkenv z' kd lim srt coll) cfg _ cv cv); auto.
  destruct (cfg_cases cfg (proj1 H)) as [<-|[<-|[<-|[<-|[<-|[<-|[<-|[<-|[]]]]]]]]]; vm_compute in Hs; try discriminate Hs;
  (eapply ok_history_weaken; [..|exact H]; auto; [apply H|split; [vm_compute; split; [discriminate|reflexivity]|reflexivity]]).
Qed.

Lemma kinds_same : forall z lim srt coll cfg cv cv' np f0 ops,
  ok_history (mkenv z KCompact lim srt coll) cfg cv np ops ->
  ok_history (mkenv z KArray lim srt coll) cfg cv' np ops ->
  exists s s' outs, run (mkenv z KCompact lim srt coll) (init cfg np f0) ops = Ok (s, outs) /\
                    run (mkenv z KArray lim srt coll) (init cfg np f0) ops = Ok (s', outs).
Proof. intros z lim srt coll cfg cv cv' np f0 ops H H'. eapply same_outputs; eauto. Qed.
Lemma limits_same : forall z kd lim lim' srt coll cfg cv cv' np f0 ops,
  ok_history (mkenv z kd lim srt coll) cfg cv np ops ->
  ok_history (mkenv z kd lim' srt coll) cfg cv' np ops ->
  exists s s' outs, run (mkenv z kd lim srt coll) (init cfg np f0) ops = Ok (s, outs) /\
                    run (mkenv z kd lim' srt coll) (init cfg np f0) ops = Ok (s', outs).
Proof. intros z kd lim lim' srt coll cfg cv cv' np f0 ops H H'. eapply same_outputs; eauto. Qed.

Lemma rec2_refuted : legal_history true 1 w_rec2 /\
  run e_dflt (init cfg_dflt 1 f_zero) w_rec2 = UB /\
  exists s outs, run e_dflt (init (cfg_dflt - CFG_METADATA_SHARE) 1 f_zero) w_rec2 = Ok (s, outs).
Proof. split; [legal|]. split; [vm_compute; reflexivity|]. eexists. eexists. vm_compute. reflexivity. Qed.
Lemma esize_refuted : legal_history true 1 w_esize /\
  exists s s' outs outs', outs <> outs' /\
    run e_arr (init cfg_dflt 1 f_zero) w_esize = Ok (s, outs) /\
    run e_arr (init (cfg_dflt - CFG_METADATA_SHARE) 1 f_zero) w_esize = Ok (s', outs').
Proof.
  split; [legal|]. eexists. eexists. eexists. eexists. split; [|split; vm_compute; reflexivity]. discriminate.
Qed.
Lemma limit_refuted : let ops := [OCreate sq; ORead 100 rd_sq] in legal_history true 1 ops /\
  run e_small (init cfg_dflt 1 f_zero) ops = Err /\
  exists s outs, run e_dflt (init cfg_dflt 1 f_zero) ops = Ok (s, outs).
Proof. cbv zeta. split; [legal|]. split; [vm_compute; reflexivity|]. eexists. eexists. vm_compute. reflexivity. Qed.
Lemma rejected_refuted : exists d new, snd (set_extent cfg_dflt d new) = false /\
  di_dims (fst (set_extent cfg_dflt d new)) <> di_dims d.
Proof. exists dR, [5; 6]. split; [reflexivity|]. vm_compute. discriminate. Qed.
Lemma shrink_refuted : legal_history true 1 (w_shrink ++ [ORead 1000 [mkrcall 0 [B [1;0] [1;4]] 0 junk]]) /\
  di_fill dR9 = Some [9] /\
  exists s outs, run e_dflt (init cfg_dflt 1 f_zero) (w_shrink ++ [ORead 1000 [mkrcall 0 [B [1;0] [1;4]] 0 junk]])
    = Ok (s, outs ++ [[[10; 11; 12; 13]]]).
Proof. split; [legal|]. split; [reflexivity|]. eexists. exists [[]; []; []; []; []]. vm_compute. reflexivity. Qed.

Lemma independent_reads : forall e cfg cv np f0 ops doff calls, e_coll e = false ->
  ok_history e cfg cv np (ops ++ [ORead doff calls]) ->
  exists s outs bufs, run e (init cfg np f0) (ops ++ [ORead doff calls]) = Ok (s, outs ++ [bufs]) /\
    Forall2 (correct_read (trace_of false np ops)) calls bufs.
Proof.
  intros e cfg cv np f0 ops doff calls He H. destruct (reads_correct _ _ _ _ f0 _ _ _ H) as (s & outs & bufs & R1 & R2 & R3).
  exists s, outs, bufs. split; auto. rewrite He, trace_snoc in R3. exact R3.
Qed.
Lemma indep_refuted : legal_history false 2 (w_indep ++ [ORead 6000 rd_sq]) /\
  exists s outs bufs, run e_indep (init cfg_dflt 2 f_zero) (w_indep ++ [ORead 6000 rd_sq]) = Ok (s, outs ++ [bufs]) /\
    ~ Forall2 (correct_read (trace_of false 2 (w_indep ++ [ORead 6000 rd_sq]))) rd_sq bufs.
Proof.
  split; [legal|]. eexists. exists [[]; []; []; []; [[10; 11; 12; 13; 0; 0; 0; 0; 9; 9; 9; 9; 9; 9; 9; 9]]; []], [[10; 11; 12; 13; 0; 0; 0; 0; 9; 9; 9; 9; 9; 9; 9; 9]].
  split; [vm_compute; reflexivity|]. wrong 4%nat [1; 0] sq.
Qed.

Lemma scalar_round_trip : forall e cfg f0 es v fill doff buf mem,
  plain_cfg cfg -> has cfg CFG_SEL_ENCODE = false -> is_sort (e_sort e) -> e_coll e = true ->
  0 < es < 2 ^ 31 -> Zlen v = es -> match fill with Some f => Zlen f = es | None => True end -> 0 <= doff < 2 ^ 62 ->
  exists s, run e (init cfg 1 f0)
      [OCreate (mkdinfo es [] [] [] fill); OWrite 0 0 [mkblock [] []] v; ORead doff [mkrcall 0 [mkblock [] []] buf mem]]
    = Ok (s, [[]; []; [v]]).
Proof.
  intros e cfg f0 es v fill doff buf mem Hp He Hs Hc Hes Hv Hf Hd.
  set (d := mkdinfo es [] [] [] fill). set (b := mkblock [] []).
  assert (Hb : Forall (blk_fits 0) [b]) by (repeat constructor).
  assert (Hok : ok_history e cfg (mkconv (fun _ _ => false) (fun _ => 1)) 1 ([OCreate d; OWrite 0 0 [b] v] ++ [ORead doff [mkrcall 0 [b] buf mem]])).
  { split; auto. split; [auto|]. split; [reflexivity|]. split; [reflexivity|]. split; auto. cbn [app ok_run].
    split; [cbn; split; [apply Hes|]; split; auto; split; [congruence|auto]|].
    split.
    { cbn [ok_op]. exists []. split; [reflexivity|]. intros _. exists d. split; [reflexivity|]. split; [lia|]. split; [exact Hb|].
      split; [change (sel_size [b]) with 1; unfold d; cbn [di_esize]; lia|]. split; [vm_compute; reflexivity|].
      split; [intros Q; congruence|]. split; [|intros _ Q; discriminate Q].
      intros _. split; [intros _ Q; discriminate Q|]. split; [intros _ Q; discriminate Q|intros _ Q; discriminate Q]. }
    split; [|exact I]. cbn [ok_op]. split; [|split; [|split; [discriminate|]]].
    - rewrite Hc. intros _. change (pend_bytes _) with (Zlen v + 0). change (hs_hi _) with 0. lia.
    - intros _. right. discriminate.
    - constructor; [|constructor]. split; [discriminate|]. exists d. split; [reflexivity|]. split; [exact Hb|].
      split; [constructor; [change (1 * es < 2 ^ 31); lia|constructor]|]. split; [constructor; constructor|]. intros _ Q. discriminate Q. }
  destruct (reads_correct _ _ _ _ f0 _ _ _ Hok) as (s & outs & bufs & R1 & R2 & R3). exists s. cbn [app] in R1. rewrite R1. f_equal. f_equal.
  destruct (run_spec _ _ _ _ f0 _ Hok) as (s' & Hs'). cbn [app] in Hs'. rewrite R1 in Hs'. injection Hs' as _ Hs'.
  assert (Hl : outs = [[]; []]).
  { cbn [srun sstep] in Hs'. destruct outs as [|o1 [|o2 [|? ?]]]; try discriminate R2. cbn in Hs'. injection Hs' as -> -> _. reflexivity. }
  subst outs. cbn [app]. f_equal. f_equal. f_equal.
  inversion R3 as [|c out cs bs Hc1 Hcs]; subst. inversion Hcs; subst. f_equal.
  destruct Hc1 as (d' & D1 & D2 & D3 & D4). rewrite Hc in D1, D4. change (Some d = Some d') in D1. injection D1 as <-.
  specialize (D4 0%nat [] eq_refl). unfold expected in D4. unfold d in D2, D3, D4 |- *. cbn [rc_did di_esize] in *. fold d in D4 |- *.
  assert (Hlast : last_assigned 0 [] (t_pub (trace_of true 1 ([OCreate d; OWrite 0 0 [b] v] ++ [ORead doff [mkrcall 0 [b] buf mem]]))) = Some v).
  { cbn. rewrite app_nil_r. unfold assigns_of. cbn [esize_at nth_error Z.to_nat di_esize d sel_coords flat_map coords coords_of b_start b_count b app].
    unfold elems. assert (Hch : chunk (length v) (Z.to_nat (Zlen v)) v = [v]).
    { destruct v as [|z v']; [unfold Zlen in Hes; cbn in Hes; lia|]. cbn [length chunk]. unfold Zlen. rewrite Nat2Z.id, firstn_all, skipn_all.
      destruct (length v'); reflexivity. }
    rewrite Hch. reflexivity. }
  rewrite Hlast in D4.
  assert (Ho : elems (Zlen v) out = [v]).
  { destruct (elems (Zlen v) out) as [|u [|? ?]]; cbn in D2, D4; try discriminate. injection D4 as ->. reflexivity. }
  rewrite <- (concat_chunk (length out) (Z.to_nat (Zlen v)) out) by lia. fold (elems (Zlen v) out). rewrite Ho. cbn. apply app_nil_r.
Qed.

Lemma scalar_refuted : forall e f0 es fill rest, run e (init cfg_dflt 1 f0) (OCreate (mkdinfo es [] [] [] fill) :: rest) = UB.
Proof. reflexivity. Qed.
