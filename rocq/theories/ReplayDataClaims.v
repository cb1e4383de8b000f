(** The contents of the file made by h5lreplay. *)
From Verif Require Import Base BaseProofs Spec MetaModel QueueModel FlushModel IndexModel ReadModel SysModel
  SysSpec History SysProofs SysCheck Examples HistoryProofs ClaimProofs ClaimProofs2 SizedProofs DefSpec DefProofs DumpSpec DumpRun DumpClaims
  ReplayModel ReplayDataModel ReplayDataSpec ReplayDataProofs ReplayDataRun.
From Coq Require Import ZifyNat ZifyN.

(** ** Numbers of sections *)
Fixpoint all_np (P : nat -> Prop) (n : nat) (ops : list op) : Prop :=
  P n /\ match ops with [] => True | o :: rest => all_np P (next_np n o) rest end.
Lemma md_lengths : forall (P : nat -> Prop) ops n s, even_state n s -> ranks_ok n ops -> all_np P n ops -> Forall (fun secs => P (length secs)) (ls_md s) ->
  Forall (fun secs => P (length secs)) (ls_md (fold_left l_step ops s)).
Proof.
  intros P. induction ops as [|o ops IH]; intros n s HE HR HP HM; [exact HM|]. cbn [fold_left]. destruct HR as [R1 R2]. destruct HP as [P1 P2].
  apply (IH (next_np n o)); auto; [apply (step_state [] 0 n s o HE R1)|].
  assert (K : forall doff, Forall (fun secs => P (length secs)) (ls_md (l_publish (l_flush doff s)))).
  { intros doff. destruct (flush_state [] 0 n s doff HE) as [_ [F1 F2]]. unfold l_publish. cbn [ls_md]. destruct (forallb _ _); [exact HM|].
    apply Forall_app. split; [exact HM|]. constructor; [|constructor]. rewrite F1. exact P1. }
  destruct o as [d|did dims|rk' did sels data|doff|doff calls|doff np]; cbn [l_step ls_md]; try exact HM; try apply K. destruct sels; exact HM.
Qed.
Lemma legal_np : forall ops t hi, legal_run true t hi ops -> (0 < length (t_pend t))%nat -> all_np (fun n => (0 < n)%nat) (length (t_pend t)) ops.
Proof.
  induction ops as [|o ops IH]; intros t hi H Hn; [split; auto|]. destruct H as [H1 H2]. split; [exact Hn|]. rewrite <- tstep_pend. eapply IH; [exact H2|].
  rewrite tstep_pend. destruct o; cbn [next_np]; auto. apply H1.
Qed.
Lemma same_np_all : forall ops n, Forall (same_np n) ops -> all_np (fun m => m = n) n ops.
Proof.
  intros ops n H. cut (forall m, m = n -> all_np (fun m => m = n) m ops); [auto|].
  induction H as [|o ops H _ IH]; intros m Hm; (split; [exact Hm|]); auto. apply IH. destruct o; auto.
Qed.
Lemma init_even : forall np, even_state np (mkls [] (repeat [] np) (repeat [] np)).
Proof. intros np. split; apply repeat_length. Qed.
Lemma legal_ranks0 : forall np ops, legal_history true np ops -> ranks_ok np ops.
Proof. intros np ops (_ & _ & _ & H). apply legal_ranks in H. cbn [t_pend] in H. rewrite repeat_length in H. exact H. Qed.
Lemma legal_sections : forall np ops, legal_history true np ops -> Forall (fun secs => 1 <= Zlen secs) (ls_md (log_of np ops)).
Proof.
  intros np ops HL. pose proof (legal_ranks0 _ _ HL) as HR. destruct HL as (Hn & _ & _ & H).
  apply legal_np in H; cbn [t_pend] in *; rewrite ?repeat_length in *; auto.
  pose proof (md_lengths _ ops np _ (init_even np) HR H (Forall_nil _)) as K. eapply Forall_impl; [|exact K]. cbn beta. unfold Zlen. intros; lia.
Qed.
Lemma same_sections : forall np ops, legal_history true np ops -> Forall (same_np np) ops -> Forall (fun secs => length secs = np) (ls_md (log_of np ops)).
Proof.
  intros np ops HL HS. exact (md_lengths _ ops np _ (init_even np) (legal_ranks0 _ _ HL) (same_np_all _ _ HS) (Forall_nil _)).
Qed.

Lemma replay_log_order : forall e cfg np f0 ops s outs, e_coll e = true -> plain_cfg cfg ->
  legal_history true np ops -> sized_history true np ops ->
  ((has cfg CFG_SEL_ENCODE = false /\ has cfg CFG_METADATA_SHARE = false) \/ array_history np ops) ->
  run e (init cfg np f0) ops = Ok (s, outs) ->
  Forall (stays_in (trace_of true np ops)) ops -> Forall (fun md => Zlen md < 2 ^ 31) (g_mdsets (s_g s)) ->
  exists ws, replay_proc (e_zlib e) 0 1 (s_g s) = Ok ws /\
    forall did x, content ws did x = last_assigned did x
      (flat_map (log_assigns (t_sets (trace_of true np ops))) (concat (concat (ls_md (log_of np ops))))).
Proof.
  intros e cfg np f0 ops s outs H1 H2 H3 H4 H5 H6 H7 H8.
  destruct (proc_all e cfg np f0 ops s outs 0 1 H1 H2 H3 H4 H5 H6 H7 H8 ltac:(lia) (legal_sections _ _ H3)) as (ws & W1 & W2). exists ws. split; [exact W1|].
  intros did x. rewrite W2. f_equal. f_equal. clear. induction (ls_md (log_of np ops)) as [|secs l IH]; [reflexivity|].
  cbn [flat_map concat]. rewrite slice_all, IH, concat_app. reflexivity.
Qed.

(** ** The section of each process is replayed by exactly one process *)
Lemma replayer : forall rk np nr, 0 <= rk < np -> 0 < nr -> exists r0, 0 <= r0 < nr /\ r0 * np / nr <= rk < (r0 + 1) * np / nr /\
  forall r, r <> r0 -> ~ (r * np / nr <= rk < (r + 1) * np / nr).
Proof.
  intros rk np nr Hrk Hnr. set (r0 := ((rk + 1) * nr - 1) / np). exists r0.
  assert (B1 : r0 * np <= (rk + 1) * nr - 1) by (unfold r0; rewrite Z.mul_comm; apply Z.mul_div_le; lia).
  assert (B2 : (rk + 1) * nr - 1 < (r0 + 1) * np).
  { unfold r0. pose proof (Z.mul_succ_div_gt ((rk + 1) * nr - 1) np). unfold Z.succ in *. lia. }
  assert (L : r0 * np / nr <= rk). { apply Z.lt_succ_r. apply Z.div_lt_upper_bound; unfold Z.succ; lia. }
  assert (U : rk < (r0 + 1) * np / nr). { apply Z.le_succ_l. apply Z.div_le_lower_bound; unfold Z.succ; lia. }
  split; [|split; [lia|]].
  - split; [unfold r0; apply Z.div_pos; nia|]. unfold r0. apply Z.div_lt_upper_bound; nia.
  - intros r Hr [K1 K2]. destruct (Z_lt_le_dec r r0) as [H|H].
    + assert ((r + 1) * np / nr <= r0 * np / nr) by (apply Z.div_le_mono; nia). lia.
    + assert ((r0 + 1) * np / nr <= r * np / nr) by (apply Z.div_le_mono; nia). lia.
Qed.

Lemma owned_log : forall np ops did x, legal_history true np ops -> owned ops ->
  (exists ops0 doff n, ops = ops0 ++ [OReopen doff n]) ->
  let F := t_sets (trace_of true np ops) in let md := ls_md (log_of np ops) in
  exists rk, last_assigned did x (program_order [] ops) = last_assigned did x (flat_map (log_assigns F) (rank_log rk md)) /\
    forall j, j <> rk -> last_assigned did x (flat_map (log_assigns F) (rank_log j md)) = None.
Proof.
  intros np ops did x HL [owner HO] (ops0 & doff & n & E) F md.
  assert (HS : forall j, flat_map (log_assigns F) (rank_log j md) = flat_map (by_rank F j) ops).
  { intros j. pose proof (run_state F j ops np _ (init_even np) (legal_ranks0 _ _ HL)) as K. fold (log_of np ops) in K. unfold rank_state at 2 in K. cbn [ls_md ls_fl ls_pd] in K.
    rewrite !nth_repeat_nil in K. cbn in K. rewrite <- K. unfold rank_state. fold md.
    assert (ls_fl (log_of np ops) = repeat [] n /\ ls_pd (log_of np ops) = repeat [] n) as [-> ->].
    { rewrite E. unfold log_of. rewrite fold_left_app. cbn [fold_left l_step]. split; reflexivity. }
    rewrite !nth_repeat_nil. cbn [flat_map]. rewrite !app_nil_r. reflexivity. }
  destruct HL as (_ & _ & _ & HL). apply program_final in HL. cbn [t_sets] in HL. change (t_sets (fold_left (tstep true) ops _)) with F in HL.
  exists (owner did x). destruct (owned_rank did x (owner did x) F ops) as [O1 O2].
  { eapply Forall_impl; [|exact HO]. cbn beta. intros o Ho. destruct o as [| |rk' did' sels data| | |]; auto. intros -> Hx. auto. }
  rewrite HL, HS. split; [exact O1|]. intros j Hj. rewrite HS. auto.
Qed.

Lemma map_ok_parts : forall (z : zlib) g nr (Q : Z -> list rwrite -> Prop), 0 <= nr -> (forall r, 0 <= r < nr -> exists ws, replay_proc z r nr g = Ok ws /\ Q r ws) ->
  exists parts, map (fun r => replay_proc z r nr g) (zseq nr) = map Ok parts /\ length parts = Z.to_nat nr /\ forall r, 0 <= r < nr -> Q r (nth (Z.to_nat r) parts []).
Proof.
  intros z g nr Q Hnr H. cut (forall l, (forall r, In r l -> 0 <= r < nr) -> exists parts, map (fun r => replay_proc z r nr g) l = map Ok parts /\ length parts = length l /\
    forall k r, nth_error l k = Some r -> Q r (nth k parts [])).
  - intros C. destruct (C (zseq nr)) as (parts & P1 & P2 & P3); [intros r Hr; apply zseq_In in Hr; lia|]. exists parts. split; [exact P1|].
    assert (HZ : length (zseq nr) = Z.to_nat nr) by (unfold zseq; rewrite map_length, seq_length; reflexivity).
    split; [congruence|]. intros r Hr. apply P3. unfold zseq. rewrite nth_error_map. rewrite (nth_error_nth' _ 0%nat) by (rewrite seq_length; lia).
    rewrite seq_nth by lia. cbn. f_equal. lia.
  - induction l as [|r l IH]; intros Hl; [exists []; repeat split; intros [|k] r E; discriminate|].
    destruct IH as (parts & P1 & P2 & P3); [intros r' Hr'; apply Hl; right; exact Hr'|]. destruct (H r) as (ws & W1 & W2); [apply Hl; left; reflexivity|].
    exists (ws :: parts). cbn [map length]. rewrite W1, P1, P2. repeat split. intros [|k] r' E; cbn in E |- *; [congruence|auto].
Qed.

Lemma replay_owned_each : forall e cfg np f0 ops0 doff np' s outs nr, let ops := ops0 ++ [OReopen doff np'] in
  e_coll e = true -> plain_cfg cfg ->
  legal_history true np ops -> sized_history true np ops ->
  ((has cfg CFG_SEL_ENCODE = false /\ has cfg CFG_METADATA_SHARE = false) \/ array_history np ops) ->
  run e (init cfg np f0) ops = Ok (s, outs) ->
  Forall (stays_in (trace_of true np ops)) ops -> Forall (fun md => Zlen md < 2 ^ 31) (g_mdsets (s_g s)) ->
  owned ops -> (nr = 1 \/ 0 < nr <= Z.of_nat np /\ Forall (same_np np) ops) ->
  exists parts, map (fun r => replay_proc (e_zlib e) r nr (s_g s)) (zseq nr) = map Ok parts /\ length parts = Z.to_nat nr /\
    forall did x, exists r0, (r0 < Z.to_nat nr)%nat /\ content (nth r0 parts []) did x = last_assigned did x (program_order [] ops) /\
      forall r, r <> r0 -> content (nth r parts []) did x = None.
Proof.
  intros e cfg np f0 ops0 doff np' s outs nr ops H1 H2 H3 H4 H5 H6 H7 H8 HO Hnr.
  set (F := t_sets (trace_of true np ops)). set (md := ls_md (log_of np ops)).
  assert (Hn0 : 0 < nr) by lia.
  assert (HS : Forall (fun secs => nr <= Zlen secs) md).
  { destruct Hnr as [->|[Hnr Hsame]]; [apply legal_sections; exact H3|]. eapply Forall_impl; [|apply same_sections; eauto]. cbn beta. unfold Zlen. intros secs E. rewrite E. lia. }
  destruct (map_ok_parts (e_zlib e) (s_g s) nr (fun r ws => forall did x, content ws did x = last_assigned did x
      (flat_map (log_assigns F) (flat_map (fun secs => concat (slice r nr secs)) md)))) as (parts & P1 & P2 & P3); [lia| |].
  { intros r Hr. eapply proc_all; eauto. }
  exists parts. split; [exact P1|]. split; [exact P2|]. intros did x.
  destruct (owned_log np ops did x H3 HO) as (rk & O1 & O2); [exists ops0, doff, np'; reflexivity|]. fold F md in O1, O2.
  assert (HR0 : exists r0, 0 <= r0 < nr /\
    Forall (fun secs => ((Z.to_nat (r0 * Zlen secs / nr) <= rk)%nat /\ (rk < Z.to_nat ((r0 + 1) * Zlen secs / nr))%nat) \/ (length secs <= rk)%nat) md /\
    forall r, 0 <= r < nr -> r <> r0 -> Forall (fun secs => ~ ((Z.to_nat (r * Zlen secs / nr) <= rk)%nat /\ (rk < Z.to_nat ((r + 1) * Zlen secs / nr))%nat)) md).
  { destruct Hnr as [->|[Hnr Hsame]].
    - exists 0. split; [lia|]. split; [|intros r K1 K2; lia]. rewrite Forall_forall. intros secs _. rewrite Z.mul_0_l, Z.div_1_r. replace ((0 + 1) * Zlen secs) with (Zlen secs) by lia.
      rewrite Z.div_1_r. unfold Zlen. lia.
    - pose proof (same_sections _ _ H3 Hsame) as HL. fold md in HL. destruct (le_lt_dec np rk) as [Hbig|Hsmall].
      + exists 0. split; [lia|]. split.
        * eapply Forall_impl; [|exact HL]. cbn beta. intros secs E. right. lia.
        * intros r K1 K2. eapply Forall_impl; [|exact HL]. cbn beta. intros secs E [G1 G2]. unfold Zlen in *. rewrite E in *.
          assert ((r + 1) * Z.of_nat np / nr <= Z.of_nat np). { apply Z.div_le_upper_bound; [lia|]. nia. } lia.
      + destruct (replayer (Z.of_nat rk) (Z.of_nat np) nr ltac:(lia) Hn0) as (r0 & R1 & R2 & R3). exists r0. split; [exact R1|]. split.
        * eapply Forall_impl; [|exact HL]. cbn beta. intros secs E. left. unfold Zlen. rewrite E. lia.
        * intros r K1 K2. eapply Forall_impl; [|exact HL]. cbn beta. intros secs E [G1 G2]. unfold Zlen in *. rewrite E in *. apply (R3 r K2).
          assert (0 <= r * Z.of_nat np / nr) by (apply Z.div_pos; nia). lia. }
  destruct HR0 as (r0 & R1 & R2 & R3).
  exists (Z.to_nat r0). split; [lia|]. split.
  - rewrite P3 by exact R1. rewrite O1. apply slice_mdsets; auto.
  - intros r Hr. destruct (le_lt_dec (Z.to_nat nr) r) as [Hbig|Hsmall]; [rewrite nth_overflow by lia; reflexivity|].
    pose proof (P3 (Z.of_nat r) ltac:(lia) did x) as K. rewrite Nat2Z.id in K. rewrite K. apply (slice_mdsets F did x rk md (Z.of_nat r) nr O2). apply R3; lia.
Qed.
Lemma replay_owned : forall e cfg np f0 ops0 doff np' s outs nr, let ops := ops0 ++ [OReopen doff np'] in
  e_coll e = true -> plain_cfg cfg ->
  legal_history true np ops -> sized_history true np ops ->
  ((has cfg CFG_SEL_ENCODE = false /\ has cfg CFG_METADATA_SHARE = false) \/ array_history np ops) ->
  run e (init cfg np f0) ops = Ok (s, outs) ->
  Forall (stays_in (trace_of true np ops)) ops -> Forall (fun md => Zlen md < 2 ^ 31) (g_mdsets (s_g s)) ->
  owned ops -> (nr = 1 \/ 0 < nr <= Z.of_nat np /\ Forall (same_np np) ops) ->
  exists parts, map (fun r => replay_proc (e_zlib e) r nr (s_g s)) (zseq nr) = map Ok parts /\
    forall l, interleaving parts l -> forall did x, content l did x = last_assigned did x (program_order [] ops).
Proof.
  intros e cfg np f0 ops0 doff np' s outs nr ops H1 H2 H3 H4 H5 H6 H7 H8 HO Hnr.
  destruct (replay_owned_each e cfg np f0 ops0 doff np' s outs nr H1 H2 H3 H4 H5 H6 H7 H8 HO Hnr) as (parts & P1 & _ & P3).
  exists parts. split; [exact P1|]. intros l HI did x. destruct (P3 did x) as (r0 & _ & R1 & R2). rewrite (interleaving_content parts l r0 did x HI R2). exact R1.
Qed.

Lemma replay_one_process : forall e cfg f0 ops0 doff s outs, let ops := ops0 ++ [OReopen doff 1] in
  e_coll e = true -> plain_cfg cfg ->
  legal_history true 1 ops -> sized_history true 1 ops -> Forall one_process ops ->
  ((has cfg CFG_SEL_ENCODE = false /\ has cfg CFG_METADATA_SHARE = false) \/ array_history 1 ops) ->
  run e (init cfg 1 f0) ops = Ok (s, outs) ->
  Forall (stays_in (trace_of true 1 ops)) ops -> Forall (fun md => Zlen md < 2 ^ 31) (g_mdsets (s_g s)) ->
  exists ws, replay_proc (e_zlib e) 0 1 (s_g s) = Ok ws /\
    forall did x, content ws did x = last_assigned did x (program_order [] ops).
Proof.
  intros e cfg f0 ops0 doff s outs ops H1 H2 H3 H4 H5 H6 H7 H8 H9.
  assert (HO : owned ops). { exists (fun _ _ => O). eapply Forall_impl; [|exact H5]. intros o Ho. destruct o; auto. }
  destruct (replay_owned e cfg 1 f0 ops0 doff 1 s outs 1 H1 H2 H3 H4 H6 H7 H8 H9 HO (or_introl eq_refl)) as (parts & P1 & P2).
  change (zseq 1) with [0] in P1. cbn [map] in P1. destruct parts as [|ws [|]]; try discriminate. exists ws. split; [cbn in P1; congruence|].
  intros did x. apply P2. clear. induction ws as [|w ws IH]; [apply il_done; repeat constructor|]. apply (il_next [w :: ws] O w ws ws); [reflexivity|exact IH].
Qed.

(** ** Concrete histories *)
Definition stays_b (t : trace) (o : op) : bool :=
  match o with
  | OWrite _ did sels data => (Zlen data <? 2 ^ 31) && with_set t did (fun d => forallb (block_in_b d) sels)
  | _ => true
  end.
Lemma stays_b_ok : forall t ops, forallb (stays_b t) ops = true -> Forall (stays_in t) ops.
Proof.
  intros t ops H. rewrite forallb_forall in H. rewrite Forall_forall. intros o Ho. specialize (H o Ho). destruct o; cbn [stays_in]; auto.
  cbn [stays_b] in H. apply andb_prop in H. destruct H as [H1 H2]. unfold with_set in H2. apply andb_prop in H2. destruct H2 as [H2 H3].
  destruct (nth_error (t_sets t) (Z.to_nat did)) as [d|] eqn:E; [|discriminate]. split; [apply Z.ltb_lt; exact H1|]. exists d. split; [split; [apply Z.leb_le; exact H2|exact E]|].
  apply blocks_in_ok. exact H3.
Qed.
Definition small_md (g : gfile) : bool := forallb (fun md => Zlen md <? 2 ^ 31) (g_mdsets g).
Lemma small_md_ok : forall g, small_md g = true -> Forall (fun md => Zlen md < 2 ^ 31) (g_mdsets g).
Proof. intros g H. unfold small_md in H. rewrite forallb_forall in H. rewrite Forall_forall. intros md Hm. apply Z.ltb_lt. auto. Qed.

(** What is replayed by [nr] processes of the file left by [ops]. *)
Definition replayed (e : env) (cfg : Z) (np : nat) (ops : list op) (nr : Z) : res (list (res (list rwrite))) :=
  do p <- run e (init cfg np f_zero) ops;
  if small_md (s_g (fst p)) then Ok (map (fun r => replay_proc (e_zlib e) r nr (s_g (fst p))) (zseq nr)) else UB.
Lemma replayed_run : forall e cfg np ops nr x, replayed e cfg np ops nr = Ok x ->
  exists s outs, run e (init cfg np f_zero) ops = Ok (s, outs) /\ Forall (fun md => Zlen md < 2 ^ 31) (g_mdsets (s_g s)) /\
    map (fun r => replay_proc (e_zlib e) r nr (s_g s)) (zseq nr) = x.
Proof.
  unfold replayed. intros e cfg np ops nr x H. destruct (run e (init cfg np f_zero) ops) as [[s outs]| |] eqn:R; try discriminate. cbn [bind fst] in H.
  destruct (small_md (s_g s)) eqn:E; [|discriminate]. exists s, outs. split; [reflexivity|]. split; [apply small_md_ok; exact E|congruence].
Qed.

(** Two processes, rows 0 and 1 written by the first and the others by the second, shared two-block
    selections, overwriting, extension, a read, closed twice. *)
Definition h_own0 : list op :=
  [ OCreate dA; OCreate dR;
    OWrite 0 0 [B [0;0] [1;3]; B [1;1] [1;2]] (by_ 10 10);
    OWrite 1 0 [B [2;2] [2;3]] (by_ 50 12);
    OWrite 1 1 [B [2;0] [1;4]] (by_ 60 4);
    OFlush 100;
    OWrite 0 0 [B [0;0] [1;3]; B [1;1] [1;2]] (by_ 100 10);
    OWrite 0 1 [B [0;1] [1;2]] [7;8];
    ORead 1000 [mkrcall 0 [B [0;0] [4;6]] 0 junk];
    OSetExtent 1 [5;4];
    OWrite 1 1 [B [4;0] [1;4]] (by_ 90 4);
    OReopen 5000 2;
    OWrite 1 0 [B [3;4] [1;2]] (by_ 70 4) ].
Definition h_own : list op := h_own0 ++ [OReopen 9000 2].

Lemma own_ex : legal_history true 2 h_own /\ sized_history true 2 h_own /\ array_history 2 h_own /\ plain_cfg cfg_dflt /\ owned h_own /\ Forall (same_np 2) h_own /\
  Forall (stays_in (trace_of true 2 h_own)) h_own /\
  exists s outs, run e_dflt (init cfg_dflt 2 f_zero) h_own = Ok (s, outs) /\ Forall (fun md => Zlen md < 2 ^ 31) (g_mdsets (s_g s)) /\
    exists a b, map (fun r => replay_proc (e_zlib e_dflt) r 2 (s_g s)) (zseq 2) = [Ok a; Ok b] /\ (length a, length b) = (5, 4)%nat.
Proof.
  split; [legal|]. split; [apply sized_b_ok; vm_compute; reflexivity|]. split; [apply (array_b_ok 2); vm_compute; reflexivity|]. split; [split; [vm_compute; split; [discriminate|reflexivity]|reflexivity]|].
  split; [|split; [|split]].
  - exists (fun _ x => if hd 0 x <? 2 then 0%nat else 1%nat). repeat constructor; intros x Hx; vm_compute in Hx; intuition; subst; reflexivity.
  - repeat constructor.
  - apply stays_b_ok. vm_compute. reflexivity.
  - assert (H : exists a b, replayed e_dflt cfg_dflt 2 h_own 2 = Ok [Ok a; Ok b] /\ (length a, length b) = (5, 4)%nat).
    { eexists. eexists. split; [vm_compute; reflexivity|]. reflexivity. }
    destruct H as (a & b & H1 & H2). destruct (replayed_run _ _ _ _ _ _ H1) as (s & outs & R1 & R2 & R3). exists s, outs. split; [exact R1|]. split; [exact R2|]. exists a, b. auto.
Qed.

(** Process 1 writes an element and flushes, process 0 overwrites it, the file is closed. *)
Definition w_order : list op :=
  [OCreate ds1; OWrite 1 0 [B [0;0] [1;2]] (by_ 10 2); OFlush 100; OWrite 0 0 [B [0;0] [1;2]] (by_ 20 2); OReopen 200 2].
Lemma order_facts : legal_history true 2 w_order /\ sized_history true 2 w_order /\ array_history 2 w_order /\ plain_cfg cfg_dflt /\
  Forall (stays_in (trace_of true 2 w_order)) w_order.
Proof.
  split; [legal|]. split; [apply sized_b_ok; vm_compute; reflexivity|]. split; [apply (array_b_ok 2); vm_compute; reflexivity|]. split; [split; [vm_compute; split; [discriminate|reflexivity]|reflexivity]|].
  apply stays_b_ok. vm_compute. reflexivity.
Qed.
Definition outputs (e : env) (cfg : Z) (np : nat) (ops : list op) : res (list (list (list Z))) :=
  do p <- run e (init cfg np f_zero) ops; Ok (snd p).
Lemma outputs_run : forall e cfg np ops x, outputs e cfg np ops = Ok x -> exists s, run e (init cfg np f_zero) ops = Ok (s, x).
Proof.
  unfold outputs. intros e cfg np ops x H. destruct (run e (init cfg np f_zero) ops) as [[s outs]| |] eqn:R; try discriminate. cbn in H. exists s. congruence.
Qed.

Lemma order_wrong : exists cfg np ops s outs ws did x, plain_cfg cfg /\ legal_history true np ops /\ sized_history true np ops /\ array_history np ops /\
  Forall (stays_in (trace_of true np ops)) ops /\ Forall (same_np np) ops /\
  run e_dflt (init cfg np f_zero) ops = Ok (s, outs) /\ replay_proc (e_zlib e_dflt) 0 1 (s_g s) = Ok ws /\
  content ws did x = Some [10] /\ last_assigned did x (program_order [] ops) = Some [20] /\
  exists s' outs', run e_dflt (init cfg np f_zero) (ops ++ [ORead 300 [mkrcall did [mkblock x [1;1]] 0 junk]]) = Ok (s', outs' ++ [[[20]]]).
Proof.
  destruct order_facts as (F1 & F2 & F3 & F4 & F5).
  assert (H : exists ws, replayed e_dflt cfg_dflt 2 w_order 1 = Ok [Ok ws] /\ content ws 0 [0;0] = Some [10]). { eexists. split; vm_compute; reflexivity. }
  destruct H as (ws & H1 & H2). destruct (replayed_run _ _ _ _ _ _ H1) as (s & outs & R1 & R2 & R3).
  change (zseq 1) with [0] in R3. cbn [map] in R3.
  exists cfg_dflt, 2%nat, w_order, s, outs, ws, 0, [0;0]. do 5 (split; [assumption|]). split; [repeat constructor|]. split; [exact R1|].
  split; [congruence|]. split; [exact H2|]. split; [vm_compute; reflexivity|].
  destruct (outputs_run e_dflt cfg_dflt 2 (w_order ++ [ORead 300 [mkrcall 0 [mkblock [0;0] [1;1]] 0 junk]]) ([[];[];[];[];[]] ++ [[[20]]])) as [s' R']; [vm_compute; reflexivity|].
  eauto.
Qed.

(** Two replaying processes: the result depends on which of them is faster. *)
Lemma race_wrong : exists cfg np ops s outs parts l1 l2 did x, plain_cfg cfg /\ legal_history true np ops /\ sized_history true np ops /\ array_history np ops /\
  Forall (stays_in (trace_of true np ops)) ops /\ Forall (same_np np) ops /\
  run e_dflt (init cfg np f_zero) ops = Ok (s, outs) /\ map (fun r => replay_proc (e_zlib e_dflt) r 2 (s_g s)) (zseq 2) = map Ok parts /\
  interleaving parts l1 /\ interleaving parts l2 /\ content l1 did x <> content l2 did x.
Proof.
  destruct order_facts as (F1 & F2 & F3 & F4 & F5).
  set (w := fun v => mkrw 0 1 (B [0;0] [1;2]) (by_ v 2)).
  assert (H : replayed e_dflt cfg_dflt 2 w_order 2 = Ok [Ok [w 20]; Ok [w 10]]) by (vm_compute; reflexivity).
  destruct (replayed_run _ _ _ _ _ _ H) as (s & outs & R1 & R2 & R3).
  exists cfg_dflt, 2%nat, w_order, s, outs, [[w 20]; [w 10]], [w 20; w 10], [w 10; w 20], 0, [0;0]. do 5 (split; [assumption|]). split; [repeat constructor|]. split; [exact R1|].
  split; [exact R3|]. split; [|split].
  - eapply (il_next _ 0); [reflexivity|]; cbn [upd_nth]. eapply (il_next _ 1); [reflexivity|]; cbn [upd_nth]. apply il_done. repeat constructor.
  - eapply (il_next _ 1); [reflexivity|]; cbn [upd_nth]. eapply (il_next _ 0); [reflexivity|]; cbn [upd_nth]. apply il_done. repeat constructor.
  - vm_compute. discriminate.
Qed.

(** A dataset that was shrunk: the replay fails. *)
Definition w_shrunk : list op := [OCreate dR9; OWrite 0 0 [B [1;0] [1;4]] (by_ 10 4); OFlush 100; OSetExtent 0 [1;4]; OReopen 200 1].
Lemma shrunk_fails : exists cfg ops s outs, plain_cfg cfg /\ legal_history true 1 ops /\ sized_history true 1 ops /\ array_history 1 ops /\ Forall one_process ops /\
  run e_dflt (init cfg 1 f_zero) ops = Ok (s, outs) /\ replay_proc (e_zlib e_dflt) 0 1 (s_g s) = Err.
Proof.
  destruct (replayed_run e_dflt cfg_dflt 1 w_shrunk 1 [Err]) as (s & outs & R1 & R2 & R3); [vm_compute; reflexivity|]. change (zseq 1) with [0] in R3. cbn [map] in R3.
  exists cfg_dflt, w_shrunk, s, outs. split; [split; [vm_compute; split; [discriminate|reflexivity]|reflexivity]|]. split; [legal|].
  split; [apply sized_b_ok; vm_compute; reflexivity|]. split; [apply (array_b_ok 1); vm_compute; reflexivity|]. split; [repeat constructor|]. split; [exact R1|congruence].
Qed.

(** A two-block write with a block as wide as the dataset, default settings: elements are lost. *)
Definition w_wide1 : list op := [OCreate sq; OWrite 0 0 [B [0;0] [2;4]; B [3;0] [1;2]] (by_ 10 10); OReopen 100 1].
Lemma wide_lost : exists cfg ops s outs ws did x, plain_cfg cfg /\ legal_history true 1 ops /\ sized_history true 1 ops /\ Forall one_process ops /\
  Forall (stays_in (trace_of true 1 ops)) ops /\ run e_dflt (init cfg 1 f_zero) ops = Ok (s, outs) /\ replay_proc (e_zlib e_dflt) 0 1 (s_g s) = Ok ws /\
  content ws did x = None /\ last_assigned did x (program_order [] ops) = Some [10].
Proof.
  assert (H : exists ws, replayed e_dflt cfg_dflt 1 w_wide1 1 = Ok [Ok ws] /\ content ws 0 [0;0] = None). { eexists. split; vm_compute; reflexivity. }
  destruct H as (ws & H1 & H2). destruct (replayed_run _ _ _ _ _ _ H1) as (s & outs & R1 & R2 & R3). change (zseq 1) with [0] in R3. cbn [map] in R3.
  exists cfg_dflt, w_wide1, s, outs, ws, 0, [0;0]. split; [split; [vm_compute; split; [discriminate|reflexivity]|reflexivity]|]. split; [legal|].
  split; [apply sized_b_ok; vm_compute; reflexivity|]. split; [repeat constructor|]. split; [apply stays_b_ok; vm_compute; reflexivity|]. split; [exact R1|].
  split; [congruence|]. split; [exact H2|]. vm_compute. reflexivity.
Qed.

(** One process. *)
Definition h_solo0 : list op :=
  [ OCreate dA; OCreate dR;
    OWrite 0 0 [B [0;0] [1;3]; B [1;1] [1;2]] (by_ 10 10);
    OWrite 0 1 [B [2;0] [1;4]] (by_ 60 4);
    OFlush 100;
    OWrite 0 0 [B [0;0] [1;3]; B [1;1] [1;2]] (by_ 100 10);
    OReopen 5000 1;
    OSetExtent 1 [5;4];
    OWrite 0 1 [B [4;0] [1;4]] (by_ 90 4) ].
Definition h_solo : list op := h_solo0 ++ [OReopen 9000 1].
Lemma one_ex : legal_history true 1 h_solo /\ sized_history true 1 h_solo /\ array_history 1 h_solo /\ plain_cfg cfg_dflt /\ Forall one_process h_solo /\
  Forall (stays_in (trace_of true 1 h_solo)) h_solo /\
  exists s outs, run e_dflt (init cfg_dflt 1 f_zero) h_solo = Ok (s, outs) /\ Forall (fun md => Zlen md < 2 ^ 31) (g_mdsets (s_g s)) /\
    last_assigned 0 [1;1] (program_order [] h_solo) = Some [106; 107].
Proof.
  split; [legal|]. split; [apply sized_b_ok; vm_compute; reflexivity|]. split; [apply (array_b_ok 2); vm_compute; reflexivity|]. split; [split; [vm_compute; split; [discriminate|reflexivity]|reflexivity]|].
  split; [repeat constructor|]. split; [apply stays_b_ok; vm_compute; reflexivity|].
  assert (H : exists a, replayed e_dflt cfg_dflt 1 h_solo 1 = Ok [Ok a]) by (eexists; vm_compute; reflexivity).
  destruct H as (a & H). destruct (replayed_run _ _ _ _ _ _ H) as (s & outs & R1 & R2 & _). exists s, outs. split; [exact R1|]. split; [exact R2|]. vm_compute. reflexivity.
Qed.
