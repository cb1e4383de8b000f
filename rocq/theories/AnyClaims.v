(** Lemmas behind P_Any.v: histories of the usual settings, and counterexamples. *)
From Verif Require Import Base BaseProofs Spec MetaModel QueueModel FlushModel IndexModel ReadModel SysModel
  SysSpec History SysProofs HistoryProofs ClaimProofs SysCheck Examples ClaimProofs2 SizedProofs DefSpec DefProofs AnySpec AnyProofs TameSpec TameProofs.
From Coq Require Import ZifyNat ZifyN.

Lemma unlimited_ok : forall e cfg np ops, tame e cfg np ops -> e_limit e = None -> exists cv, ok_history e cfg cv np ops.
Proof.
  intros e cfg np ops (H1 & _ & H3 & H4 & H5 & H6 & [[H7 H8]|[[H7 H8]|[H7 [f H8]]]]) H2.
  - exists (mkconv (fun _ _ => false) (fun _ => 1)). apply sized_ok; rewrite ?H1; auto.
  - exists dcv. eapply default_ok; eauto.
  - exists (acv f). eapply array_ok; eauto.
Qed.
Lemma tame_ok : forall e cfg np ops, tame e cfg np ops -> exists cv, ok_history e cfg cv np ops.
Proof.
  intros e cfg np ops T. pose proof T as (H1 & [H2|H2] & H3); [apply unlimited_ok; auto|].
  assert (T' : tame (with_limit e None) cfg np ops).
  { destruct H3 as (A & B & C & D & E). split; [exact H1|]. split; [left; reflexivity|]. split; [exact A|]. auto. }
  destruct (unlimited_ok _ cfg np ops T' eq_refl) as [cv H]. exists cv. apply (limit_ok _ _ _ (e_limit e)) in H; auto.
Qed.

Lemma tame_reads : forall e cfg np f0 ops, tame e cfg np ops ->
  exists s outs, run e (init cfg np f0) ops = Ok (s, outs) /\ length outs = length ops /\
    forall i doff calls, nth_error ops i = Some (ORead doff calls) ->
      exists bufs, nth_error outs i = Some bufs /\
        let t := trace_of true np (firstn i ops) in
        Forall2 (correct_read (mktr (t_sets t) (t_pub t ++ concat (t_pend t)) [])) calls bufs.
Proof.
  intros e cfg np f0 ops T. destruct (tame_ok _ _ _ _ T) as [cv H]. destruct T as [E _]. destruct (all_reads_correct _ _ _ _ f0 _ H) as (s & outs & R1 & R2 & R3).
  exists s, outs. split; auto. split; auto. intros i doff calls Hi. destruct (R3 _ _ _ Hi) as (bufs & B1 & B2). exists bufs. split; auto.
  rewrite E, (firstn_S_app _ _ _ _ Hi), trace_snoc in B2. exact B2.
Qed.
Lemma tame_one : forall e cfg f0 ops, tame e cfg 1 ops -> Forall one_process ops ->
  exists s outs, run e (init cfg 1 f0) ops = Ok (s, outs) /\ length outs = length ops /\
    forall i doff calls, nth_error ops i = Some (ORead doff calls) ->
      exists bufs, nth_error outs i = Some bufs /\
        Forall2 (fun c buf => exists d,
          nth_error (t_sets (trace_of true 1 (firstn i ops))) (Z.to_nat (rc_did c)) = Some d /\
          length (elems (di_esize d) buf) = length (sel_coords (rc_sels c)) /\
          forall k x, nth_error (sel_coords (rc_sels c)) k = Some x ->
            nth_error (elems (di_esize d) buf) k
              = Some (expected (program_order [] (firstn i ops)) d c k x)) calls bufs.
Proof. intros e cfg f0 ops T O. destruct (tame_ok _ _ _ _ T) as [cv H]. destruct T as [E _]. eapply one_process_reads; eauto. Qed.

Lemma tame_unwritten : forall e cfg np f0 ops, tame e cfg np ops ->
  exists s outs, run e (init cfg np f0) ops = Ok (s, outs) /\ length outs = length ops /\
    forall i doff calls, nth_error ops i = Some (ORead doff calls) ->
      exists bufs, nth_error outs i = Some bufs /\
        Forall2 (fun c buf => exists d,
          nth_error (t_sets (trace_of true np (firstn i ops))) (Z.to_nat (rc_did c)) = Some d /\
          forall k x, nth_error (sel_coords (rc_sels c)) k = Some x ->
            ~ ever_written (rc_did c) x (firstn i ops) ->
            nth_error (elems (di_esize d) buf) k =
              Some (match di_fill d with
                    | Some f => f
                    | None => get (rc_mem c) (rc_buf c + di_esize d * Z.of_nat k) (Z.to_nat (di_esize d))
                    end)) calls bufs.
Proof. intros e cfg np f0 ops T. destruct (tame_ok _ _ _ _ T) as [cv H]. destruct T as [E _]. rewrite <- E. exact (unwritten_reads e cfg cv np f0 ops H). Qed.

Lemma tame_sharing : forall e cfg np f0 ops, has cfg CFG_METADATA_SHARE = true -> tame e cfg np ops ->
  exists s s' outs, run e (init cfg np f0) ops = Ok (s, outs) /\
                    run e (init (cfg - CFG_METADATA_SHARE) np f0) ops = Ok (s', outs).
Proof. intros e cfg np f0 ops HS T. destruct (tame_ok _ _ _ _ T) as [cv H]. exact (sharing_transparent e cfg cv np f0 ops HS H). Qed.

Lemma tame_same : forall e e' cfg cfg' np f0 f0' ops, tame e cfg np ops -> tame e' cfg' np ops ->
  exists s s' outs, run e (init cfg np f0) ops = Ok (s, outs) /\ run e' (init cfg' np f0') ops = Ok (s', outs).
Proof.
  intros e e' cfg cfg' np f0 f0' ops T T'. destruct (tame_ok _ _ _ _ T) as [cv H]. destruct (tame_ok _ _ _ _ T') as [cv' H'].
  destruct T as [E _], T' as [E' _]. eapply same_outputs; eauto; congruence.
Qed.

Lemma tame_isolation : forall e cfg e' cfg' np f0 f0' did ops ops' doff calls,
  tame e cfg np (ops ++ [ORead doff calls]) -> tame e' cfg' np (ops' ++ [ORead doff calls]) ->
  filter (touches did) ops = filter (touches did) ops' -> Forall (fun c => rc_did c = did) calls ->
  exists s s' outs outs' bufs,
    run e (init cfg np f0) (ops ++ [ORead doff calls]) = Ok (s, outs ++ [bufs]) /\
    run e' (init cfg' np f0') (ops' ++ [ORead doff calls]) = Ok (s', outs' ++ [bufs]).
Proof.
  intros e cfg e' cfg' np f0 f0' did ops ops' doff calls T T' F C. destruct (tame_ok _ _ _ _ T) as [cv H]. destruct (tame_ok _ _ _ _ T') as [cv' H'].
  destruct T as [E _], T' as [E' _]. eapply isolation; eauto; congruence.
Qed.

Lemma tame_write_n : forall e cfg e' cfg' np f0 f0' pre post rk did sels data doff doff' calls,
  let es := esize_at (t_sets (trace_of true np pre)) did in
  tame e cfg np ((pre ++ OWrite rk did sels data :: post) ++ [ORead doff calls]) ->
  tame e' cfg' np ((pre ++ write_each rk did es sels data ++ post) ++ [ORead doff' calls]) ->
  exists s s' outs outs' bufs,
    run e (init cfg np f0) ((pre ++ OWrite rk did sels data :: post) ++ [ORead doff calls]) = Ok (s, outs ++ [bufs]) /\
    run e' (init cfg' np f0') ((pre ++ write_each rk did es sels data ++ post) ++ [ORead doff' calls]) = Ok (s', outs' ++ [bufs]).
Proof.
  intros e cfg e' cfg' np f0 f0' pre post rk did sels data doff doff' calls es T T'. destruct (tame_ok _ _ _ _ T) as [cv H]. destruct (tame_ok _ _ _ _ T') as [cv' H'].
  destruct T as [E _], T' as [E' _]. assert (es = esize_at (t_sets (trace_of (e_coll e) np pre)) did) as X by (rewrite E; reflexivity). rewrite X in *. eapply write_n_each; eauto; congruence.
Qed.

(** ** Flushes and reads in between *)
Lemma order_filter : forall ops sets, program_order sets ops = program_order sets (filter makes_change ops).
Proof. induction ops as [|o ops IH]; intros sets; auto. destruct o; cbn [filter makes_change program_order]; rewrite IH; auto. Qed.
Lemma sets_filter : forall coll ops t t', t_sets t = t_sets t' ->
  t_sets (fold_left (tstep coll) ops t) = t_sets (fold_left (tstep coll) (filter makes_change ops) t').
Proof.
  induction ops as [|o ops IH]; intros t t' H; auto. destruct o; cbn [filter makes_change fold_left]; apply IH; cbn [tstep t_sets]; rewrite ?H; auto.
  destruct coll; auto.
Qed.
Lemma tame_between : forall e cfg e' cfg' f0 f0' ops ops' doff doff' calls,
  tame e cfg 1 (ops ++ [ORead doff calls]) -> tame e' cfg' 1 (ops' ++ [ORead doff' calls]) ->
  Forall one_process ops -> Forall one_process ops' -> filter makes_change ops = filter makes_change ops' ->
  exists s s' outs outs' bufs,
    run e (init cfg 1 f0) (ops ++ [ORead doff calls]) = Ok (s, outs ++ [bufs]) /\
    run e' (init cfg' 1 f0') (ops' ++ [ORead doff' calls]) = Ok (s', outs' ++ [bufs]).
Proof.
  intros e cfg e' cfg' f0 f0' ops ops' doff doff' calls T T' O O' F. destruct (tame_ok _ _ _ _ T) as [cv H]. destruct (tame_ok _ _ _ _ T') as [cv' H'].
  destruct T as [E _], T' as [E' _]. eapply final_read_same; eauto. apply Forall_forall. intros c _. rewrite E, E', !trace_snoc. cbn [tstep].
  assert (S : t_sets (trace_of true 1 ops) = t_sets (trace_of true 1 ops')).
  { unfold trace_of. rewrite (sets_filter true ops _ _ eq_refl), F. symmetry. apply sets_filter. reflexivity. }
  split; cbn [t_sets t_pub].
  - rewrite S. eauto.
  - intros x. rewrite !one_process_pub by auto. rewrite (order_filter ops), (order_filter ops'), F. reflexivity.
Qed.

(** ** Counterexamples *)
Lemma kind_fill : exists ops doff did sels buf mem s outs out k x d f,
  legal_history true 1 (ops ++ [ORead doff [mkrcall did sels buf mem]]) /\
  run e_dflt (init cfg_dflt 1 f_zero) (ops ++ [ORead doff [mkrcall did sels buf mem]]) = Ok (s, outs ++ [[out]]) /\
  nth_error (t_sets (trace_of true 1 ops)) (Z.to_nat did) = Some d /\ di_fill d = Some f /\
  nth_error (sel_coords sels) k = Some x /\ ~ ever_written did x ops /\
  nth_error (elems (di_esize d) out) k <> Some f.
Proof.
  exists (firstn 4 w_kind), 100, 1, [B [2;0] [1;40]], 0, junk. eexists. exists [[]; []; []; []]. eexists. exists 1%nat, [2;1], dr, [9].
  split; [legal|]. split; [vm_compute; reflexivity|]. split; [reflexivity|]. split; [reflexivity|]. split; [reflexivity|].
  split; [apply never_written_b; vm_compute; reflexivity|vm_compute; discriminate].
Qed.

Definition w_flush : list op := [OCreate sq; OWrite 1 0 [B [0;0] [2;4]; B [3;0] [1;2]] (by_ 10 10); OFlush 100].
Lemma wide_flush : exists ops doff doff' calls s outs bufs,
  legal_history true 2 ((ops ++ [OFlush doff]) ++ [ORead doff' calls]) /\
  run e_dflt (init cfg_dflt 2 f_zero) ((ops ++ [OFlush doff]) ++ [ORead doff' calls]) = Ok (s, outs ++ [bufs]) /\
  let t := trace_of true 2 ops in
  ~ Forall2 (correct_read (mktr (t_sets t) (t_pub t ++ concat (t_pend t)) [])) calls bufs.
Proof.
  exists (firstn 2 w_flush), 100, 1000, rd_sq. eexists. exists [[]; []; []], [[9; 9; 9; 9; 9; 9; 9; 9; 9; 9; 9; 9; 10; 11; 9; 9]].
  split; [legal|]. split; [vm_compute; reflexivity|]. wrong 0%nat [0; 0] sq.
Qed.

Lemma rec2_kinds : legal_history true 1 w_rec2 /\
  run e_dflt (init cfg_dflt 1 f_zero) w_rec2 = UB /\
  exists s outs, run e_arr (init cfg_dflt 1 f_zero) w_rec2 = Ok (s, outs).
Proof. split; [legal|]. split; [vm_compute; reflexivity|]. do 2 eexists. vm_compute. reflexivity. Qed.
Lemma esize_kinds : legal_history true 1 w_esize /\
  exists s s' outs outs', outs <> outs' /\
    run e_dflt (init cfg_dflt 1 f_zero) w_esize = Ok (s, outs) /\ run e_arr (init cfg_dflt 1 f_zero) w_esize = Ok (s', outs').
Proof. split; [legal|]. do 4 eexists. split; [|split; vm_compute; reflexivity]. discriminate. Qed.

Lemma kind_isolation : exists did ops ops' doff calls s s' outs outs' bufs bufs',
  filter (touches did) ops = filter (touches did) ops' /\ Forall (fun c => rc_did c = did) calls /\
  legal_history true 1 (ops ++ [ORead doff calls]) /\ legal_history true 1 (ops' ++ [ORead doff calls]) /\
  run e_dflt (init cfg_dflt 1 f_zero) (ops ++ [ORead doff calls]) = Ok (s, outs ++ [bufs]) /\
  run e_dflt (init cfg_dflt 1 f_zero) (ops' ++ [ORead doff calls]) = Ok (s', outs' ++ [bufs']) /\ bufs <> bufs'.
Proof.
  exists 1, (firstn 4 w_kind), (firstn 2 w_kind ++ skipn 3 (firstn 4 w_kind)), 100, [mkrcall 1 [B [2;0] [1;40]] 0 junk].
  eexists. eexists. exists [[]; []; []; []], [[]; []; []]. eexists. eexists.
  split; [reflexivity|]. split; [repeat constructor|]. split; [legal|]. split; [legal|].
  split; [vm_compute; reflexivity|]. split; [vm_compute; reflexivity|]. discriminate.
Qed.

Lemma wide_write_n : let sels := [B [0;0] [2;4]; B [3;0] [1;2]] in
  exists s s' outs outs' bufs bufs',
  legal_history true 1 ([OCreate sq; OWrite 0 0 sels (by_ 10 10)] ++ [ORead 100 rd_sq]) /\
  legal_history true 1 ((OCreate sq :: write_each 0 0 1 sels (by_ 10 10)) ++ [ORead 100 rd_sq]) /\
  run e_dflt (init cfg_dflt 1 f_zero) ([OCreate sq; OWrite 0 0 sels (by_ 10 10)] ++ [ORead 100 rd_sq]) = Ok (s, outs ++ [bufs]) /\
  run e_dflt (init cfg_dflt 1 f_zero) ((OCreate sq :: write_each 0 0 1 sels (by_ 10 10)) ++ [ORead 100 rd_sq]) = Ok (s', outs' ++ [bufs']) /\
  bufs <> bufs'.
Proof.
  intros sels. eexists. eexists. exists [[]; []], [[]; []; []]. eexists. eexists. split; [legal|]. split; [legal|].
  split; [vm_compute; reflexivity|]. split; [vm_compute; reflexivity|]. discriminate.
Qed.

Lemma rec2_read : let rd doff := ORead doff [mkrcall 0 [B [0;0] [3;4]] 0 junk] in
  let w v := OWrite 0 0 [B [2;0] [1;4]] (by_ v 4) in
  legal_history true 1 [OCreate dR9; w 10; w 20; rd 100] /\ legal_history true 1 [OCreate dR9; w 10; rd 100; w 20; rd 1000] /\
  run e_dflt (init cfg_dflt 1 f_zero) [OCreate dR9; w 10; w 20; rd 100] = UB /\
  exists s outs, run e_dflt (init cfg_dflt 1 f_zero) [OCreate dR9; w 10; rd 100; w 20; rd 1000] = Ok (s, outs).
Proof. intros rd w. split; [legal|]. split; [legal|]. split; [vm_compute; reflexivity|]. do 2 eexists. vm_compute. reflexivity. Qed.

(** ** Examples *)
Ltac tame_tac := split; [reflexivity|]; split; [auto|]; split; [exact isort_is_sort|];
  split; [vm_compute; intuition discriminate|]; split; [legal|]; split; [apply sized_b_ok; vm_compute; reflexivity|].
Ltac tame_dflt := tame_tac; right; left; split; [reflexivity|apply default_b_ok; vm_compute; reflexivity].
Ltac tame_arr es := tame_tac; right; right; split; [reflexivity|apply (array_b_ok es); vm_compute; reflexivity].
Ltac tame_coords := tame_tac; left; split; reflexivity.
Lemma h_full_tame : tame e_dflt cfg_dflt 2 h_full /\ tame e_arr 4 2 h_full /\ tame e_small cfg_dflt 2 h_full /\ tame e_arr cfg_dflt 2 h_full.
Proof. split; [tame_dflt|]. split; [tame_coords|]. split; [tame_dflt|tame_arr 2]. Qed.
Lemma any_tame_ex : tame e_dflt cfg_dflt 2 h_full /\ tame e_arr 4 2 h_full /\ tame e_small cfg_dflt 2 h_full /\ tame e_arr cfg_dflt 2 h_full /\
  e_kind e_dflt = KCompact /\ e_kind e_arr = KArray /\ e_limit e_small = Some 400.
Proof. destruct h_full_tame as (A & B & C & D). repeat (split; [assumption|]). repeat split. Qed.
Lemma any_deflate_ex : plain_cfg 14 /\ has 14 CFG_SEL_DEFLATE = true /\
  observed (run e_dflt (init 14 1 f_zero) w_rec2) = UB /\
  (exists outs, observed (run e_dflt (init 14 2 f_zero) h_full) = Ok outs).
Proof. split; [vm_compute; intuition discriminate|]. split; [reflexivity|]. split; [vm_compute; reflexivity|]. eexists. vm_compute. reflexivity. Qed.
Ltac datas := repeat (apply Forall_cons; [exact Logic.I || (intros _; discriminate)|]); apply Forall_nil.
Lemma any_reopen_ex : Forall with_data h_pre /\ exists b, last_read (run e_dflt (init cfg_dflt 2 f_zero) (h_pre ++ [ORead 1000 h_read])) = Ok b.
Proof. split; [unfold h_pre; datas|]. eexists. vm_compute. reflexivity. Qed.
Lemma any_extent_ex : Forall with_data h_pre /\ exists s outs s' out, run e_dflt (init cfg_dflt 2 f_zero) h_pre = Ok (s, outs) /\
  step e_dflt s (OSetExtent 1 [12; 4]) = Ok (s', out).
Proof.
  split; [unfold h_pre; datas|]. destruct (run e_dflt (init cfg_dflt 2 f_zero) h_pre) as [[s outs]| |] eqn:E.
  - exists s, outs. destruct (step e_dflt s (OSetExtent 1 [12; 4])) as [[s' out]| |] eqn:E'; [eauto| |].
    all: exfalso; assert (K : observed (run e_dflt (init cfg_dflt 2 f_zero) (h_pre ++ [OSetExtent 1 [12; 4]])) = Ok (repeat [] 11)) by (vm_compute; reflexivity).
    all: rewrite run_app, E in K; cbn [bind fst snd run] in K; rewrite E' in K; discriminate.
  - exfalso. assert (K : observed (run e_dflt (init cfg_dflt 2 f_zero) h_pre) = Err) by (rewrite E; reflexivity). vm_compute in K. discriminate.
  - exfalso. assert (K : observed (run e_dflt (init cfg_dflt 2 f_zero) h_pre) = UB) by (rewrite E; reflexivity). vm_compute in K. discriminate.
Qed.
Lemma any_between_ex : let ops := firstn 11 h_one in let ops' := filter makes_change ops in
  tame e_dflt cfg_dflt 1 (ops ++ [ORead 9000 h_read]) /\ tame e_small 4 1 (ops' ++ [ORead 9000 h_read]) /\
  Forall one_process ops /\ Forall one_process ops' /\ ops <> ops' /\ filter makes_change ops = filter makes_change ops'.
Proof.
  intros ops ops'. split; [tame_dflt|]. split; [tame_coords|]. split; [repeat constructor|]. split; [repeat constructor|].
  split; [discriminate|reflexivity].
Qed.
Lemma any_isolation_ex : let ops' := filter (touches 0) h_pre in let rd := [ORead 1000 [mkrcall 0 [B [0;0] [4;6]] 0 junk]] in
  ops' <> h_pre /\ filter (touches 0) h_pre = filter (touches 0) ops' /\
  tame e_dflt cfg_dflt 2 (h_pre ++ rd) /\ tame e_dflt cfg_dflt 2 (ops' ++ rd).
Proof. intros ops' rd. split; [discriminate|]. split; [reflexivity|]. split; tame_dflt. Qed.
Lemma any_write_n_ex : let w := OWrite 0 0 [B [0;0] [2;3]; B [1;1] [2;2]] (by_ 10 20) in
  let rd := [ORead 1000 [mkrcall 0 [B [0;0] [4;6]] 0 junk]] in
  tame e_dflt cfg_dflt 2 (([OCreate dA] ++ w :: []) ++ rd) /\
  tame e_dflt cfg_dflt 2 (([OCreate dA] ++ write_each 0 0 2 [B [0;0] [2;3]; B [1;1] [2;2]] (by_ 10 20) ++ []) ++ rd).
Proof. intros w rd. split; tame_dflt. Qed.
