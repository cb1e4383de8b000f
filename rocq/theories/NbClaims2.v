(** Lemmas behind P_Nb: what non-blocking reads receive, and what they do not. *)
From Verif Require Import Base BaseProofs Spec MetaModel QueueModel FlushModel IndexModel ReadModel SysModel
  SysSpec History PendModel PendSpec SysProofs HistoryProofs SysCheck Examples ClaimProofs2 SizedProofs DefSpec DefProofs AnySpec AnyProofs TameSpec TameProofs AnyClaims
  RealModel RealSpec RealClaims RealClaims2 NbModel NbSpec NbProofs NbClaims.
From Coq Require Import ZifyNat ZifyN.

Lemma as_blocking_app : forall xs ys q, as_blocking q (xs ++ ys) = as_blocking q xs ++ as_blocking (pending_reads q xs) ys.
Proof.
  induction xs as [|x xs IH]; intros ys q; cbn [app as_blocking pending_reads]; auto.
  destruct x as [o|rk c]; [|apply IH]. destruct o; cbn [app]; rewrite ?IH; auto. destruct q; reflexivity.
Qed.

Lemma before_last : forall e cfg np f0 mem ops o, tame (with_coll e true) cfg np (as_blocking [] (ops ++ [o])) ->
  settled np false (as_blocking [] (ops ++ [o])) = true -> issued_well np 0 ops = true ->
  exists cv st outs sp h n C ms grs pend np', nrun e (ninit cfg np f0 mem) ops = Ok (st, outs) /\
    inv (with_coll e true) cfg cv (n_sys st) sp h n C ms grs /\ n_rreqs st = pending_reads [] ops /\
    hrel sp (trace_of true np (as_blocking [] ops)) /\ length (g_ranks (s_g (n_sys st))) = np' /\
    (pend = false -> concat (ss_pend sp) = []) /\ Forall (fun p => (fst p < np')%nat) (pending_reads [] ops) /\
    ok_run (with_coll e true) cfg cv sp h (as_blocking (pending_reads [] ops) [o]) /\
    n + Z.of_nat (length (as_blocking (pending_reads [] ops) [o])) < 2 ^ 30 /\
    settled np' pend (as_blocking (pending_reads [] ops) [o]) = true /\ is_sort (e_sort e).
Proof.
  intros e cfg np f0 mem ops o T S W. destruct (tame_ok _ _ _ _ T) as [cv (H0 & H1 & H2 & H3 & H4 & H5)].
  rewrite as_blocking_app in H3, H5, S.
  destruct (nrun_ok e cfg cv H4 ops (as_blocking (pending_reads [] ops) [o]) (ninit cfg np f0 mem) _ _ _ _ _ _ _ [] false np 0%nat (inv_init (with_coll e true) cfg cv np f0 H1 H2) eq_refl (hrel_init np)) as (st & outs & sp & h & n & C & ms & grs & pend & np' & R1 & R2 & R3 & R4 & R5 & R6 & R7 & R8 & R9 & R10); auto.
  - cbn. apply repeat_length.
  - intros _. cbn. clear. induction np; auto.
  - exists cv, st, outs, sp, h, n, C, ms, grs, pend, np'. auto 12.
Qed.

Lemma correct_trace : forall t t' c b, t_sets t = t_sets t' -> t_pub t = t_pub t' -> correct_read t c b -> correct_read t' c b.
Proof. intros t t' c b E1 E2 (d & H). exists d. rewrite <- E1, <- E2. exact H. Qed.

Lemma nb_delivers : forall e cfg np f0 mem ops doff, tame (with_coll e true) cfg np (as_blocking [] (ops ++ [NOp (OFlush doff)])) ->
  settled np false (as_blocking [] (ops ++ [NOp (OFlush doff)])) = true -> issued_well np 0 ops = true ->
  exists st outs st', nrun e (ninit cfg np f0 mem) ops = Ok (st, outs) /\
    nrun e (ninit cfg np f0 mem) (ops ++ [NOp (OFlush doff)]) = Ok (st', outs ++ [[]]) /\
    forall rk, let reads := reads_of rk (pending_reads [] ops) in
      let t := trace_of true np (as_blocking [] ops) in
      ForallOrdPairs (apart_buffers (t_sets t)) reads -> ForallOrdPairs no_common_element reads ->
      Forall (fun c => correct_read (mktr (t_sets t) (publish t) []) (with_mem (n_mem st rk) c)
                         (get (n_mem st' rk) (rc_buf c) (Z.to_nat (buf_size (t_sets t) c)))) reads /\
      (forall a, (forall c, In c reads -> a < rc_buf c \/ rc_buf c + buf_size (t_sets t) c <= a) -> n_mem st' rk a = n_mem st rk a).
Proof.
  intros e cfg np f0 mem ops doff T S W.
  destruct (before_last _ _ _ f0 mem _ _ T S W) as (cv & st & outs & sp & h & n & C & ms & grs & pend & np' & R1 & R2 & R3 & R4 & R5 & R6 & R7 & R8 & R9 & R10 & R11).
  set (q := pending_reads [] ops) in *.
  assert (X : ok_flush sp h doff /\ (q <> [] -> ok_read (with_coll e true) (sflush sp) (hflush sp h doff) (2 ^ 62) (map snd q)) /\ n < 2 ^ 30).
  { cbn [as_blocking] in R8, R9. destruct q; cbn [ok_run] in R8; cbn [length] in R9.
    - split; [apply R8|]. split; [congruence|lia].
    - split; [apply R8|]. split; [|lia]. intros _. apply R8. }
  destruct X as (X1 & X2 & X3). rewrite <- R3 in X2.
  destruct (nflush_ok e cfg cv R11 _ _ _ _ _ _ _ doff R2 X3 X1 X2) as (st' & C' & ms' & grs' & N1 & N2 & I2 & L2 & D).
  exists st, outs, st'. split; [exact R1|]. split.
  { assert (A : forall xs s0 ys, nrun e s0 (xs ++ ys) = (do p <- nrun e s0 xs; do r <- nrun e (fst p) ys; Ok (fst r, snd p ++ snd r))).
    { clear. induction xs as [|x xs IH]; intros s0 ys; cbn [app nrun bind fst snd].
      - destruct (nrun e s0 ys) as [[? ?]| |]; reflexivity.
      - destruct (nstep e s0 x) as [[s1 o1]| |]; cbn [bind fst snd]; auto. rewrite IH. destruct (nrun e s1 xs) as [[s2 o2]| |]; cbn [bind fst snd]; auto.
        destruct (nrun e s2 ys) as [[? ?]| |]; cbn [bind fst snd]; auto. rewrite app_assoc. reflexivity. }
    rewrite A, R1. cbn [bind fst snd nrun]. rewrite N1. cbn [bind fst snd]. reflexivity. }
  intros rk reads t HA HN. rewrite R3 in D.
  destruct (Nat.ltb_spec rk np') as [L|L].
  - specialize (D rk ltac:(lia)). unfold served in D. change (queue_of rk q) with reads in D. change (ss_sets (sflush sp)) with (ss_sets sp) in D.
    fold t in R4. rewrite (r_sets _ _ R4) in *. destruct (D HA HN) as (D1 & D2). split; [|exact D2].
    rewrite Forall_forall in *. intros c Hc. rewrite (D1 c Hc). apply correct_trace with (t := mktr (t_sets t) (publish t) (map (fun _ => []) (t_pend t))).
    + cbn. apply R4.
    + reflexivity.
    + apply (sread_correct (with_coll e true)); [apply hrel_flush; exact R4|].
      assert (Hin : In c (map snd q)) by (apply (queue_In rk); exact Hc).
      assert (Hq : n_rreqs st <> []) by (rewrite R3; intros Z0; rewrite Z0 in Hin; destruct Hin).
      destruct (X2 Hq) as (_ & _ & _ & X4). rewrite R3 in X4. rewrite Forall_forall in X4. specialize (X4 c Hin). destruct X4 as (Y1 & d & Y2). split; auto. exists d. exact Y2.
  - assert (Z0 : reads = []).
    { unfold reads, reads_of. clear - R7 L. induction q as [|p q IH]; auto. inversion R7; subst. cbn [filter]. destruct (Nat.eqb_spec (fst p) rk); [lia|]. auto. }
    rewrite Z0. split; [constructor|]. intros a _.
    assert (M : n_mem st' rk = n_mem st rk); [|rewrite M; reflexivity].
    cbn [nstep] in N1. destruct (step_real e (n_sys st) (OFlush doff)) as [[s1 p1]| |] eqn:SR; cbn [bind fst snd] in N1; try discriminate.
    destruct (n_rreqs st) as [|x q']; [injection N1 as <- _; reflexivity|].
    unfold serve_queues in N1.
    assert (LP : length (g_ranks (s_g s1)) = np') by (unfold step_real in SR; apply step_procs in SR; cbn [procs] in SR; congruence). rewrite LP in N1.
    destruct (serve_all e _ _ _ _ _) as [[m1 i1]| |] eqn:SA; cbn [bind fst snd] in N1; try discriminate. injection N1 as <- _. cbn [n_mem].
    assert (Hni : ~ In rk (seq 0 np')) by (rewrite in_seq; lia). clear - SA Hni. revert SA Hni. generalize (n_mem st). generalize (if g_metadirty (s_g s1) then None else s_idx s1).
    generalize (seq 0 np'). induction l as [|r l IH]; intros idx mem SA Hni; cbn [serve_all] in SA; [injection SA as <- _; reflexivity|].
    destruct (serve e _ idx (mem r) _) as [[m2 i2]| |]; cbn [bind fst snd] in SA; try discriminate. apply IH in SA; [|cbn in Hni; tauto].
    rewrite SA. destruct (Nat.eqb_spec rk r) as [->|]; auto. exfalso. apply Hni. left. reflexivity.
Qed.

(** Blocking reads of the same program. *)
Lemma nb_blocking : forall e cfg np f0 mem ops doff calls, tame (with_coll e true) cfg np (as_blocking [] (ops ++ [NOp (ORead doff calls)])) ->
  settled np false (as_blocking [] (ops ++ [NOp (ORead doff calls)])) = true -> issued_well np 0 ops = true ->
  exists st outs s' bufs, nrun e (ninit cfg np f0 mem) ops = Ok (st, outs) /\
    nstep e st (NOp (ORead doff calls)) = Ok (mknst s' (n_mem st) (n_rreqs st), [bufs]) /\
    let t := trace_of true np (as_blocking [] ops) in Forall2 (correct_read (mktr (t_sets t) (publish t) [])) calls bufs.
Proof.
  intros e cfg np f0 mem ops doff calls T S W.
  destruct (before_last _ _ _ f0 mem _ _ T S W) as (cv & st & outs & sp & h & n & C & ms & grs & pend & np' & R1 & R2 & R3 & R4 & R5 & R6 & R7 & R8 & R9 & R10 & R11).
  cbn [as_blocking ok_run] in R8. destruct R8 as (R8 & _). cbn [as_blocking length] in R9. cbn [as_blocking settled] in R10. rewrite andb_true_r in R10.
  destruct (real_step e cfg cv R11 _ _ _ _ _ _ _ (ORead doff calls) np' pend R2 ltac:(lia) R8 R5 R6 R10) as (s' & C' & ms' & grs' & S1 & _).
  exists st, outs, s', (snd (sstep true sp (ORead doff calls))). split; [exact R1|]. split.
  - cbn [nstep]. rewrite S1. reflexivity.
  - intros t. fold t in R4. cbn [sstep snd]. destruct R8 as (_ & _ & _ & K3). clear - R4 K3. induction K3 as [|c calls Hc K3 IH]; cbn [map]; constructor; auto.
    apply correct_trace with (t := mktr (t_sets t) (publish t) (map (fun _ => []) (t_pend t))); auto.
    apply (sread_correct (with_coll e true)); [apply hrel_flush; exact R4|]. destruct Hc as (Y1 & d & Y2). split; auto. exists d. exact Y2.
Qed.

(** ** Before H5Fflush, and after H5Fclose *)
Lemma nstep_mem : forall e st o st' out, no_flush o -> nstep e st o = Ok (st', out) -> n_mem st' = n_mem st.
Proof.
  intros e st o st' out F H. destruct o as [o|rk c]; cbn [nstep] in H.
  - destruct o; try contradiction; (destruct (step_real e (n_sys st) _) as [[? ?]| |]; cbn [bind fst snd] in H; try discriminate; injection H as <- _; reflexivity).
  - destruct (nth_error _ rk); try discriminate. destruct (info_at _ _) as [[?|]|]; try discriminate. injection H as <- _. reflexivity.
Qed.
Lemma nb_untouched : forall e ops st st' outs, Forall no_flush ops -> nrun e st ops = Ok (st', outs) -> n_mem st' = n_mem st.
Proof.
  intros e. induction ops as [|o ops IH]; intros st st' outs F H; cbn [nrun] in H; [injection H as <- _; reflexivity|]. inversion F; subst.
  destruct (nstep e st o) as [[s1 o1]| |] eqn:E; cbn [bind fst snd] in H; try discriminate. destruct (nrun e s1 ops) as [[s2 o2]| |] eqn:R; cbn [bind fst snd] in H; try discriminate. injection H as <- _.
  rewrite (IH _ _ _ H3 R). eapply nstep_mem; eauto.
Qed.

(** Two states that differ in the queue only. *)
Lemma nstep_queue : forall e st o, stays_open o -> forall q, 
  match nstep e st o with
  | Ok p => exists q', nstep e (mknst (n_sys st) (n_mem st) q) o = Ok (mknst (n_sys (fst p)) (n_mem (fst p)) q', snd p)
  | Err => nstep e (mknst (n_sys st) (n_mem st) q) o = Err
  | UB => nstep e (mknst (n_sys st) (n_mem st) q) o = UB
  end.
Proof.
  intros e st o F q. destruct o as [o|rk c]; cbn [nstep n_sys n_mem n_rreqs].
  - destruct o; try contradiction; (destruct (step_real e (n_sys st) _) as [[? ?]| |]; cbn [bind fst snd]; auto; exists q; reflexivity).
  - destruct (nth_error (g_ranks (s_g (n_sys st))) rk); auto. destruct (info_at _ _) as [[?|]|]; auto. cbn [fst snd n_sys n_mem]. eexists. reflexivity.
Qed.
Lemma nrun_queue : forall e mid st q doff np rest, Forall stays_open mid ->
  nrun e (mknst (n_sys st) (n_mem st) q) (mid ++ NOp (OReopen doff np) :: rest) = nrun e st (mid ++ NOp (OReopen doff np) :: rest).
Proof.
  intros e. induction mid as [|o mid IH]; intros st q doff np rest F; [reflexivity|]. inversion F; subst. cbn [app nrun].
  pose proof (nstep_queue e st o H1 q) as S. destruct (nstep e st o) as [[st1 o1]| |].
  - destruct S as (q' & S). rewrite S. cbn [bind fst snd]. rewrite IH by auto. reflexivity.
  - rewrite S. reflexivity.
  - rewrite S. reflexivity.
Qed.
Lemma nb_dropped : forall e pre st rk c mid doff np rest st1 outs1, Forall stays_open mid -> 
  nrun e st (pre ++ [NRead rk c]) = Ok (st1, outs1) ->
  nrun e st (pre ++ NRead rk c :: mid ++ NOp (OReopen doff np) :: rest) = nrun e st (pre ++ mid ++ NOp (OReopen doff np) :: rest).
Proof.
  intros e. induction pre as [|o pre IH]; intros st rk c mid doff np rest st1 outs1 F H.
  - cbn [app] in *. cbn [nrun] in H. destruct (nstep e st (NRead rk c)) as [[st2 o2]| |] eqn:E; cbn [bind fst snd] in H; try discriminate.
    cbn [nrun]. rewrite E. cbn [bind fst snd]. cbn [nstep] in E. destruct (nth_error _ rk); try discriminate. destruct (info_at _ _) as [[?|]|]; try discriminate. injection E as <- <-.
    rewrite nrun_queue by auto. destruct (nrun e st _) as [[? ?]| |]; reflexivity.
  - cbn [app nrun] in *. destruct (nstep e st o) as [[st2 o2]| |]; cbn [bind fst snd] in *; auto. destruct (nrun e st2 (pre ++ [NRead rk c])) as [[st3 o3]| |] eqn:R; cbn [bind fst snd] in H; try discriminate.
    rewrite (IH _ _ _ _ _ _ _ _ _ F R). reflexivity.
Qed.

(** ** Examples *)
(** Two processes; the first flush completes two reads of process 0 and one of process 1, one of them of an
    element written only after the read was issued; the second flush completes one more. *)
Definition nb_pre : list nop :=
  [NOp (OCreate dA); NOp (OWrite 0 0 [B [0;0] [1;2]] [1;2;3;4]); NOp (OFlush 100);
   NRead 0 (mkrcall 0 [B [0;0] [1;3]] 0 junk); NRead 1 (mkrcall 0 [B [0;0] [2;2]] 10 junk); NRead 0 (mkrcall 0 [B [1;0] [1;2]] 6 junk);
   NOp (OWrite 1 0 [B [1;1] [1;1]] [7;8]); NRead 1 (mkrcall 0 [] 0 junk)].
Definition nb_h : list nop := nb_pre ++ [NOp (OFlush 200); NRead 1 (mkrcall 0 [B [1;1] [1;1]] 2 junk); NOp (OWrite 0 0 [B [1;1] [1;1]] [5;5])].
Definition nb_mem : nat -> bytemap := fun _ => junk.
Lemma nb_ex : tame (with_coll e_ind true) cfg_dflt 2 (as_blocking [] (nb_pre ++ [NOp (OFlush 200)])) /\
  tame (with_coll e_ind true) cfg_dflt 2 (as_blocking [] (nb_h ++ [NOp (OFlush 300)])) /\
  settled 2 false (as_blocking [] (nb_pre ++ [NOp (OFlush 200)])) = true /\ settled 2 false (as_blocking [] (nb_h ++ [NOp (OFlush 300)])) = true /\
  issued_well 2 0 nb_pre = true /\ issued_well 2 0 nb_h = true /\
  reads_of 0 (pending_reads [] nb_pre) = [mkrcall 0 [B [0;0] [1;3]] 0 junk; mkrcall 0 [B [1;0] [1;2]] 6 junk] /\
  (let reads := reads_of 0 (pending_reads [] nb_pre) in let t := trace_of true 2 (as_blocking [] nb_pre) in
   ForallOrdPairs (apart_buffers (t_sets t)) reads /\ ForallOrdPairs no_common_element reads) /\
  (exists st outs, nrun e_ind (ninit cfg_dflt 2 f_zero nb_mem) (nb_pre ++ [NOp (OFlush 200)]) = Ok (st, outs) /\
     get (n_mem st 0) 0 10 = [1;2;3;4;9;9;9;9;7;8] /\ get (n_mem st 1) 10 8 = [1;2;3;4;9;9;7;8]) /\
  (exists st outs, nrun e_ind (ninit cfg_dflt 2 f_zero nb_mem) (nb_h ++ [NOp (OFlush 300)]) = Ok (st, outs) /\ get (n_mem st 1) 2 2 = [5;5] /\ get (n_mem st 0) 0 10 = [1;2;3;4;9;9;9;9;7;8]).
Proof.
  split; [tame_dflt|]. split; [tame_dflt|]. split; [reflexivity|]. split; [reflexivity|]. split; [reflexivity|]. split; [reflexivity|]. split; [reflexivity|]. split; [|split].
  - split; (apply FOP_cons; [apply Forall_cons; [|apply Forall_nil]|apply FOP_cons; [apply Forall_nil|apply FOP_nil]]).
    + left. vm_compute. discriminate.
    + intros _ c H1 H2. vm_compute in H1, H2. intuition (subst; discriminate).
  - eexists. eexists. split; [vm_compute; reflexivity|]. split; vm_compute; reflexivity.
  - eexists. eexists. split; [vm_compute; reflexivity|]. split; vm_compute; reflexivity.
Qed.
Definition nb_rd : nop := NRead 1 (mkrcall 0 [B [0;0] [2;2]] 10 junk).
Lemma nb_dropped_ex :
  let pre := [NOp (OCreate dA); NOp (OWrite 0 0 [B [0;0] [1;2]] [1;2;3;4]); NOp (OFlush 100)] in
  (exists st outs, nrun e_ind (ninit cfg_dflt 2 f_zero nb_mem) (pre ++ [nb_rd]) = Ok (st, outs)) /\
  (exists st outs, nrun e_ind (ninit cfg_dflt 2 f_zero nb_mem) (pre ++ nb_rd :: [] ++ [NOp (OReopen 200 2); NOp (OFlush 300)]) = Ok (st, outs) /\ get (n_mem st 1) 10 8 = [77;77;77;77;77;77;77;77]) /\
  (exists st outs, nrun e_ind (ninit cfg_dflt 2 f_zero nb_mem) (pre ++ nb_rd :: [NOp (OFlush 150)] ++ [NOp (OReopen 200 2); NOp (OFlush 300)]) = Ok (st, outs) /\ get (n_mem st 1) 10 8 = [1;2;3;4;9;9;9;9]).
Proof.
  cbv zeta. split; [eexists; eexists; vm_compute; reflexivity|]. split; (eexists; eexists; split; [vm_compute; reflexivity|vm_compute; reflexivity]).
Qed.
Lemma nb_blocking_ex : tame (with_coll e_ind true) cfg_dflt 2 (as_blocking [] (nb_pre ++ [NOp (OFlush 200); nb_rd] ++ [NOp (ORead 300 [mkrcall 0 [B [1;1] [1;1]] 0 junk])])) /\
  settled 2 false (as_blocking [] (nb_pre ++ [NOp (OFlush 200); nb_rd] ++ [NOp (ORead 300 [mkrcall 0 [B [1;1] [1;1]] 0 junk])])) = true /\ issued_well 2 0 (nb_pre ++ [NOp (OFlush 200); nb_rd]) = true.
Proof. split; [tame_dflt|]. split; reflexivity. Qed.
