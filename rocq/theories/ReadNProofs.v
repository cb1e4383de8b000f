(** Lemmas behind P_ReadN. *)
From Verif Require Import Base BaseProofs Spec MetaModel QueueModel FlushModel IndexModel ReadModel SysModel
  SysSpec History SysProofs HistoryProofs ClaimProofs SysCheck Examples DefSpec AnySpec TameSpec AnyClaims PendModel RealModel NbModel ReadNModel ReadNSpec.
From Coq Require Import ZifyNat ZifyN.

(** ** Blocking: one call or one call per block *)
Lemma each_flush : forall np ops rs, let t := trace_of true np ops in let t' := trace_of true np (ops ++ map (fun p => ORead (fst p) [snd p]) rs) in
  t_sets t' = t_sets t /\ t_pub t' ++ concat (t_pend t') = t_pub t ++ concat (t_pend t).
Proof.
  intros np ops rs. revert ops. induction rs as [|[doff r] rs IH]; intros ops; cbv zeta.
  - cbn [map]. rewrite app_nil_r. auto.
  - cbn [map fst snd]. change (ORead doff [r] :: map (fun p => ORead (fst p) [snd p]) rs) with ([ORead doff [r]] ++ map (fun p => ORead (fst p) [snd p]) rs).
    rewrite app_assoc. destruct (IH (ops ++ [ORead doff [r]])) as [I1 I2]. rewrite I1, I2, trace_snoc. cbn [tstep t_sets t_pub t_pend]. split; auto.
    assert (Hm : forall l : list (list assignment), concat (map (fun _ => @nil assignment) l) = []) by (induction l; auto).
    rewrite Hm, app_nil_r. reflexivity.
Qed.

Lemma pieces_correct : forall T d did mem, nth_error (t_sets T) (Z.to_nat did) = Some d -> 0 < di_esize d -> forall blocks at_ pieces,
  Forall2 (correct_read T) (one_by_one (di_esize d) did mem at_ blocks) pieces -> correct_read T (mkrcall did blocks at_ mem) (concat pieces).
Proof.
  intros T d did mem Hd He. induction blocks as [|b blocks IH]; intros at_ pieces H; cbn [one_by_one] in H; inversion H as [|c0 p cs ps C1 C2]; subst; cbn [concat].
  - exists d. cbn [rc_did rc_sels sel_coords flat_map]. split; auto. split; auto. split; [unfold Zlen; cbn; lia|]. intros [|k] x; discriminate.
  - specialize (IH _ _ C2). destruct C1 as (d1 & A1 & A2 & A3 & A4). destruct IH as (d2 & B1 & B2 & B3 & B4). cbn [rc_did rc_sels rc_buf] in *.
    rewrite Hd in A1, B1. injection A1 as <-. injection B1 as <-.
    assert (S1 : sel_coords [b] = coords b) by (unfold sel_coords; cbn [flat_map]; apply app_nil_r). rewrite S1 in *.
    assert (S2 : sel_coords (b :: blocks) = coords b ++ sel_coords blocks) by reflexivity.
    assert (EA : elems (di_esize d) (p ++ concat ps) = elems (di_esize d) p ++ elems (di_esize d) (concat ps)).
    { apply (elems_app _ (Zlen (coords b))); auto. unfold Zlen. lia. }
    exists d. split; auto. cbn [rc_did rc_sels rc_buf]. rewrite EA, S2, !app_length. split; [lia|]. split.
    + rewrite !Zlen_app, A3, B3. lia.
    + intros k x Hk. destruct (Nat.ltb_spec k (length (coords b))) as [L|L].
      * rewrite nth_error_app1 in Hk by auto. rewrite nth_error_app1 by lia. rewrite (A4 _ _ Hk). reflexivity.
      * rewrite nth_error_app2 in Hk by auto. rewrite nth_error_app2 by lia. rewrite A2. rewrite (B4 _ _ Hk). f_equal. unfold expected. cbn [rc_did rc_mem rc_buf].
        destruct (last_assigned did x (t_pub T)); auto. destruct (di_fill d); auto. f_equal. unfold Zlen. rewrite Nat2Z.inj_sub by lia. ring.
Qed.

Lemma outs_split : forall A (l : list (list (list A))) rs (P : rcall -> list A -> Prop) k,
  length l = (k + length rs)%nat -> (forall i r, nth_error rs i = Some r -> exists bufs, nth_error l (k + i) = Some bufs /\ Forall2 P [r] bufs) ->
  exists outs ps, l = outs ++ map (fun p => [p]) ps /\ length outs = k /\ Forall2 P rs ps.
Proof.
  intros A l rs P k L H. exists (firstn k l).
  assert (G : exists ps, skipn k l = map (fun p => [p]) ps /\ Forall2 P rs ps).
  { assert (H' : forall i r, nth_error rs i = Some r -> exists bufs, nth_error (skipn k l) i = Some bufs /\ Forall2 P [r] bufs).
    { intros i r Hi. destruct (H i r Hi) as (bufs & B1 & B2). exists bufs. split; auto. rewrite <- (firstn_skipn k l) in B1. rewrite nth_error_app2 in B1 by (rewrite firstn_length; lia).
      rewrite firstn_length in B1. replace (k + i - Nat.min k (length l))%nat with i in B1 by lia. exact B1. }
    assert (L' : length (skipn k l) = length rs) by (rewrite skipn_length; lia). clear L H. revert H' L'. generalize (skipn k l). clear l k.
    induction rs as [|r rs IH]; intros l H L.
    - destruct l; [|discriminate]. exists []. split; auto.
    - destruct l as [|x l]; [discriminate|]. destruct (H 0%nat r eq_refl) as (bufs & B1 & B2). injection B1 as <-.
      inversion B2 as [|r0 p rs0 ps0 P1 P2]; subst. inversion P2; subst.
      destruct (IH l) as (ps & I1 & I2); [intros i r0 Hi; apply (H (S i) r0 Hi)|cbn in L; lia|]. exists (p :: ps). cbn [map]. split; [congruence|]. constructor; auto. }
  destruct G as (ps & G1 & G2). exists ps. split; [rewrite <- G1; symmetry; apply firstn_skipn|]. split; auto. rewrite firstn_length. lia.
Qed.

Lemma pairs_length : forall A B (R : A -> B -> Prop) l m, Forall2 R l m -> length l = length m.
Proof. intros A B R l m H. induction H; cbn; auto. Qed.
Lemma one_by_one_length : forall es did mem blocks at_, length (one_by_one es did mem at_ blocks) = length blocks.
Proof. induction blocks; intros; cbn; auto. Qed.

Lemma read_n_each : forall e cfg e' cfg' np f0 f0' ops doff doffs c,
  let es := esize_at (t_sets (trace_of true np ops)) (rc_did c) in length doffs = length (rc_sels c) ->
  tame e cfg np (ops ++ [ORead doff [c]]) -> tame e' cfg' np (ops ++ read_one_by_one doffs es c) ->
  exists s s' outs outs' bytes pieces,
    run e (init cfg np f0) (ops ++ [ORead doff [c]]) = Ok (s, outs ++ [[bytes]]) /\
    run e' (init cfg' np f0') (ops ++ read_one_by_one doffs es c) = Ok (s', outs' ++ map (fun p => [p]) pieces) /\
    length pieces = length (rc_sels c) /\ concat pieces = bytes.
Proof.
  intros e cfg e' cfg' np f0 f0' ops doff doffs c es LD T T'.
  destruct (tame_reads _ _ _ f0 _ T) as (s & outs & R1 & R2 & R3). destruct (tame_reads _ _ _ f0' _ T') as (s' & outs' & Q1 & Q2 & Q3).
  destruct (R3 (length ops) doff [c]) as (bufs & B1 & B2); [rewrite nth_error_app2, Nat.sub_diag by lia; reflexivity|].
  cbv zeta in B2. rewrite firstn_app, Nat.sub_diag, firstn_all in B2. cbn [firstn] in B2. rewrite app_nil_r in B2.
  set (t := trace_of true np ops) in *. set (TT := mktr (t_sets t) (t_pub t ++ concat (t_pend t)) []) in *.
  inversion B2 as [|c0 bytes cs0 b0 C1 C2]; subst. inversion C2; subst.
  pose proof C1 as (d & D1 & D2 & D3 & D4). cbn [TT t_sets] in D1.
  assert (ES : es = di_esize d) by (unfold es, esize_at; rewrite D1; reflexivity).
  assert (HP : 0 < di_esize d).
  { destruct (tame_ok _ _ _ _ T) as [cv H]. apply (trace_sizes e cfg cv np _ H (Z.to_nat (rc_did c)) d). destruct T as [E _]. rewrite E, trace_snoc. exact D1. }
  unfold read_one_by_one in *. set (rs := one_by_one es (rc_did c) (rc_mem c) (rc_buf c) (rc_sels c)) in *.
  assert (LR : length doffs = length rs) by (unfold rs; rewrite one_by_one_length; exact LD).
  destruct (outs_split _ outs' rs (correct_read TT) (length ops)) as (o1 & ps & O1 & O2 & O3).
  - rewrite Q2, app_length, map_length, combine_length. lia.
  - intros i r Hi. assert (exists doff', nth_error (combine doffs rs) i = Some (doff', r)) as [doff' HC].
    { clear - Hi LR. clearbody rs. revert i rs LR Hi. induction doffs as [|x l IH]; intros i [|y rs] L Hi; try discriminate; [destruct i; discriminate|]. destruct i as [|i]; cbn in *; [injection Hi as ->; eauto|]. apply IH; auto. }
    destruct (Q3 (length ops + i)%nat doff' [r]) as (bufs & X1 & X2).
    + rewrite nth_error_app2 by lia. replace (length ops + i - length ops)%nat with i by lia. rewrite nth_error_map, HC. reflexivity.
    + exists bufs. split; auto. cbv zeta in X2. rewrite firstn_app_2 in X2. rewrite firstn_map in X2.
      destruct (each_flush np ops (firstn i (combine doffs rs))) as [F1 F2]. rewrite F1, F2 in X2. exact X2.
  - assert (LO : length outs = S (length ops)) by (rewrite R2, app_length; cbn; lia).
    exists s, s', (firstn (length ops) outs), o1, bytes, ps. split.
    + rewrite R1. f_equal. f_equal. rewrite <- (firstn_skipn (length ops) outs) at 1. f_equal.
      rewrite <- (firstn_skipn (length ops) outs) in B1. rewrite nth_error_app2 in B1 by (rewrite firstn_length; lia). rewrite firstn_length in B1. replace (length ops - Nat.min (length ops) (length outs))%nat with 0%nat in B1 by lia.
      assert (LS : length (skipn (length ops) outs) = 1%nat) by (rewrite skipn_length; lia).
      destruct (skipn (length ops) outs) as [|x [|y l]]; try discriminate. injection B1 as ->. reflexivity.
    + split; [rewrite Q1, O1; reflexivity|]. split; [rewrite <- (pairs_length _ _ _ _ _ O3); apply one_by_one_length|].
      symmetry. apply (correct_unique TT TT c); auto.
      * unfold rs in O3. rewrite ES in O3. pose proof (pieces_correct TT d (rc_did c) (rc_mem c) D1 HP (rc_sels c) (rc_buf c) ps O3) as X. destruct c; exact X.
      * cbn [TT t_sets]. intros d0 Hd0. rewrite D1 in Hd0. injection Hd0 as <-. exact HP.
      * intros d0 Hd0. eauto.
Qed.

(** ** Non-blocking: the caller's arrays *)
Lemma see_ext : forall arrs arrs' l, (forall k, arrs k = arrs' k) -> see_all arrs l = see_all arrs' l.
Proof.
  intros arrs arrs' l H. induction l as [|r l IH]; cbn [see_all]; auto.
  assert (E : see arrs r = see arrs' r) by (destruct r; cbn [see]; rewrite ?H; reflexivity). rewrite E, IH. reflexivity.
Qed.

Definition uses (r : areq) : list nat := match r with ROwn _ _ => [] | RArr _ _ _ arr _ _ => [arr] end.
Lemma see_other : forall arrs arr new l, (forall r, In r l -> ~ In arr (uses r)) ->
  see_all (fun k => if (k =? arr)%nat then new else arrs k) l = see_all arrs l.
Proof.
  intros arrs arr new l. induction l as [|r l IH]; intros H; cbn [see_all]; auto.
  assert (E : see (fun k => if (k =? arr)%nat then new else arrs k) r = see arrs r).
  { destruct r as [rk c|rk did n k buf size]; cbn [see]; auto. destruct (Nat.eqb_spec k arr) as [->|]; auto. exfalso. apply (H (RArr rk did n arr buf size)); [left; auto|cbn; auto]. }
  rewrite E, IH by (intros r0 Hr; apply H; right; auto). reflexivity.
Qed.
Lemma see_app : forall arrs a b x y, see_all arrs a = Ok x -> see_all arrs b = Ok y -> see_all arrs (a ++ b) = Ok (x ++ y).
Proof.
  intros arrs a. induction a as [|r a IH]; intros b x y H1 H2; cbn [see_all app] in *.
  - injection H1 as <-. exact H2.
  - destruct (see arrs r) as [v| |]; cbn [bind] in *; try discriminate. destruct (see_all arrs a) as [w| |] eqn:E; cbn [bind] in *; try discriminate.
    injection H1 as <-. rewrite (IH _ _ _ eq_refl H2). reflexivity.
Qed.

(** The state with the queue by value. *)
Definition valued (st : ast) (q : list (nat * rcall)) : nst := mknst (n_sys (a_nst st)) (n_mem (a_nst st)) q.
Definition in_use (used : list nat) (l : list areq) : Prop := forall r k, In r l -> In k (uses r) -> In k used.

Lemma queue_kept : forall e s mem q q' o r, (forall doff, o <> OFlush doff) -> nstep e (mknst s mem q) (NOp o) = Ok r ->
  exists q1, nstep e (mknst s mem q') (NOp o) = Ok (mknst (n_sys (fst r)) (n_mem (fst r)) q1, snd r) /\
    q1 = match o with OReopen _ _ => [] | _ => q' end.
Proof.
  intros e s mem q q' o r Ho H.
  destruct o as [d|did dims|rk did sels data|doff|doff calls|doff np]; cbn [nstep n_sys n_mem n_rreqs] in H |- *; try (exfalso; eapply Ho; reflexivity);
    match goal with |- context [step_real e s ?o] => destruct (step_real e s o) as [p| |]; cbn [bind] in H |- *; try discriminate end;
    injection H as <-; cbn [fst snd n_sys n_mem]; eexists; split; reflexivity.
Qed.

Lemma kept_run : forall e ops st used q st' outs, arrays_kept used ops = true -> in_use used (a_reqs st) -> see_all (a_arrs st) (a_reqs st) = Ok q ->
  arun e st ops = Ok (st', outs) ->
  exists n, nrun e (valued st q) (by_value (a_arrs st) ops) = Ok (n, outs) /\ n_sys n = n_sys (a_nst st') /\ n_mem n = n_mem (a_nst st').
Proof.
  intros e. induction ops as [|o ops IH]; intros st used q st' outs K U Q R.
  - cbn in R. injection R as <- <-. cbn. eexists. split; [reflexivity|]. auto.
  - assert (IH' : forall st used q st' outs, arun e st ops = Ok (st', outs) -> arrays_kept used ops = true -> in_use used (a_reqs st) -> see_all (a_arrs st) (a_reqs st) = Ok q ->
      exists n, nrun e (valued st q) (by_value (a_arrs st) ops) = Ok (n, outs) /\ n_sys n = n_sys (a_nst st') /\ n_mem n = n_mem (a_nst st')) by (intros; eapply IH; eauto).
    cbn [arun] in R. destruct (astep e st o) as [[st1 o1]| |] eqn:A; cbn [bind] in R; try discriminate. cbn [fst snd] in R.
    destruct (arun e st1 ops) as [[st2 o2]| |] eqn:R2; cbn [bind] in R; try discriminate. cbn [fst snd] in R. injection R as <- <-.
    destruct o as [[o|rk c]|rk did n arr buf|arr blocks].
    + assert (FO : (exists doff, o = OFlush doff) \/ (forall doff, o <> OFlush doff)) by (destruct o; [right; discriminate..|left; eauto|right; discriminate|right; discriminate]).
      destruct FO as [[doff ->]|FO].
      * cbn [astep] in A. rewrite Q in A. cbn [bind] in A. fold (valued st q) in A. destruct (nstep e (valued st q) (NOp (OFlush doff))) as [[n1 x]| |] eqn:N; cbn [bind] in A; try discriminate.
        cbn [fst snd] in A. injection A as <- <-. cbn [arrays_kept] in K.
        destruct (IH (mkast n1 [] (a_arrs st)) [] [] _ _ K ltac:(intros r k []) eq_refl R2) as (n & I1 & I2). exists n. split; auto. cbn [by_value nrun]. rewrite N. cbn [bind fst snd].
        assert (E : n1 = valued (mkast n1 [] (a_arrs st)) []).
        { unfold valued. cbn [a_nst]. cbn [nstep] in N. destruct (step_real e (n_sys (valued st q)) (OFlush doff)) as [p| |]; cbn [bind] in N; try discriminate.
          destruct (n_rreqs (valued st q)); [injection N as <- _; reflexivity|]. destruct (serve_queues e (fst p) (n_mem (valued st q)) (p0 :: l)); cbn [bind] in N; try discriminate. injection N as <- _. reflexivity. }
        cbn [a_arrs] in I1. rewrite <- E in I1. rewrite I1. reflexivity.
      * assert (A' : exists r, nstep e (a_nst st) (NOp o) = Ok r /\ o1 = snd r /\ st1 = mkast (fst r) (match o with OReopen _ _ => [] | _ => a_reqs st end) (a_arrs st)).
        { destruct o; try (exfalso; eapply FO; reflexivity); cbn [astep] in A;
            match type of A with context [nstep e (a_nst st) ?x] => destruct (nstep e (a_nst st) x) as [r| |]; cbn [bind] in A; try discriminate end;
            injection A as <- <-; eexists; (split; [reflexivity|]); split; reflexivity. }
        destruct A' as (r & N & -> & ->). destruct (a_nst st) as [s mem q0] eqn:EN.
        destruct (queue_kept _ _ _ _ q _ _ FO N) as (q1 & N1 & Q1).
        assert (K' : exists used', arrays_kept used' ops = true /\ in_use used' (match o with OReopen _ _ => [] | _ => a_reqs st end)).
        { destruct o; try (exfalso; eapply FO; reflexivity); cbn [arrays_kept] in K; try (exists used; split; [exact K|exact U]). exists []. split; [exact K|intros ? ? []]. }
        destruct K' as (used' & K1 & K2).
        destruct (IH (mkast (fst r) (match o with OReopen _ _ => [] | _ => a_reqs st end) (a_arrs st)) used' q1 st2 o2 K1 K2) as (n & I1 & I2); [|exact R2|].
        { cbn [a_arrs a_reqs]. rewrite Q1. destruct o; auto. }
        exists n. split; auto. cbn [by_value nrun]. unfold valued at 1. rewrite EN. cbn [n_sys n_mem]. rewrite N1. cbn [bind fst snd].
        unfold valued in I1. cbn [a_nst a_arrs] in I1. rewrite I1. reflexivity.
    + cbn [astep] in A. destruct (nstep e (a_nst st) (NRead rk c)) as [[n1 x]| |] eqn:N; cbn [bind] in A; try discriminate. cbn [fst snd] in A. injection A as <- <-. cbn [arrays_kept] in K.
      assert (N' : nstep e (valued st q) (NRead rk c) = Ok (mknst (n_sys (a_nst st)) (n_mem (a_nst st)) (match rc_sels c with [] => q | _ => q ++ [(rk, c)] end), []) /\ x = []).
      { cbn [nstep] in N |- *. unfold valued. cbn [n_sys n_mem n_rreqs]. destruct (nth_error (g_ranks (s_g (n_sys (a_nst st)))) rk); try discriminate.
        destruct (info_at (g_infos (s_g (n_sys (a_nst st)))) (rc_did c)) as [[i|]|]; try discriminate. injection N as _ <-. auto. }
      destruct N' as [N' ->].
      destruct (IH' _ used (match rc_sels c with [] => q | _ => q ++ [(rk, c)] end) _ _ R2 K) as (n & I1 & I2).
      * cbn [a_reqs]. destruct (rc_sels c); auto. intros r k Hr Hk. apply in_app_iff in Hr. destruct Hr as [Hr|[<-|[]]]; [eapply U; eauto|destruct Hk].
      * cbn [a_arrs a_reqs]. destruct (rc_sels c) eqn:ES; auto. apply see_app; auto.
      * exists n. split; auto. cbn [by_value nrun]. rewrite N'. cbn [bind fst snd app]. unfold valued in I1. cbn [a_nst a_arrs] in I1. rewrite I1. reflexivity.
    + cbn [astep] in A. cbn [arrays_kept] in K.
      destruct (nth_error (g_ranks (s_g (n_sys (a_nst st)))) rk) eqn:E1; try discriminate. destruct (info_at (g_infos (s_g (n_sys (a_nst st)))) did) as [[i|]|] eqn:E2; try discriminate.
      destruct (Nat.eqb_spec (length (firstn n (a_arrs st arr))) n) as [L|]; try discriminate. injection A as <- <-.
      set (c := mkrcall did (firstn n (a_arrs st arr)) buf (fun _ => 0)).
      assert (SN : forall A (a b : A), match rc_sels c with [] => a | _ => b end = match n with O => a | _ => b end).
      { intros X a b. unfold c. cbn [rc_sels]. destruct n; [reflexivity|]. destruct (firstn (S n) (a_arrs st arr)); [discriminate|reflexivity]. }
      destruct (IH' _ (arr :: used) (match n with O => q | _ => q ++ [(rk, c)] end) _ _ R2 K) as (m & I1 & I2).
      * cbn [a_reqs]. destruct n; [intros r0 k Hr Hk; right; eapply U; eauto|]. intros r0 k Hr Hk. apply in_app_iff in Hr. destruct Hr as [Hr|[<-|[]]]; [right; eapply U; eauto|]. destruct Hk as [<-|[]]. left. reflexivity.
      * cbn [a_arrs a_reqs]. destruct n; auto. apply see_app; auto. cbn [see_all see]. rewrite L, Nat.eqb_refl, Z.eqb_refl. reflexivity.
      * exists m. split; auto. cbn [by_value nrun]. fold c. cbn [nstep]. unfold valued at 1 2. cbn [n_sys]. rewrite E1. change (rc_did c) with did. rewrite E2.
        rewrite SN. cbn [bind fst snd app]. unfold valued in I1 |- *. cbn [a_nst a_arrs n_mem n_sys n_rreqs] in I1 |- *. rewrite I1. reflexivity.
    + cbn [astep] in A. injection A as <- <-. cbn [arrays_kept] in K. apply andb_prop in K. destruct K as [K0 K].
      assert (NU : ~ In arr used).
      { intros H. apply negb_true_iff in K0. assert (X : existsb (Nat.eqb arr) used = true) by (apply existsb_exists; exists arr; split; auto; apply Nat.eqb_refl). congruence. }
      destruct (IH' _ used q _ _ R2 K) as (n & I1 & I2).
      * exact U.
      * cbn [a_arrs a_reqs]. rewrite see_other; auto. intros r Hr Hk. apply NU. eapply U; eauto.
      * exists n. split; auto.
Qed.
Lemma arrays_kept_run : forall e cfg np f0 mem ops st outs, arrays_kept [] ops = true ->
  arun e (ainit cfg np f0 mem) ops = Ok (st, outs) ->
  exists n, nrun e (ninit cfg np f0 mem) (by_value (fun _ => []) ops) = Ok (n, outs) /\ n_sys n = n_sys (a_nst st) /\ n_mem n = n_mem (a_nst st).
Proof. intros e cfg np f0 mem ops st outs K R. exact (kept_run e ops (ainit cfg np f0 mem) [] [] st outs K ltac:(intros r k []) eq_refl R). Qed.

(** Arrays overwritten too early. *)
Definition but (arr : nat) (new : list block) (a b : ast) : Prop :=
  a_nst a = a_nst b /\ a_reqs a = a_reqs b /\ (forall k, k <> arr -> a_arrs a k = a_arrs b k) /\ a_arrs b arr = new.
Lemma but_step : forall e arr new a b o a' out, but arr new a b -> leaves arr o -> astep e a o = Ok (a', out) ->
  exists b', astep e b o = Ok (b', out) /\ but arr new a' b'.
Proof.
  intros e arr new a b o a' out (H1 & H2 & H3 & H4) L A. destruct o as [[o|rk c]|rk did n k buf|k blocks].
  - destruct o; try contradiction; cbn [astep] in A |- *; rewrite H1 in A;
      match type of A with context [nstep e (a_nst b) ?x] => destruct (nstep e (a_nst b) x) as [r| |]; cbn [bind] in A |- *; try discriminate end;
      injection A as <- <-; eexists; (split; [reflexivity|]); unfold but; cbn [a_nst a_reqs a_arrs]; auto.
  - cbn [astep] in A |- *. rewrite H1 in A. destruct (nstep e (a_nst b) (NRead rk c)) as [r| |]; cbn [bind] in A |- *; try discriminate. injection A as <- <-. eexists. split; [reflexivity|].
    unfold but. cbn [a_nst a_reqs a_arrs]. rewrite H2. auto.
  - cbn [leaves] in L. cbn [astep] in A |- *. rewrite H1, (H3 _ L), H2 in A. destruct (nth_error (g_ranks (s_g (n_sys (a_nst b)))) rk); try discriminate.
    destruct (info_at (g_infos (s_g (n_sys (a_nst b)))) did) as [[i|]|]; try discriminate. destruct (length (firstn n (a_arrs b k)) =? n)%nat; try discriminate. injection A as <- <-. eexists. split; [reflexivity|].
    unfold but. cbn [a_nst a_reqs a_arrs]. auto.
  - cbn [leaves] in L. cbn [astep] in A |- *. injection A as <- <-. eexists. split; [reflexivity|]. unfold but. cbn [a_nst a_reqs a_arrs]. split; auto. split; auto. split.
    + intros j J. rewrite (H3 j J). reflexivity.
    + destruct (Nat.eqb_spec arr k); [congruence|auto].
Qed.
Lemma but_run : forall e arr new mid a b a' outs, but arr new a b -> Forall (leaves arr) mid -> arun e a mid = Ok (a', outs) ->
  exists b', arun e b mid = Ok (b', outs) /\ but arr new a' b'.
Proof.
  intros e arr new. induction mid as [|o mid IH]; intros a b a' outs B F R.
  - cbn in R. injection R as <- <-. exists b. split; auto.
  - inversion F; subst. cbn [arun] in R |- *. destruct (astep e a o) as [[a1 o1]| |] eqn:A; cbn [bind] in R; try discriminate. cbn [fst snd] in R.
    destruct (arun e a1 mid) as [[a2 o2]| |] eqn:R2; cbn [bind] in R; try discriminate. cbn [fst snd] in R. injection R as <- <-.
    destruct (but_step _ _ _ _ _ _ _ _ B H1 A) as (b1 & S1 & B1). destruct (IH _ _ _ _ B1 H2 R2) as (b2 & S2 & B2). exists b2. rewrite S1. cbn [bind fst snd]. rewrite S2. split; auto.
Qed.
Lemma arun_app : forall e a b st, arun e st (a ++ b) = do p <- arun e st a; do q <- arun e (fst p) b; Ok (fst q, snd p ++ snd q).
Proof.
  intros e a. induction a as [|o a IH]; intros b st; cbn [arun app bind].
  - cbn [fst snd]. destruct (arun e st b) as [[x y]| |]; reflexivity.
  - destruct (astep e st o) as [p| |]; cbn [bind]; auto. rewrite IH. destruct (arun e (fst p) a) as [q| |]; cbn [bind]; auto. cbn [fst snd].
    destruct (arun e (fst q) b); cbn [bind fst snd]; auto. rewrite app_assoc. reflexivity.
Qed.

Lemma arrays_changed : forall e st rk did n arr buf mid new doff st1 outs1, Forall (leaves arr) mid ->
  length (firstn n new) = n -> sel_size (firstn n new) = sel_size (firstn n (a_arrs st arr)) ->
  arun e st (AReadN rk did n arr buf :: mid ++ [ASet arr new; ACall (NOp (OFlush doff))]) = Ok (st1, outs1) ->
  exists st2, arun e st (ASet arr new :: AReadN rk did n arr buf :: mid ++ [ACall (NOp (OFlush doff))]) = Ok (st2, outs1) /\ a_nst st2 = a_nst st1.
Proof.
  intros e st rk did n arr buf mid new doff st1 outs1 F L SS R. cbn [arun] in R.
  destruct (astep e st (AReadN rk did n arr buf)) as [[a o1]| |] eqn:A; cbn [bind] in R; try discriminate. cbn [fst snd] in R.
  rewrite arun_app in R. destruct (arun e a mid) as [[a1 o2]| |] eqn:M; cbn [bind] in R; try discriminate. cbn [fst snd] in R.
  cbn [arun astep bind fst snd a_arrs a_reqs a_nst] in R.
  set (b0 := mkast (a_nst st) (a_reqs st) (fun k => if (k =? arr)%nat then new else a_arrs st k)).
  assert (B : exists b, astep e b0 (AReadN rk did n arr buf) = Ok (b, o1) /\ but arr new a b).
  { cbn [astep] in A |- *. unfold b0 at 1 2. cbn [a_nst].
    destruct (nth_error (g_ranks (s_g (n_sys (a_nst st)))) rk); try discriminate. destruct (info_at (g_infos (s_g (n_sys (a_nst st)))) did) as [[i|]|]; try discriminate.
    destruct (length (firstn n (a_arrs st arr)) =? n)%nat; try discriminate. injection A as <- <-.
    assert (X : a_arrs b0 arr = new) by (unfold b0; cbn [a_arrs]; rewrite Nat.eqb_refl; reflexivity). rewrite X, L, Nat.eqb_refl. eexists. split; [reflexivity|].
    unfold but. cbn [a_nst a_reqs a_arrs b0]. rewrite SS. split; auto. split; auto. split; [|exact X]. intros k K. destruct (Nat.eqb_spec k arr); [contradiction|reflexivity]. }
  destruct B as (b & A' & B). destruct (but_run _ _ _ _ _ _ _ _ B F M) as (b1 & M' & (B1 & B2 & B3 & B4)).
  cbn [arun]. change (astep e st (ASet arr new)) with (@Ok (ast * list (list (list Z))) (b0, [])). cbn [bind fst snd]. rewrite A'. cbn [bind fst snd]. rewrite arun_app, M'. cbn [bind fst snd arun astep].
  assert (S : see_all (a_arrs b1) (a_reqs b1) = see_all (fun k => if (k =? arr)%nat then new else a_arrs a1 k) (a_reqs a1)).
  { rewrite B2. apply see_ext. intros k. destruct (Nat.eqb_spec k arr) as [->|K]; auto. symmetry. auto. }
  rewrite S. rewrite <- B1. destruct (see_all (fun k => if (k =? arr)%nat then new else a_arrs a1 k) (a_reqs a1)) as [q| |]; cbn [bind] in R |- *; try discriminate.
  destruct (nstep e (mknst (n_sys (a_nst a1)) (n_mem (a_nst a1)) q) (NOp (OFlush doff))) as [[p x]| |]; cbn [bind fst snd] in R |- *; try discriminate.
  injection R as <- <-. eexists. split; [reflexivity|]. reflexivity.
Qed.
