(** Lemmas behind P_Nb: histories with non-blocking reads. *)
From Verif Require Import Base BaseProofs Spec MetaModel QueueModel FlushModel IndexModel ReadModel SysModel
  SysSpec History PendModel PendSpec GeomProofs MetaProofs QueueProofs IndexProofs SearchProofs ReadProofs HitProofs MdProofs
  StoreProofs FlushProofs ReadOneProofs SysProofs PendProofs PendClaims HistoryProofs RealModel RealSpec RealClaims NbModel NbSpec NbProofs.
From Coq Require Import ZifyNat ZifyN Permutation.

Lemma no_pend : forall A (l : list (list A)), concat (map (fun _ => []) l) = ([] : list A).
Proof. intros A l. induction l; auto. Qed.
Lemma sflush_idem : forall sp, sflush (sflush sp) = sflush sp.
Proof. intros sp. unfold sflush. cbn [ss_sets ss_store ss_pend]. rewrite no_pend. cbn [fold_left]. rewrite map_map. reflexivity. Qed.
Lemma pend_flushed : forall sp, pend_bytes (sflush sp) = 0.
Proof. intros sp. unfold pend_bytes, sflush. cbn [ss_pend]. rewrite no_pend. reflexivity. Qed.

Lemma served_none : forall sp mem, served sp [] mem mem.
Proof. intros sp mem _ _. split; auto. Qed.

Lemma coll_serve : forall e b g q rks idx mem, serve_all (with_coll e b) g idx mem q rks = serve_all e g idx mem q rks.
Proof.
  intros e b g q rks. induction rks as [|rk rks IH]; intros idx mem; cbn [serve_all]; auto.
  change (serve (with_coll e b) g idx (mem rk) (queue_of rk q)) with (serve e g idx (mem rk) (queue_of rk q)).
  destruct (serve e g idx (mem rk) (queue_of rk q)); cbn [bind]; auto.
Qed.

(** What is left of a state and a specification state after a call. *)
Section Run.
Context (e : env) (cfg : Z) (cv : conv) (Hsort : is_sort (e_sort e)).
Let E := with_coll e true.

Lemma nflush_ok : forall st sp h n C ms grs doff, inv E cfg cv (n_sys st) sp h n C ms grs -> n < 2 ^ 30 ->
  ok_flush sp h doff -> (n_rreqs st <> [] -> ok_read E (sflush sp) (hflush sp h doff) (2 ^ 62) (map snd (n_rreqs st))) ->
  exists st' C' ms' grs', nstep e st (NOp (OFlush doff)) = Ok (st', [[]]) /\ n_rreqs st' = [] /\
    inv E cfg cv (n_sys st') (sflush sp) (hflush sp h doff) (n + 1) C' ms' grs' /\
    length (g_ranks (s_g (n_sys st'))) = length (g_ranks (s_g (n_sys st))) /\
    forall rk, (rk < length (g_ranks (s_g (n_sys st))))%nat -> served (sflush sp) (queue_of rk (n_rreqs st)) (n_mem st rk) (n_mem st' rk).
Proof.
  intros st sp h n C ms grs doff I Hn Hf Hr.
  destruct (step_ok E cfg cv (n_sys st) sp h n C ms grs (OFlush doff) I Hsort Hf Hn) as (s1 & C1 & ms1 & grs1 & S1 & I1).
  change (step E (n_sys st) (OFlush doff)) with (step_real e (n_sys st) (OFlush doff)) in S1.
  cbn [sstep fst snd] in S1, I1. change (hstep E sp h (OFlush doff)) with (hflush sp h doff) in I1.
  pose proof (step_procs _ _ _ _ _ S1) as SL. cbn [procs] in SL. cbn [nstep]. rewrite S1. cbn [bind fst snd].
  destruct (n_rreqs st) as [|p q] eqn:Q.
  - exists (mknst s1 (n_mem st) []), C1, ms1, grs1. cbn [n_sys n_mem n_rreqs queue_of filter map]. split; auto. split; auto. split; auto. split; auto.
    intros rk _. apply served_none.
  - specialize (Hr ltac:(discriminate)). destruct Hr as (_ & K2 & _ & K3).
    pose proof (inv_pend _ _ _ _ _ _ _ _ _ _ I1) as (P1 & P2 & P3).
    assert (A1 : all_pd grs1 = []).
    { unfold sflush in P2. cbn [ss_pend] in P2. rewrite no_pend in P2. destruct (all_pd grs1); [reflexivity|discriminate]. }
    destruct (inv_metaflush_log _ _ _ _ _ _ _ _ _ _ I1 A1 ltac:(lia)) as (ms2 & I2 & _).
    set (grs2 := gcleared grs1) in *.
    assert (F2 : flat_map gr_fl grs2 = []) by (unfold grs2, gcleared; clear; induction grs1; auto).
    set (g2 := if g_metadirty (s_g s1) then metaflush (s_g s1) else s_g s1) in *. set (idx2 := if g_metadirty (s_g s1) then None else s_idx s1) in *.
    assert (Hlim : e_limit E <> None -> C1 <> []).
    { intros Hl. apply (v_hi1 _ _ _ _ _ _ _ _ _ _ I1). destruct (K2 Hl) as [Hh|Hp]; auto. unfold sflush in Hp. cbn [ss_pend] in Hp. rewrite no_pend in Hp. contradiction. }
    destruct (serve_every _ _ _ _ _ _ _ _ _ _ I2 Hsort F2 Hlim (p :: q) K3 (seq 0 (length (g_ranks (s_g s1)))) (seq_NoDup _ _) idx2 (n_mem st) (v_idx _ _ _ _ _ _ _ _ _ _ I2))
      as (mem' & idx' & V1 & V2 & V3 & V4). cbn [s_g] in V1, V2.
    unfold E in V1. rewrite coll_serve in V1.
    unfold serve_queues. fold g2. fold idx2. rewrite V1. cbn [bind fst snd].
    exists (mknst (mksys g2 idx') mem' []), C1, ms2, grs2. cbn [n_sys n_mem n_rreqs s_g]. split; [reflexivity|]. split; [reflexivity|]. split; [|split].
    + constructor; cbn [s_g s_idx]; try (apply I2). exact V2.
    + unfold g2. destruct (g_metadirty (s_g s1)); cbn [metaflush g_ranks]; rewrite ?map_length; auto.
    + intros rk Hrk. apply V3. apply in_seq. lia.
Qed.

Lemma real_step : forall s sp h n C ms grs o np pend, inv E cfg cv s sp h n C ms grs -> n < 2 ^ 30 -> ok_op E cfg cv sp h o ->
  length (g_ranks (s_g s)) = np -> (pend = false -> concat (ss_pend sp) = []) -> (match o with ORead _ _ => (np =? 1)%nat || negb pend = true | _ => True end) ->
  exists s' C' ms' grs', step_real e s o = Ok (s', snd (sstep true sp o)) /\
    inv E cfg cv s' (fst (sstep true sp o)) (hstep E sp h o) (n + 1) C' ms' grs' /\
    length (g_ranks (s_g s')) = procs np o /\ (pends np pend o = false -> concat (ss_pend (fst (sstep true sp o))) = []).
Proof.
  intros s sp h n C ms grs o np pend I Hn Ho Hnp Hp Hr.
  destruct (step_ok E cfg cv s sp h n C ms grs o I Hsort Ho Hn) as (s' & C' & ms' & grs' & S1 & I1). change (e_coll E) with true in *.
  assert (R : step_real e s o = step E s o).
  { unfold step_real, E. apply coll_step. destruct o; auto. rewrite Hnp. apply orb_prop in Hr. destruct Hr as [Hr|Hr]; auto.
    right. left. destruct pend; [discriminate|]. pose proof (inv_pend _ _ _ _ _ _ _ _ _ _ I) as (_ & P2 & P3). rewrite (Hp eq_refl) in P2. rewrite P3.
    destruct (all_pd grs); [reflexivity|discriminate]. }
  exists s', C', ms', grs'. rewrite R. split; auto. split; auto. split; [subst np; eapply step_procs; eauto|].
  destruct o as [d|did dims|rk did sels data|doff|doff calls|doff np']; cbn [pends sstep fst]; intros Q.
  - auto.
  - destruct (set_of sp did); auto.
  - destruct sels; [|rewrite orb_true_r in Q; discriminate]. rewrite orb_false_r in Q. auto.
  - apply no_pend.
  - apply no_pend.
  - cbn [ss_pend]. clear. induction np'; auto.
Qed.

Definition made (o : op) : nat := match o with OCreate _ => 1%nat | _ => 0%nat end.
Lemma upd_length : forall A (l : list A) n a, length (upd_nth n a l) = length l.
Proof. induction l as [|x l IH]; intros [|n] a; cbn; auto. Qed.
Lemma sets_made : forall sp o, length (ss_sets (fst (sstep true sp o))) = (length (ss_sets sp) + made o)%nat.
Proof.
  intros sp o. destruct o; cbn [sstep fst made ss_sets]; rewrite ?Nat.add_0_r; auto.
  - rewrite app_length. reflexivity.
  - destruct (set_of sp did); cbn [ss_sets]; rewrite ?upd_length; auto.
  - destruct sels; auto.
Qed.

Lemma nrun_ok : forall ops tl st sp h n C ms grs t q pend np nd,
  inv E cfg cv (n_sys st) sp h n C ms grs -> n_rreqs st = q -> hrel sp t -> length (g_ranks (s_g (n_sys st))) = np -> length (ss_sets sp) = nd ->
  (pend = false -> concat (ss_pend sp) = []) -> Forall (fun p => (fst p < np)%nat) q ->
  ok_run E cfg cv sp h (as_blocking q ops ++ tl) -> n + Z.of_nat (length (as_blocking q ops ++ tl)) < 2 ^ 30 ->
  settled np pend (as_blocking q ops ++ tl) = true -> issued_well np nd ops = true ->
  exists st' outs sp' h' n' C' ms' grs' pend' np', nrun e st ops = Ok (st', outs) /\
    inv E cfg cv (n_sys st') sp' h' n' C' ms' grs' /\ n_rreqs st' = pending_reads q ops /\
    hrel sp' (fold_left (tstep true) (as_blocking q ops) t) /\ length (g_ranks (s_g (n_sys st'))) = np' /\
    (pend' = false -> concat (ss_pend sp') = []) /\ Forall (fun p => (fst p < np')%nat) (pending_reads q ops) /\
    ok_run E cfg cv sp' h' tl /\ n' + Z.of_nat (length tl) < 2 ^ 30 /\ settled np' pend' tl = true.
Proof.
  induction ops as [|o ops IH]; intros tl st sp h n C ms grs t q pend np nd I Hq HR Hnp Hnd Hp HF Hok Hn Hs Hi.
  - cbn [as_blocking app fold_left pending_reads] in *. exists st, [], sp, h, n, C, ms, grs, pend, np. cbn [nrun]. auto 12.
  - destruct o as [o|rk c].
    2:{ cbn [as_blocking pending_reads issued_well] in *. apply andb_prop in Hi. destruct Hi as (Hi & Hi4). apply andb_prop in Hi. destruct Hi as (Hi & Hi3). apply andb_prop in Hi. destruct Hi as (Hi1 & Hi2).
      apply Nat.ltb_lt in Hi1, Hi3. apply Z.leb_le in Hi2.
      assert (HN : nstep e st (NRead rk c) = Ok (mknst (n_sys st) (n_mem st) (match rc_sels c with [] => q | _ => q ++ [(rk, c)] end), [])).
      { cbn [nstep]. destruct (nth_error (g_ranks (s_g (n_sys st))) rk) eqn:N; [|apply nth_error_None in N; lia].
        destruct (nth_error (ss_sets sp) (Z.to_nat (rc_did c))) as [d|] eqn:D; [|apply nth_error_None in D; lia].
        assert (SO : set_of sp (rc_did c) = Some d) by (unfold set_of; destruct (Z.ltb_spec (rc_did c) 0); [lia|exact D]).
        destruct (set_of_info _ _ _ _ _ _ _ _ _ _ _ _ I SO) as (_ & _ & d' & _ & D3 & _). rewrite D3, Hq. reflexivity. }
      cbn [nrun]. rewrite HN. cbn [bind fst snd].
      destruct (IH tl (mknst (n_sys st) (n_mem st) (match rc_sels c with [] => q | _ => q ++ [(rk, c)] end)) sp h n C ms grs t _ pend np nd I eq_refl HR Hnp Hnd Hp) as
        (st' & outs & sp' & h' & n' & C' & ms' & grs' & pend' & np' & R1 & R2); auto.
      { destruct (rc_sels c); auto. apply Forall_app. split; auto. }
      exists st', outs, sp', h', n', C', ms', grs', pend', np'. rewrite R1. cbn [bind fst snd]. split; [reflexivity|exact R2]. }
    assert (K : forall q' (Hproc : forall p s1, step_real e (n_sys st) o = Ok (s1, p) -> nstep e st (NOp o) = Ok (mknst s1 (n_mem st) q', [p]))
       (Hb : as_blocking q (NOp o :: ops) = o :: as_blocking q' ops) (Hpr : pending_reads q (NOp o :: ops) = pending_reads q' ops)
       (HF' : Forall (fun p => (fst p < procs np o)%nat) q') (Hi' : issued_well (procs np o) (nd + made o) ops = true)
       (Hst : settled np pend (as_blocking q (NOp o :: ops) ++ tl) = true -> settled (procs np o) (pends np pend o) (as_blocking q' ops ++ tl) = true /\
              (match o with ORead _ _ => (np =? 1)%nat || negb pend = true | _ => True end)), 
       exists st' outs sp' h' n' C' ms' grs' pend' np', nrun e st (NOp o :: ops) = Ok (st', outs) /\
         inv E cfg cv (n_sys st') sp' h' n' C' ms' grs' /\ n_rreqs st' = pending_reads q (NOp o :: ops) /\
         hrel sp' (fold_left (tstep true) (as_blocking q (NOp o :: ops)) t) /\ length (g_ranks (s_g (n_sys st'))) = np' /\
         (pend' = false -> concat (ss_pend sp') = []) /\ Forall (fun p => (fst p < np')%nat) (pending_reads q (NOp o :: ops)) /\
         ok_run E cfg cv sp' h' tl /\ n' + Z.of_nat (length tl) < 2 ^ 30 /\ settled np' pend' tl = true).
    { intros q' Hproc Hb Hpr HF' Hi' Hst. rewrite Hb, Hpr in *. cbn [app ok_run] in Hok. destruct Hok as (Ho & Hok). change (e_coll E) with true in *. cbn [app length] in Hn.
      destruct (Hst Hs) as (Hs' & Hr).
      destruct (real_step _ _ _ _ _ _ _ o np pend I ltac:(lia) Ho Hnp Hp Hr) as (s1 & C1 & ms1 & grs1 & S1 & I1 & L1 & P1).
      cbn [nrun]. rewrite (Hproc _ _ S1). cbn [bind fst snd].
      destruct (IH tl (mknst s1 (n_mem st) q') _ _ _ _ _ _ (tstep true t o) q' (pends np pend o) (procs np o) (nd + made o)%nat I1 eq_refl) as
        (st' & outs & sp' & h' & n' & C' & ms' & grs' & pend' & np' & R1 & R2); auto.
      - exact (hrel_step E cfg cv sp t h o HR Ho).
      - rewrite sets_made, Hnd. reflexivity.
      - lia.
      - exists st', ([snd (sstep true sp o)] ++ outs), sp', h', n', C', ms', grs', pend', np'. rewrite R1. cbn [bind fst snd fold_left]. split; [reflexivity|exact R2]. }
    destruct o as [d|did dims|rk did sels data|doff|doff calls|doff np1].
    + apply (K q); auto.
      * intros p s1 H. cbn [nstep]. rewrite H, Hq. reflexivity.
      * cbn [made issued_well procs] in *. replace (nd + 1)%nat with (S nd) by lia. exact Hi.
    + apply (K q); auto.
      * intros p s1 H. cbn [nstep]. rewrite H, Hq. reflexivity.
      * cbn [made issued_well procs] in *. rewrite Nat.add_0_r. exact Hi.
    + apply (K q); auto.
      * intros p s1 H. cbn [nstep]. rewrite H, Hq. reflexivity.
      * cbn [made issued_well procs] in *. rewrite Nat.add_0_r. exact Hi.
    + clear K. cbn [issued_well pending_reads] in *.
      assert (X : exists tl', as_blocking q (NOp (OFlush doff) :: ops) = OFlush doff :: tl' ++ as_blocking [] ops /\
         ((q = [] /\ tl' = []) \/ (q <> [] /\ tl' = [ORead (2 ^ 62) (map snd q)]))).
      { cbn [as_blocking]. destruct q as [|p q]; [exists []; auto|]. exists [ORead (2 ^ 62) (map snd (p :: q))]. split; [reflexivity|]. right. split; [discriminate|reflexivity]. }
      destruct X as (tl' & Eb & X). rewrite Eb in *. cbn [app] in Hok, Hn, Hs. rewrite <- app_assoc in Hok, Hn, Hs. cbn [ok_run] in Hok. destruct Hok as (Ho & Hok).
      change (e_coll E) with true in *. cbn [sstep fst] in Hok. change (hstep E sp h (OFlush doff)) with (hflush sp h doff) in Hok.
      cbn [length] in Hn. rewrite app_length in Hn.
      assert (HX : (n_rreqs st <> [] -> ok_read E (sflush sp) (hflush sp h doff) (2 ^ 62) (map snd (n_rreqs st))) /\
                   ok_run E cfg cv (sflush sp) (hflush sp h doff) (as_blocking [] ops ++ tl) /\ settled np false (as_blocking [] ops ++ tl) = true /\
                   fold_left (tstep true) (OFlush doff :: tl' ++ as_blocking [] ops) t = fold_left (tstep true) (as_blocking [] ops) (tstep true t (OFlush doff))).
      { rewrite Hq. destruct X as [(-> & ->)|(X1 & ->)]; cbn [app settled] in *.
        - split; [congruence|]. auto.
        - cbn [ok_run] in Hok. destruct Hok as (Ho2 & Hok). cbn [sstep fst] in Hok. change (e_coll E) with true in Hok. cbn [fst] in Hok. rewrite sflush_idem in Hok.
          replace (hstep E (sflush sp) (hflush sp h doff) (ORead (2 ^ 62) (map snd q))) with (hflush sp h doff) in Hok.
          2:{ cbn [hstep]. change (e_coll E) with true. cbv iota. unfold hflush at 2. rewrite pend_flushed. reflexivity. }
          split; [intros _; exact Ho2|]. split; [exact Hok|]. apply andb_prop in Hs. split; [apply Hs|].
          cbn [fold_left tstep]. unfold publish. cbn [t_sets t_pub t_pend]. rewrite no_pend, app_nil_r, map_map. reflexivity. }
      destruct HX as (HX1 & HX2 & HX3 & HX4).
      destruct (nflush_ok st sp h n C ms grs doff I ltac:(lia) Ho HX1) as (st1 & C1 & ms1 & grs1 & N1 & N2 & I1 & L1 & _).
      cbn [nrun]. rewrite N1. cbn [bind fst snd].
      destruct (IH tl st1 _ _ _ _ _ _ (tstep true t (OFlush doff)) [] false np nd I1 N2) as (st' & outs & sp' & h' & n' & C' & ms' & grs' & pend' & np' & R1 & R2); auto.
      { exact (hrel_step E cfg cv sp t h (OFlush doff) HR Ho). }
      { congruence. }
      { intros _. apply no_pend. }
      { lia. }
      exists st', ([[]] ++ outs), sp', h', n', C', ms', grs', pend', np'. rewrite R1. cbn [bind fst snd]. rewrite HX4. split; [reflexivity|exact R2].
    + apply (K q); auto.
      * intros p s1 H. cbn [nstep]. rewrite H, Hq. reflexivity.
      * cbn [made issued_well procs] in *. rewrite Nat.add_0_r. exact Hi.
      * cbn [as_blocking app settled]. intros H. apply andb_prop in H. cbn [procs pends]. tauto.
    + apply (K []); auto.
      * intros p s1 H. cbn [nstep]. rewrite H. reflexivity.
      * cbn [made issued_well procs] in *. rewrite Nat.add_0_r. exact Hi.
Qed.
End Run.
