(** Proofs about requests of asynchronous operations. *)
From Verif Require Import Base BaseProofs ReqModel ReqSpec.
From Coq Require Import ZifyNat Permutation.

Lemma rstat_eqb_eq : forall a b, rstat_eqb a b = true <-> a = b.
Proof. intros [] []; cbn; split; congruence. Qed.

Lemma merge_stat_fair : forall l s x, fair_report l s -> fair_report (l ++ [x]) (merge_stat s x).
Proof.
  intros l s x (F & S & O). unfold merge_stat, fair_report.
  assert (IN : forall y, In y (l ++ [x]) <-> In y l \/ y = x).
  { intros y. rewrite in_app_iff. cbn. intuition auto. }
  assert (AL : Forall (fun y => y = Succeed) (l ++ [x]) <-> Forall (fun y => y = Succeed) l /\ x = Succeed).
  { rewrite Forall_app. split; intros [A B]; split; auto. inversion B; auto. }
  rewrite !IN, AL. clear IN AL.
  destruct (rstat_eqb x Failed) eqn:E.
  { apply rstat_eqb_eq in E. subst x. intuition congruence. }
  assert (x <> Failed) by (intros ->; discriminate). clear E.
  destruct (rstat_eqb s Succeed) eqn:E.
  { apply rstat_eqb_eq in E. subst s. pose proof (proj1 S eq_refl) as A.
    assert (~ In Failed l) by (intros G; apply F in G; discriminate). intuition congruence. }
  assert (s <> Succeed) by (intros ->; discriminate). intuition congruence.
Qed.

Lemma fair_nil : fair_report [] Succeed.
Proof. repeat split; intros; try discriminate; try contradiction. constructor. Qed.

Lemma fold_fair : forall xs l s, fair_report l s -> fair_report (l ++ xs) (fold_left merge_stat xs s).
Proof.
  induction xs as [|x xs IH]; intros l s H; [rewrite app_nil_r; exact H|].
  cbn [fold_left]. replace (l ++ x :: xs) with ((l ++ [x]) ++ xs) by (rewrite <- app_assoc; reflexivity).
  apply IH. apply merge_stat_fair. exact H.
Qed.

(** Status known before wait number [t]. *)
Definition prev (t : nat) (o : outcome) : rstat :=
  match t with O => InProgress | S t' => status_at t' o end.

Lemma prev_running : forall t o, o_final o <> InProgress -> (prev t o = InProgress <-> (t <= o_delay o)%nat).
Proof.
  intros [|t] o H; cbn [prev]; [split; [lia|reflexivity]|]. unfold status_at.
  destruct (Nat.ltb_spec t (o_delay o)); split; intros; try congruence; lia.
Qed.

Definition live (w : under) (t : nat) (p : Z * outcome) : Prop :=
  prev t (snd p) = InProgress ->
  u_reqs w (fst p) = Some (repeat InProgress (o_delay (snd p) - t) ++ [o_final (snd p)]).

Definition known (t : nat) (ps : list (Z * outcome)) : list part :=
  map (fun p => mkpart (fst p) (prev t (snd p))) ps.

Lemma wait_parts_ok : forall ps w conn t acc,
  In conn (u_conns w) -> NoDup (map fst ps) ->
  Forall (fun p => o_final (snd p) <> InProgress) ps -> Forall (live w t) ps ->
  exists w', wait_parts w conn acc (known t ps) =
      Ok (w', fold_left merge_stat (map (fun p => status_at t (snd p)) ps) acc, known (S t) ps) /\
    u_conns w' = u_conns w /\ (forall u, ~ In u (map fst ps) -> u_reqs w' u = u_reqs w u) /\
    Forall (live w' (S t)) ps.
Proof.
  induction ps as [|[u o] ps IH]; intros w conn t acc Hc Hn Hf Hl.
  { exists w. repeat split; auto. }
  cbn [map fst] in Hn. inversion Hn as [|? ? Hu Hn']; subst.
  inversion Hf as [|? ? Hf1 Hf']; subst. inversion Hl as [|? ? Hl1 Hl']; subst. cbn [snd] in *.
  assert (A : exists w1, (if rstat_eqb (prev t o) InProgress then under_wait w conn u else Ok (w, prev t o))
      = Ok (w1, status_at t o) /\ u_conns w1 = u_conns w /\
      (forall v, v <> u -> u_reqs w1 v = u_reqs w v) /\ live w1 (S t) (u, o)).
  { destruct (rstat_eqb (prev t o) InProgress) eqn:E.
    - apply rstat_eqb_eq in E. pose proof (Hl1 E) as L. cbn [fst snd] in L.
      apply prev_running in E; [|exact Hf1]. unfold under_wait.
      assert (Ex : existsb (Z.eqb conn) (u_conns w) = true).
      { apply existsb_exists. exists conn. split; [exact Hc|apply Z.eqb_refl]. }
      rewrite Ex, L. unfold status_at. destruct (Nat.ltb_spec t (o_delay o)).
      + replace (o_delay o - t)%nat with (S (o_delay o - S t)) by lia. cbn [repeat app].
        eexists. split; [reflexivity|]. cbn [u_conns u_reqs]. split; [reflexivity|]. split.
        * intros v Hv. destruct (Z.eqb_spec v u); [congruence|reflexivity].
        * intros _. cbn [fst snd u_reqs]. rewrite Z.eqb_refl. reflexivity.
      + replace (o_delay o - t)%nat with O by lia. cbn [repeat app].
        eexists. split; [reflexivity|]. cbn [u_conns u_reqs]. split; [reflexivity|]. split.
        * intros v Hv. destruct (Z.eqb_spec v u); [congruence|reflexivity].
        * intros P. apply prev_running in P; [|exact Hf1]. cbn [snd] in P. lia.
    - exists w. split.
      + do 2 f_equal. assert (N : prev t o <> InProgress) by (intros N; rewrite N in E; discriminate).
        destruct t as [|t]; [elim N; reflexivity|]. cbn [prev] in N |- *. unfold status_at in *.
        destruct (Nat.ltb_spec t (o_delay o)); [congruence|].
        destruct (Nat.ltb_spec (S t) (o_delay o)); [lia|reflexivity].
      + repeat split; auto. intros P. apply prev_running in P; [|exact Hf1]. cbn [snd] in P.
        assert (Q : prev t o = InProgress) by (apply prev_running; [exact Hf1|lia]).
        rewrite Q in E. discriminate. }
  destruct A as (w1 & E1 & C1 & O1 & L1).
  destruct (IH w1 conn t (merge_stat acc (status_at t o))) as (w2 & E2 & C2 & O2 & L2).
  - rewrite C1. exact Hc.
  - exact Hn'.
  - exact Hf'.
  - rewrite Forall_forall in *. intros p Hp Q. rewrite O1; [apply Hl'; auto|].
    intros G. apply Hu. rewrite <- G. apply in_map. exact Hp.
  - exists w2. cbn [known map wait_parts p_stat p_req fst snd]. rewrite E1. cbn [bind].
    fold (known t ps). rewrite E2. cbn [bind]. split; [reflexivity|].
    split; [congruence|]. split.
    + intros v Hv. cbn [map fst In] in Hv. rewrite O2 by tauto. apply O1. intuition congruence.
    + constructor; [|exact L2]. intros P. cbn [fst snd] in *. rewrite O2 by exact Hu. apply L1. exact P.
Qed.

Lemma wait_times_ok : forall n w conn t ps,
  In conn (u_conns w) -> NoDup (map fst ps) ->
  Forall (fun p => o_final (snd p) <> InProgress) ps -> Forall (live w t) ps ->
  exists l, wait_times n w (mkrequest conn (known t ps)) = Ok l /\
    (length l <= n)%nat /\
    (forall k s, nth_error l k = Some s ->
       fair_report (map (fun p => status_at (t + k) (snd p)) ps) s /\
       (s = InProgress -> (S k < n -> S k < length l)%nat) /\
       (s <> InProgress -> S k = length l)).
Proof.
  induction n as [|n IH]; intros w conn t ps Hc Hn Hf Hl.
  { exists []. cbn. split; [reflexivity|]. split; [lia|]. intros [|k] s; discriminate. }
  destruct (wait_parts_ok ps w conn t Succeed Hc Hn Hf Hl) as (w' & E & C & _ & L).
  cbn [wait_times]. unfold req_wait. cbn [r_conn r_parts]. rewrite E. cbn [bind].
  pose proof (fold_fair (map (fun p => status_at t (snd p)) ps) [] Succeed fair_nil) as FR.
  cbn [app] in FR. set (s := fold_left _ _ _) in *.
  destruct (rstat_eqb s InProgress) eqn:Es.
  - destruct (IH w' conn (S t) ps) as (l & El & Ll & P); auto; [congruence|].
    rewrite El. cbn [bind]. exists (s :: l). split; [reflexivity|]. split; [cbn; lia|].
    apply rstat_eqb_eq in Es.
    intros [|k] s' H; cbn [nth_error] in H.
    + injection H as <-. rewrite Nat.add_0_r. split; [exact FR|]. split; [|congruence].
      intros _ Hk. cbn [length]. destruct l as [|s1 l]; [|cbn; lia].
      destruct n as [|n]; [lia|]. cbn [wait_times] in El.
      destruct (req_wait _ _) as [[[w2 s2] [r2|]]| |] eqn:Er in El; cbn [bind] in El; try discriminate.
      destruct (wait_times n w2 r2); discriminate.
    + destruct (P k s' H) as (P1 & P2 & P3). replace (t + S k)%nat with (S t + k)%nat by lia.
      split; [exact P1|]. cbn [length]. split; intros; [|rewrite P3; auto].
      assert (S k < length l)%nat by (apply P2; [auto|lia]). lia.
  - exists [s]. split; [reflexivity|]. split; [cbn; lia|].
    intros [|[|k]] s' H; cbn [nth_error] in H; try discriminate.
    injection H as <-. rewrite Nat.add_0_r. split; [exact FR|]. split; [|reflexivity].
    intros G. rewrite G in Es. discriminate.
Qed.

(** ** Notification *)

Definition is_done (t : tpc) : bool := match t with TDone => true | _ => false end.
Definition running (l : list tpc) : Z := Zlen (filter (fun t => negb (is_done t)) l).

Lemma upd_nth_split : forall {A} (l : list A) i x y, nth_error l i = Some x ->
  exists a b, l = a ++ x :: b /\ upd_nth i y l = a ++ y :: b.
Proof.
  induction l as [|z l IH]; intros [|i] x y H; cbn in H; try discriminate.
  - injection H as ->. exists [], l. split; reflexivity.
  - destruct (IH i x y H) as (a & b & -> & E). exists (z :: a), b. split; [reflexivity|].
    cbn. rewrite E. reflexivity.
Qed.

Lemma running_upd : forall l i x y, nth_error l i = Some x -> is_done x = false ->
  running (upd_nth i y l) = if is_done y then running l - 1 else running l.
Proof.
  intros l i x y H Hx. destruct (upd_nth_split l i x y H) as (a & b & -> & ->).
  unfold running, Zlen. rewrite !filter_app, !app_length. cbn [filter]. rewrite Hx. cbn [negb].
  destruct (is_done y); cbn [negb length]; lia.
Qed.

Lemma running_pos : forall l i x, nth_error l i = Some x -> is_done x = false -> 0 < running l.
Proof.
  intros l i x H Hx. unfold running, Zlen.
  assert (In x (filter (fun t => negb (is_done t)) l)).
  { apply filter_In. split; [eapply nth_error_In; eauto|]. rewrite Hx. reflexivity. }
  destruct (filter _ l); [contradiction|]. cbn. lia.
Qed.

(** The counter counts the callbacks that have not returned; the user's callback has been called
    once exactly when there are none. *)
Definition ninv (n : notify) : Prop :=
  n_cnt n = running (n_threads n) /\
  (n_freed n = true -> running (n_threads n) = 0 /\ length (n_calls n) = 1%nat) /\
  (n_freed n = false -> 0 < running (n_threads n) /\ n_calls n = []).

Lemma nstep_inv : forall n i, ninv n -> exists n', nstep n i = Ok n' /\ ninv n' /\
  length (n_threads n') = length (n_threads n).
Proof.
  intros n i (C & F & G). unfold nstep.
  destruct (nth_error (n_threads n) i) as [t|] eqn:E; [|exists n; split; [reflexivity|split; [split; auto|reflexivity]]].
  destruct (is_done t) eqn:D.
  { destruct t; try discriminate. exists n. split; [reflexivity|split; [split; auto|reflexivity]]. }
  pose proof (running_pos _ _ _ E D) as P.
  destruct (n_freed n) eqn:Fr; [destruct (F eq_refl); lia|]. destruct (G eq_refl) as [_ Hc].
  assert (K : forall y, is_done y = false -> running (upd_nth i y (n_threads n)) = running (n_threads n)).
  { intros y Hy. rewrite (running_upd _ _ _ _ E D), Hy. reflexivity. }
  assert (M : forall s y, is_done y = false -> ninv (mknotify (n_cnt n) s false (n_calls n) (upd_nth i y (n_threads n)))).
  { intros s y Hy. unfold ninv. cbn [n_cnt n_threads n_freed n_calls]. rewrite K by exact Hy.
    repeat split; auto; discriminate. }
  destruct t as [s|s| |]; try discriminate.
  - destruct (rstat_eqb s Failed).
    + eexists. split; [reflexivity|]. split; [apply M; reflexivity|cbn; apply upd_nth_length].
    + eexists. split; [reflexivity|]. split; [apply M|cbn; apply upd_nth_length].
      destruct (rstat_eqb (n_stat n) Succeed); reflexivity.
  - eexists. split; [reflexivity|]. split; [apply M; reflexivity|cbn; apply upd_nth_length].
  - eexists. split; [reflexivity|]. split; [|cbn; apply upd_nth_length].
    unfold ninv. cbn [n_cnt n_threads n_freed n_calls].
    rewrite (running_upd _ _ _ TDone E D). cbn [is_done]. rewrite C.
    destruct (Z.eqb_spec (running (n_threads n) - 1) 0).
    + repeat split; try discriminate; try lia. rewrite Hc. reflexivity.
    + repeat split; try discriminate; try lia. exact Hc.
Qed.

Lemma nrun_inv : forall sched n, ninv n -> exists n', nrun n sched = Ok n' /\ ninv n' /\
  length (n_threads n') = length (n_threads n).
Proof.
  induction sched as [|i sched IH]; intros n H; [exists n; split; [reflexivity|split; [exact H|reflexivity]]|].
  destruct (nstep_inv n i H) as (n1 & E & H1 & L1). destruct (IH n1 H1) as (n2 & E2 & H2 & L2).
  exists n2. cbn [nrun]. rewrite E. cbn [bind]. split; [exact E2|]. split; [exact H2|congruence].
Qed.

Lemma running_all : forall l, running (map TTest l) = Zlen l.
Proof.
  intros l. unfold running, Zlen. f_equal. induction l; [reflexivity|]. cbn. lia.
Qed.

Lemma notify0_inv : forall ends, ends <> [] -> ninv (notify0 ends).
Proof.
  intros ends H. unfold ninv, notify0. cbn [n_cnt n_threads n_freed n_calls]. rewrite running_all.
  repeat split; try discriminate. destruct ends; [congruence|]. unfold Zlen. cbn. lia.
Qed.

Lemma running_none : forall l, Forall (fun t => t = TDone) l -> running l = 0.
Proof.
  intros l H. unfold running, Zlen. induction H as [|x l -> _ IH]; [reflexivity|]. cbn. exact IH.
Qed.

(** One callback run on its own: three steps. *)
Lemma nrun_app : forall a b n, nrun n (a ++ b) = do n' <- nrun n a; nrun n' b.
Proof.
  induction a as [|i a IH]; intros b n; [reflexivity|]. cbn [app nrun].
  destruct (nstep n i); cbn [bind]; [apply IH|reflexivity|reflexivity].
Qed.

Lemma upd_nth_twice : forall {A} i (x y : A) l, upd_nth i y (upd_nth i x l) = upd_nth i y l.
Proof. induction i; intros x y [|z l]; cbn; auto. f_equal. apply IHi. Qed.

Lemma nrun3 : forall n i s, nth_error (n_threads n) i = Some (TTest s) -> n_freed n = false ->
  nrun n [i; i; i] =
  Ok (mknotify (n_cnt n - 1) (merge_stat (n_stat n) s) (n_cnt n - 1 =? 0)
        (if n_cnt n - 1 =? 0 then n_calls n ++ [merge_stat (n_stat n) s] else n_calls n)
        (upd_nth i TDone (n_threads n))).
Proof.
  intros n i s E F.
  assert (Hi : (i < length (n_threads n))%nat) by (apply nth_error_Some; congruence).
  assert (U : forall x y, upd_nth i y (upd_nth i x (n_threads n)) = upd_nth i y (n_threads n)).
  { intros. apply upd_nth_twice. }
  cbn [nrun]. unfold nstep at 1. rewrite E, F. unfold merge_stat.
  destruct (rstat_eqb s Failed) eqn:Es.
  - cbn [bind]. unfold nstep at 1. cbn [n_threads n_freed n_cnt n_stat n_calls].
    rewrite nth_error_upd_nth_eq by exact Hi. cbn [bind].
    unfold nstep at 1. cbn [n_threads]. rewrite U, nth_error_upd_nth_eq by exact Hi. cbn [bind]. reflexivity.
  - cbn [bind]. destruct (rstat_eqb (n_stat n) Succeed) eqn:Ea.
    + unfold nstep at 1. cbn [n_threads n_freed n_cnt n_stat n_calls].
      rewrite nth_error_upd_nth_eq by exact Hi. cbn [bind]. rewrite U.
      unfold nstep at 1. cbn [n_threads n_freed n_cnt n_stat n_calls].
      rewrite nth_error_upd_nth_eq by exact Hi. cbn [bind]. rewrite U. reflexivity.
    + unfold nstep at 1. cbn [n_threads n_freed n_cnt n_stat n_calls].
      rewrite nth_error_upd_nth_eq by exact Hi. cbn [bind]. rewrite U.
      unfold nstep at 1. cbn [n_threads n_freed n_cnt n_stat n_calls].
      rewrite nth_error_upd_nth_eq by exact Hi. cbn [bind]. reflexivity.
Qed.

Lemma serial_run : forall order n ends, NoDup order ->
  Forall2 (fun i s => nth_error (n_threads n) i = Some (TTest s)) order ends ->
  n_freed n = false -> n_cnt n = Zlen order -> order <> [] -> n_calls n = [] ->
  exists n', nrun n (flat_map (fun i => [i; i; i]) order) = Ok n' /\
    n_calls n' = [fold_left merge_stat ends (n_stat n)].
Proof.
  induction order as [|i order IH]; intros n ends Hn H F C Hne Hc; [congruence|].
  inversion H as [|? s ? ends' E H']; subst. inversion Hn as [|? ? Hi Hn']; subst.
  cbn [flat_map]. rewrite nrun_app, (nrun3 n i s E F). cbn [bind].
  rewrite C. unfold Zlen. cbn [length].
  destruct order as [|j order].
  { inversion H'; subst. cbn [length]. replace (Z.of_nat 1 - 1 =? 0) with true by reflexivity.
    eexists. split; [reflexivity|]. cbn [n_calls fold_left]. rewrite Hc. reflexivity. }
  replace (Z.of_nat (S (length (j :: order))) - 1 =? 0) with false
    by (symmetry; apply Z.eqb_neq; cbn [length]; lia).
  cbn [fold_left]. apply IH; auto; cbn [n_freed n_cnt n_calls n_stat n_threads]; auto; try discriminate.
  - revert H'. generalize ends'. clear - Hi. induction (j :: order) as [|k l IHl]; intros e H; inversion H; subst; constructor.
    + rewrite nth_error_upd_nth_ne; [assumption|]. intros ->. apply Hi. left. reflexivity.
    + apply IHl; [|assumption]. intros G. apply Hi. right. exact G.
  - unfold Zlen. lia.
Qed.
