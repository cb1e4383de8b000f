(** Lemmas behind P_Int.v, continued: buffers that are refused and buffers that are cut. *)
From Coq Require Import ZifyNat ZifyN.
From Verif Require Import Base BaseProofs Spec MetaModel QueueModel FlushModel IndexModel ReadModel SysModel
  IntModel IntSpec IntClaims.

Lemma run_int_app : forall e a b s, run_int e s (a ++ b) =
  do p <- run_int e s a; do q <- run_int e (fst p) b; Ok (fst q, snd p ++ snd q).
Proof.
  intros e. induction a as [|o a IH]; intros b s; cbn [app run_int bind fst snd].
  - destruct (run_int e s b) as [[x y]| |]; reflexivity.
  - destruct (step_int e s o) as [[s1 o1]| |]; cbn [bind fst snd]; auto. rewrite IH. destruct (run_int e s1 a) as [[x y]| |]; cbn [bind fst snd]; auto.
    destruct (run_int e x b) as [[x' y']| |]; reflexivity.
Qed.

(** ** Queue lengths in any history *)
Definition counts (n : Z) (st : rank) : Prop := (k_nflushed st <= length (k_wreqs st))%nat /\ Zlen (k_wreqs st) <= n.
Lemma counts_mono : forall n n' st, n <= n' -> counts n st -> counts n' st.
Proof. intros n n' st H (A & B). split; auto. lia. Qed.
Lemma counts_zero : forall n z, 0 <= n -> counts n (mkrank [] 0 0 [] z).
Proof. intros. split; cbn; auto. Qed.
Lemma split_len : forall st, (length (flushed st) + length (unflushed st) = length (k_wreqs st))%nat.
Proof. intros. rewrite <- app_length. unfold flushed, unflushed. rewrite firstn_skipn. reflexivity. Qed.
Lemma assign_len : forall ws o, length (assign_foff o ws) = length ws.
Proof. induction ws; intros; cbn; auto. Qed.
Lemma counts_assign : forall n st, counts n st -> counts n (rank_assign st).
Proof. intros n st (A & B). pose proof (split_len st). unfold counts, rank_assign, Zlen in *. cbn [k_wreqs k_nflushed]. rewrite app_length, assign_len. lia. Qed.
Lemma counts_flushed : forall n b st, counts n st -> counts n (rank_flushed b st).
Proof. intros n b st (A & B). pose proof (split_len st). unfold counts, rank_flushed, Zlen in *. cbn [k_wreqs k_nflushed]. rewrite app_length, map_length, assign_len. lia. Qed.

Definition counted_ranks (n : Z) (g : gfile) : Prop := Forall (counts n) (g_ranks g).
Lemma counts_flush_int : forall n doff g g', flush_int doff g = Ok g' -> counted_ranks n g -> counted_ranks n g' /\ g_cfg g' = g_cfg g.
Proof.
  intros n doff g g' H HC. unfold flush_int in H. destruct (existsb _ _); [discriminate|].
  assert (G : forall h, g_ranks h = map rank_assign (g_ranks g) \/ (exists l, g_ranks h = map (fun p => rank_flushed (fst p) (snd p)) (combine l (g_ranks g))) -> counted_ranks n h).
  { intros h [E|(l & E)]; unfold counted_ranks; rewrite E; apply Forall_map.
    - eapply Forall_impl; [|exact HC]. intros. apply counts_assign. auto.
    - eapply Forall_impl; [|apply combine_snd_in, HC]. intros [b st] Hs. apply counts_flushed. auto. }
  destruct (has _ _).
  - destruct (existsb _ _); [discriminate|]. injection H as <-. unfold flush_writes. destruct (_ =? 0); (split; [apply G|reflexivity]); [left|right]; cbn; eauto.
  - destruct (existsb _ _); [discriminate|]. destruct (_ =? 0); injection H as <-; (split; [apply G|reflexivity]); [left|right]; cbn; eauto.
Qed.
Lemma counts_step : forall e s o s' out n, 0 <= n -> step_int e s o = Ok (s', out) -> counted_ranks n (s_g s) -> counted_ranks (n + 1) (s_g s') /\ g_cfg (s_g s') = g_cfg (s_g s).
Proof.
  intros e s o s' out n Hn H HC. assert (HC' : counted_ranks (n + 1) (s_g s)) by (eapply Forall_impl; [|exact HC]; intros st; apply counts_mono; lia).
  destruct o as [d|did dims|rk did sels data|doff|doff calls|doff np]; cbn [step_int step] in H.
  - destruct (create_info _ d) as [i| |]; try discriminate. injection H as <- <-. auto.
  - destruct (info_at _ did) as [[i|]|]; try discriminate. destruct (set_extent _ i dims) as [i' [|]]; try discriminate. injection H as <- <-. auto.
  - destruct (nth_error (g_ranks (s_g s)) rk) as [st|] eqn:EN; try discriminate. destruct (entry_fits _ _ _ _); [|discriminate].
    destruct (ds_write _ _ _ st did sels data) as [st'| |] eqn:EW; try discriminate. injection H as <- <-. split; [|reflexivity]. apply upd_nth_Forall; auto.
    assert (HS : counts n st) by (unfold counted_ranks in HC; rewrite Forall_forall in HC; apply HC; eapply nth_error_In; eauto). destruct HS as (A & B).
    unfold ds_write in EW. destruct sels; [injection EW as <-; split; auto; lia|]. destruct (nth_error (g_infos (s_g s)) _) as [[dip|]|]; try discriminate.
    destruct (finish_meta _ _ _ _) as [[[r t] zb]| |]; try discriminate. cbn [bind] in EW. injection EW as <-. unfold counts, Zlen in *. cbn [k_wreqs k_nflushed]. rewrite app_length. cbn [length]. lia.
  - destruct (any_pending (s_g s)); cbn [bind] in H.
    + destruct (flush_int _ _) as [g1| |] eqn:E; try discriminate. injection H as <- <-. cbn [s_g]. eapply counts_flush_int; eauto.
    + injection H as <- <-. auto.
  - destruct (if e_coll e && any_pending (s_g s) then flush_int doff (s_g s) else Ok (s_g s)) as [g1| |] eqn:E; cbn [bind] in H; try discriminate.
    assert (G1 : counted_ranks (n + 1) g1 /\ g_cfg g1 = g_cfg (s_g s)) by (destruct (_ && _); [eapply counts_flush_int; eauto|injection E as <-; auto]). destruct G1 as (G1 & EC).
    destruct (if g_metadirty g1 then metaflush_int g1 else Ok g1) as [g2| |] eqn:E2; cbn [bind] in H; try discriminate. destruct (read_each _ _ _ _) as [q| |]; try discriminate. injection H as <- <-. cbn [s_g].
    destruct (g_metadirty g1); [|injection E2 as <-; auto]. unfold metaflush_int in E2. destruct (has _ _ && _); [discriminate|]. injection E2 as <-. split; [|exact EC].
    unfold counted_ranks, metaflush. cbn [g_ranks]. apply Forall_map, Forall_forall. intros. apply counts_zero. lia.
  - destruct (flush_int _ _) as [g1| |]; try discriminate. cbn [bind] in H. destruct (metaflush_int g1) as [g2| |]; try discriminate. cbn [bind] in H. destruct (reopen_infos _ _) as [r| |]; try discriminate. injection H as <- <-.
    cbn [s_g]. split; [|reflexivity]. apply Forall_forall. intros x Hx. apply repeat_spec in Hx. subst x. apply counts_zero. lia.
Qed.
Lemma counts_run : forall e ops s s' outs n, 0 <= n -> run_int e s ops = Ok (s', outs) -> counted_ranks n (s_g s) -> counted_ranks (n + Zlen ops) (s_g s') /\ g_cfg (s_g s') = g_cfg (s_g s).
Proof.
  intros e. induction ops as [|o ops IH]; intros s s' outs n Hn H HC; cbn [run_int] in H.
  - injection H as <- <-. split; auto. eapply Forall_impl; [|exact HC]. intros st. apply counts_mono. unfold Zlen. cbn. lia.
  - destruct (step_int e s o) as [[s1 o1]| |] eqn:E; cbn [bind fst snd] in H; try discriminate. destruct (run_int e s1 ops) as [[s2 o2]| |] eqn:R; cbn [bind fst snd] in H; try discriminate. injection H as <- <-.
    destruct (counts_step _ _ _ _ _ _ Hn E HC) as (H1 & EC). destruct (IH s1 s2 o2 (n + 1) ltac:(lia) R H1) as (H2 & EC2). split; [|congruence].
    eapply Forall_impl; [|exact H2]. intros st. apply counts_mono. unfold Zlen. cbn [length]. lia.
Qed.
Lemma counts_init : forall cfg np f0, counted_ranks 0 (s_g (init cfg np f0)).
Proof. intros. apply Forall_forall. intros x Hx. apply repeat_spec in Hx. subst x. apply counts_zero. lia. Qed.

(** ** A buffer whose stored length is negative *)
Definition waits (rk : nat) (data : list Z) (g : gfile) : Prop :=
  exists st w, nth_error (g_ranks g) rk = Some st /\ In w (unflushed st) /\ w_data w = data.
Lemma upd_nth_eq : forall A i (a b : A) l, nth_error l i = Some b -> nth_error (upd_nth i a l) i = Some a.
Proof. induction i; intros a b [|x l] H; cbn in *; try discriminate; auto. eapply IHi; eauto. Qed.
Lemma upd_nth_ne : forall A i j (a : A) l, i <> j -> nth_error (upd_nth i a l) j = nth_error l j.
Proof. induction i; intros [|j] a [|x l] H; cbn; auto; try contradiction. Qed.
Lemma ds_write_grows : forall z cfg infos st did sels data st', (k_nflushed st <= length (k_wreqs st))%nat -> ds_write z cfg infos st did sels data = Ok st' ->
  (sels = [] /\ st' = st) \/ (sels <> [] /\ exists w, unflushed st' = unflushed st ++ [w] /\ w_data w = data).
Proof.
  intros z cfg infos st did sels data st' HL H. unfold ds_write in H. destruct sels as [|b0 sels0]; [left; split; congruence|]. right. split; [discriminate|].
  destruct (nth_error _ _) as [[dip|]|]; try discriminate. destruct (finish_meta _ _ _ _) as [[[r t] zb]| |]; try discriminate. cbn [bind] in H. injection H as <-.
  exists (set_data r data). unfold unflushed. cbn [k_wreqs k_nflushed]. rewrite skipn_app_le by auto. auto.
Qed.
Lemma waits_step : forall e s o s' out n rk data, queues o -> step_int e s o = Ok (s', out) -> counted_ranks n (s_g s) -> waits rk data (s_g s) -> waits rk data (s_g s').
Proof.
  intros e s o s' out n rk data HQ H HC (st & w & EN & HI & ED). destruct o as [d|did dims|rk' did sels dat|doff|doff calls|doff np]; try contradiction; cbn [step_int step] in H.
  - destruct (create_info _ d) as [i| |]; try discriminate. injection H as <- <-. exists st, w. auto.
  - destruct (info_at _ did) as [[i|]|]; try discriminate. destruct (set_extent _ i dims) as [i' [|]]; try discriminate. injection H as <- <-. exists st, w. auto.
  - destruct (nth_error (g_ranks (s_g s)) rk') as [st0|] eqn:EN'; try discriminate. destruct (entry_fits _ _ _ _); [|discriminate].
    destruct (ds_write _ _ _ st0 did sels dat) as [st'| |] eqn:EW; try discriminate. injection H as <- <-. cbn [s_g set_ranks g_ranks].
    destruct (Nat.eq_dec rk' rk) as [->|NE].
    + assert (st0 = st) by congruence. subst st0. exists st', w. cbn [s_g set_ranks g_ranks]. split; [eapply upd_nth_eq; eauto|]. split; auto.
      assert (HL : counts n st) by (unfold counted_ranks in HC; rewrite Forall_forall in HC; apply HC; eapply nth_error_In; eauto).
      destruct (ds_write_grows _ _ _ _ _ _ _ _ (proj1 HL) EW) as [(_ & ->)|(_ & w' & E & _)]; auto. rewrite E. apply in_or_app. auto.
    + exists st, w. cbn [s_g set_ranks g_ranks]. rewrite upd_nth_ne by auto. auto.
Qed.
Lemma waits_run : forall e ops s s' outs n rk data, 0 <= n -> Forall queues ops -> run_int e s ops = Ok (s', outs) -> counted_ranks n (s_g s) -> waits rk data (s_g s) -> waits rk data (s_g s').
Proof.
  intros e. induction ops as [|o ops IH]; intros s s' outs n rk data Hn HQ H HC HW; cbn [run_int] in H; [injection H as <- <-; auto|]. inversion HQ; subst.
  destruct (step_int e s o) as [[s1 o1]| |] eqn:E; cbn [bind fst snd] in H; try discriminate. destruct (run_int e s1 ops) as [[s2 o2]| |] eqn:R; cbn [bind fst snd] in H; try discriminate. injection H as <- <-.
  destruct (counts_step _ _ _ _ _ _ Hn E HC) as (H1 & _). eapply (IH s1 s2 o2 (n + 1)); eauto; [lia|]. eapply waits_step; eauto.
Qed.

Lemma waits_pending : forall rk data g n, counted_ranks n g -> waits rk data g -> any_pending g = true.
Proof.
  intros rk data g n HC (st & w & EN & HI & _). unfold any_pending. apply existsb_exists. exists st. split; [eapply nth_error_In; eauto|].
  unfold num_pending. unfold unflushed in HI. assert (length (skipn (k_nflushed st) (k_wreqs st)) <> 0)%nat by (destruct (skipn _ _); [contradiction|discriminate]).
  rewrite skipn_length in H. apply negb_true_iff, Nat.eqb_neq. lia.
Qed.
Lemma counts_below : forall n g, n < 2 ^ 31 -> counted_ranks n g -> existsb (fun st => 2 ^ 31 <=? Zlen (k_wreqs st)) (g_ranks g) = false.
Proof. intros n g Hn HC. apply existsb_false. eapply Forall_impl; [|exact HC]. intros st (_ & B). apply Z.leb_gt. lia. Qed.
Lemma waits_refused : forall n rk data g doff, n < 2 ^ 31 -> counted_ranks n g -> has (g_cfg g) CFG_PASSTHRU = false -> waits rk data g -> 2 ^ 31 <= Zlen data mod 2 ^ 32 -> flush_int doff g = Err.
Proof.
  intros n rk data g doff Hn HC HP (st & w & EN & HI & ED) HB. unfold flush_int. rewrite (counts_below n) by auto. rewrite HP.
  replace (existsb refused (g_ranks g)) with true; [reflexivity|]. symmetry. apply existsb_exists. exists st. split; [eapply nth_error_In; eauto|].
  unfold refused. apply existsb_exists. exists w. split; auto. apply Z.ltb_lt. unfold blk_len. rewrite ED. apply i32_high. auto.
Qed.
Lemma flat_map_in_len : forall ws w, In w ws -> Zlen (w_data w) <= Zlen (flat_map w_data ws).
Proof. induction ws as [|x ws IH]; intros w H; [contradiction|]. cbn [flat_map]. unfold Zlen in *. rewrite app_length. destruct H as [->|H]; [lia|]. specialize (IH _ H). lia. Qed.
Lemma waits_overflow : forall n rk data g doff, n < 2 ^ 31 -> counted_ranks n g -> has (g_cfg g) CFG_PASSTHRU = true -> waits rk data g -> 2 ^ 31 <= Zlen data -> flush_int doff g = UB.
Proof.
  intros n rk data g doff Hn HC HP (st & w & EN & HI & ED) HB. unfold flush_int. rewrite (counts_below n) by auto. rewrite HP.
  replace (existsb (fun st => 2 ^ 31 <=? Zlen (local_bytes st)) (g_ranks g)) with true; [reflexivity|]. symmetry. apply existsb_exists. exists st. split; [eapply nth_error_In; eauto|].
  apply Z.leb_le. pose proof (flat_map_in_len _ _ HI). unfold local_bytes. rewrite ED in H. lia.
Qed.

(** [f] : what the flush reports. *)
Lemma flushes_report : forall e o s rk data n (f : res gfile), counted_ranks n (s_g s) -> waits rk data (s_g s) -> flushes e o ->
  (forall doff, flush_int doff (s_g s) = f) -> (f = Err -> step_int e s o = Err) /\ (f = UB -> step_int e s o = UB).
Proof.
  intros e o s rk data n f HC HW HF HE. pose proof (waits_pending _ _ _ _ HC HW) as HP. destruct o; try contradiction; cbn [step_int flushes] in *.
  - rewrite HP, HE. split; intros ->; reflexivity.
  - rewrite HF, HP. cbn [andb]. rewrite HE. split; intros ->; reflexivity.
  - rewrite HE. split; intros ->; reflexivity.
Qed.

Lemma waits_after : forall e cfg np f0 ops rk did b sels data later s outs,
  run_int e (init cfg np f0) (ops ++ OWrite rk did (b :: sels) data :: later) = Ok (s, outs) -> Forall queues later ->
  waits rk data (s_g s).
Proof.
  intros e cfg np f0 ops rk did b sels data later s outs H HQ. rewrite run_int_app in H. destruct (run_int e (init cfg np f0) ops) as [[s0 o0]| |] eqn:R0; try discriminate. cbn [bind fst snd] in H.
  destruct (counts_run _ _ _ _ _ 0 ltac:(lia) R0 (counts_init cfg np f0)) as (C0 & EC). cbn [run_int] in H.
  destruct (step_int e s0 (OWrite rk did (b :: sels) data)) as [[s1 o1]| |] eqn:E; cbn [bind fst snd] in H; try discriminate. destruct (run_int e s1 later) as [[s2 o2]| |] eqn:R; cbn [bind fst snd] in H; try discriminate. injection H as <- _.
  assert (HZ : 0 <= 0 + Zlen ops) by (unfold Zlen; lia). destruct (counts_step _ _ _ _ _ _ HZ E C0) as (C1 & _).
  eapply waits_run; [|exact HQ|exact R|exact C1|]; [lia|]. cbn [step_int step] in E.
  destruct (nth_error (g_ranks (s_g s0)) rk) as [st0|] eqn:EN'; try discriminate. destruct (entry_fits _ _ _ _); [|discriminate].
  destruct (ds_write _ _ _ st0 did (b :: sels) data) as [st'| |] eqn:EW; try discriminate. injection E as <- <-.
  assert (HL : counts (0 + Zlen ops) st0) by (unfold counted_ranks in C0; rewrite Forall_forall in C0; apply C0; eapply nth_error_In; eauto).
  destruct (ds_write_grows _ _ _ _ _ _ _ _ (proj1 HL) EW) as [(X & _)|(_ & w' & E & ED)]; [discriminate|].
  exists st', w'. cbn [s_g set_ranks g_ranks]. split; [eapply upd_nth_eq; eauto|]. split; auto. rewrite E. apply in_or_app. right. left. reflexivity.
Qed.

Lemma large_refused : forall e cfg np f0 ops rk did b sels data later s outs o,
  run_int e (init cfg np f0) (ops ++ OWrite rk did (b :: sels) data :: later) = Ok (s, outs) -> Forall queues later -> flushes e o ->
  Zlen ops + 1 + Zlen later < 2 ^ 31 ->
  (has cfg CFG_PASSTHRU = false -> 2 ^ 31 <= Zlen data mod 2 ^ 32 ->
   run_int e (init cfg np f0) ((ops ++ OWrite rk did (b :: sels) data :: later) ++ [o]) = Err) /\
  (has cfg CFG_PASSTHRU = true -> 2 ^ 31 <= Zlen data ->
   run_int e (init cfg np f0) ((ops ++ OWrite rk did (b :: sels) data :: later) ++ [o]) = UB).
Proof.
  intros e cfg np f0 ops rk did b sels data later s outs o H HQ HF HN. pose proof (waits_after _ _ _ _ _ _ _ _ _ _ _ _ _ H HQ) as HW.
  destruct (counts_run _ _ _ _ _ 0 ltac:(lia) H (counts_init cfg np f0)) as (HC & EC). cbn [init s_g g_cfg] in EC.
  assert (HN' : 0 + Zlen (ops ++ OWrite rk did (b :: sels) data :: later) < 2 ^ 31) by (unfold Zlen in *; rewrite app_length; cbn [length]; lia).
  rewrite run_int_app, H. cbn [bind fst snd run_int]. split; intros HP HB.
  - assert (E : forall doff, flush_int doff (s_g s) = Err) by (intros; eapply waits_refused; eauto; rewrite EC; auto).
    rewrite (proj1 (flushes_report _ _ _ _ _ _ _ HC HW HF E) eq_refl). reflexivity.
  - assert (E : forall doff, flush_int doff (s_g s) = UB) by (intros; eapply waits_overflow; eauto; rewrite EC; auto).
    rewrite (proj2 (flushes_report _ _ _ _ _ _ _ HC HW HF E) eq_refl). reflexivity.
Qed.
