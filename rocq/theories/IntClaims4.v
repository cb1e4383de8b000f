(** Lemmas behind P_Int.v, continued: buffers of 4 GiB and more. *)
From Coq Require Import ZifyNat ZifyN.
From Verif Require Import Base BaseProofs Spec MetaModel QueueModel FlushModel IndexModel ReadModel SysModel AnySpec AnyProofs
  IntModel IntSpec IntClaims IntClaims2 IntClaims3.

Lemma put_rest : forall f off a m x, put f off (a ++ get f (off + Zlen a) m) x = put f off a x.
Proof.
  intros. assert (HZ : Zlen (a ++ get f (off + Zlen a) m) = Zlen a + Z.of_nat m) by (unfold Zlen; rewrite app_length, get_length; lia). pose proof (Zlen_nonneg' _ a).
  destruct (Z_lt_le_dec x off); [rewrite !put_out by lia; reflexivity|]. destruct (Z_lt_le_dec x (off + Zlen a)).
  - rewrite !put_in by lia. apply app_nth1. unfold Zlen in *. lia.
  - rewrite (put_out _ _ a) by lia. destruct (Z_lt_le_dec x (off + Zlen a + Z.of_nat m)); [|rewrite put_out by lia; reflexivity].
    rewrite put_in by lia. rewrite app_nth2 by (unfold Zlen in *; lia). rewrite nth_get by (unfold Zlen in *; lia). f_equal. unfold Zlen in *. lia.
Qed.
Lemma put_none : forall f off x, put f off [] x = f x.
Proof. intros. apply put_out. unfold Zlen. cbn. lia. Qed.

(** *** The writes *)
Definition at_rank (s : sys) (rk : nat) (st : rank) : sys := mksys (set_ranks (s_g s) (upd_nth rk st (g_ranks (s_g s)))) (s_idx s).
Lemma upd_twice : forall A i (a b : A) l, upd_nth i a (upd_nth i b l) = upd_nth i a l.
Proof. induction i; intros a b [|x l]; cbn; auto. rewrite IHi. reflexivity. Qed.
Lemma upd_self : forall A i (a : A) l, nth_error l i = Some a -> upd_nth i a l = l.
Proof. induction i; intros a [|x l] H; cbn in *; try discriminate; [injection H as ->; auto|]. rewrite IHi; auto. Qed.
Lemma at_self : forall s rk st, nth_error (g_ranks (s_g s)) rk = Some st -> at_rank s rk st = s.
Proof. intros [g i] rk st H. unfold at_rank. cbn [s_g s_idx] in *. rewrite upd_self by auto. destruct g. reflexivity. Qed.
Lemma at_at : forall s rk a b, at_rank (at_rank s rk a) rk b = at_rank s rk b.
Proof. intros. unfold at_rank. cbn [s_g s_idx set_ranks g_cfg g_infos g_ranks g_file g_mdsets g_nldset g_metadirty]. rewrite upd_twice. reflexivity. Qed.

Definition amounts (st : rank) : list (Z * list Z) := map (fun w => (h_fsize (w_hdr w), w_data w)) (unflushed st).
Definition given (datas : list (list Z)) : list (Z * list Z) := map (fun d => (Zlen d, d)) datas.

Lemma fits_entry : forall g st did sels, Forall info_ok (g_infos g) -> Zlen sels <= 2 ^ 21 -> entry_fits g st did sels = true.
Proof.
  intros g st did sels HI HS. unfold entry_fits. destruct sels as [|b0 sels0]; auto.
  destruct (nth_error (g_infos g) (Z.to_nat did)) as [[dip|]|] eqn:EN; auto.
  assert (HL : (length (di_dims dip) <= 32)%nat) by (rewrite Forall_forall in HI; apply nth_error_In in EN; apply (HI _ EN)).
  pose proof (mk_size (g_cfg g) did dip (k_mdsize st) (b0 :: sels0) HL). apply Z.ltb_lt. change (2 ^ 31) with (1024 * 2 ^ 21). lia.
Qed.

Lemma writes_alike : forall e s rk st0, nth_error (g_ranks (s_g s)) rk = Some st0 -> Forall info_ok (g_infos (s_g s)) ->
  forall l datas datas' st st', length l = length datas -> Forall (fun p : Z * list block => snd p <> [] /\ Zlen (snd p) <= 2 ^ 21) l ->
  map (@Zlen Z) datas' = map (@Zlen Z) datas -> akin st st' ->
  match run_int e (at_rank s rk st) (writes rk l datas), run e (at_rank s rk st') (writes rk l datas') with
  | Ok (s1, o1), Ok (s1', o1') => o1 = o1' /\ exists st1 st1', s1 = at_rank s rk st1 /\ s1' = at_rank s rk st1' /\ akin st1 st1' /\
      amounts st1 = amounts st ++ given datas /\ amounts st1' = amounts st' ++ given datas'
  | Err, Err => True | UB, UB => True | _, _ => False end.
Proof.
  intros e s rk st0 HN HI. induction l as [|[did sels] l IH]; intros datas datas' st st' HL HF HZ HA.
  - destruct datas; [|discriminate]. destruct datas'; [|discriminate]. cbn [writes combine map run run_int]. split; auto. exists st, st'. unfold given. cbn [map]. rewrite !app_nil_r. auto.
  - destruct datas as [|data datas]; [discriminate|]. destruct datas' as [|data' datas']; [discriminate|]. cbn [map] in HZ. injection HZ as HZ1 HZ2. cbn [length] in HL. inversion HF; subst. cbn [snd] in H1. destruct H1 as (NE & SM).
    unfold writes. cbn [combine map fst snd run run_int step_int step]. fold (writes rk l datas) (writes rk l datas').
    cbn [at_rank s_g s_idx set_ranks g_cfg g_infos g_ranks g_file g_mdsets g_nldset g_metadirty]. rewrite (upd_nth_eq _ rk st st0), (upd_nth_eq _ rk st' st0) by auto.
    rewrite fits_entry by (cbn; auto).
    pose proof (akin_write (e_zlib e) (g_cfg (s_g s)) (g_infos (s_g s)) st st' did sels data data' HA (eq_sym HZ1)) as HW.
    destruct (ds_write _ _ _ st did sels data) as [a| |], (ds_write _ _ _ st' did sels data') as [b| |]; try contradiction; cbn [bind fst snd]; auto.
    destruct HW as (HAB & [(E & _)|(_ & w & w' & U1 & U2 & D1 & D2 & S1 & S2 & _)]); [contradiction|].
    rewrite !upd_twice. fold (set_ranks (s_g s) (upd_nth rk a (g_ranks (s_g s)))). change (set_ranks (set_ranks (s_g s) (upd_nth rk st (g_ranks (s_g s)))) (upd_nth rk a (g_ranks (s_g s)))) with (set_ranks (s_g s) (upd_nth rk a (g_ranks (s_g s)))).
    change (set_ranks (set_ranks (s_g s) (upd_nth rk st' (g_ranks (s_g s)))) (upd_nth rk b (g_ranks (s_g s)))) with (set_ranks (s_g s) (upd_nth rk b (g_ranks (s_g s)))).
    fold (at_rank s rk a) (at_rank s rk b).
    specialize (IH datas datas' a b ltac:(lia) H2 HZ2 HAB).
    destruct (run_int e (at_rank s rk a) (writes rk l datas)) as [[s1 o1]| |], (run e (at_rank s rk b) (writes rk l datas')) as [[s1' o1']| |]; try contradiction; cbn [bind fst snd]; auto.
    destruct IH as (-> & st1 & st1' & E1 & E2 & K & A1 & A2). split; auto. exists st1, st1'. split; [exact E1|]. split; [exact E2|]. split; [exact K|]. split.
    + rewrite A1. unfold amounts at 1. rewrite U1, map_app. cbn [map given]. rewrite D1, S1, <- app_assoc. reflexivity.
    + rewrite A2. unfold amounts at 1. rewrite U2, map_app. cbn [map given]. rewrite D2, S2, <- app_assoc. reflexivity.
Qed.

(** *** The flush *)
Definition empty_but (rk : nat) (rs : list rank) : Prop := forall i st, i <> rk -> nth_error rs i = Some st -> unflushed st = [].
Lemma fold_none : forall (B : rank -> list Z) doff rs, (forall st, unflushed st = [] -> B st = []) -> (forall st, In st rs -> unflushed st = []) ->
  forall a f x, fold_left (fun f p => put f (fst p) (B (snd p))) (combine (map (fun o => o + doff) (exscan a (map (fun st => local_size (unflushed st)) rs))) rs) f x = f x.
Proof.
  intros B doff rs HB. induction rs as [|r rs IH]; intros HE a f x; [reflexivity|]. cbn [map exscan combine fold_left fst snd].
  rewrite (HB r) by (apply HE; left; auto). rewrite IH by (intros; apply HE; right; auto). apply put_none.
Qed.
Lemma fold_one : forall (B : rank -> list Z) doff st, (forall st, unflushed st = [] -> B st = []) ->
  forall rs rk a f x, nth_error rs rk = Some st -> empty_but rk rs ->
  fold_left (fun f p => put f (fst p) (B (snd p))) (combine (map (fun o => o + doff) (exscan a (map (fun st => local_size (unflushed st)) rs))) rs) f x = put f (a + doff) (B st) x.
Proof.
  intros B doff st HB. induction rs as [|r rs IH]; intros [|rk] a f x HN HE; try discriminate; cbn [nth_error map exscan combine fold_left fst snd] in *.
  - injection HN as ->. apply fold_none; auto. intros st' Hi. apply In_nth_error in Hi. destruct Hi as (i & Hi). apply (HE (S i)); auto.
  - assert (ER : unflushed r = []) by (apply (HE 0%nat); auto). rewrite ER. cbn [local_size map Zsum fold_right]. rewrite Z.add_0_r, (HB r ER).
    rewrite (IH rk); auto; [|intros i st' Hi; apply (HE (S i)); congruence]. apply put_same. intros y. apply put_none.
Qed.

Lemma amounts_data : forall st datas, amounts st = given datas -> map w_data (unflushed st) = datas /\ local_size (unflushed st) = Zlen (concat datas).
Proof.
  intros st. unfold amounts, local_size. generalize (unflushed st). intros ws. induction ws as [|w ws IH]; intros [|d datas] H; try discriminate; [split; reflexivity|].
  unfold given in *. cbn [map] in H. injection H as H1 H2 H3. destruct (IH _ H3) as (A & B). cbn [map]. rewrite A, H2. split; auto.
  cbn [Zsum fold_right concat]. unfold Zsum in B. rewrite B, H1. unfold Zlen. rewrite app_length. lia.
Qed.
Lemma cut_given : forall ws datas, map w_data ws = datas -> Forall (fun d => Zlen d mod 2 ^ 32 < 2 ^ 31) datas ->
  existsb (fun w => blk_len w <? 0) ws = false /\ flat_map (fun w => firstn (Z.to_nat (blk_len w)) (w_data w)) ws = flat_map counted datas.
Proof.
  intros ws datas <-. induction ws as [|w ws IH]; intros H; [split; reflexivity|]. cbn [map] in H. inversion H; subst. destruct (IH H3) as (A & B). cbn [existsb flat_map map]. rewrite A, B.
  unfold blk_len. rewrite i32_low by auto. split; [|reflexivity]. pose proof (Z.mod_pos_bound (Zlen (w_data w)) (2 ^ 32)). apply orb_false_iff. split; auto. apply Z.ltb_ge. lia.
Qed.
Lemma local_given : forall st datas, map w_data (unflushed st) = datas -> local_bytes st = concat datas.
Proof. intros st datas <-. unfold local_bytes. apply flat_map_concat_map. Qed.

Lemma sizes_one : forall rs rk st, nth_error rs rk = Some st -> empty_but rk rs -> Zsum (map (fun st => local_size (unflushed st)) rs) = local_size (unflushed st).
Proof.
  assert (Z0 : forall rs, (forall st, In st rs -> unflushed st = []) -> Zsum (map (fun st => local_size (unflushed st)) rs) = 0).
  { induction rs as [|r rs IH]; intros H; [reflexivity|]. cbn [map Zsum fold_right]. rewrite (H r) by (left; auto). unfold Zsum in IH. rewrite IH by (intros; apply H; right; auto). reflexivity. }
  induction rs as [|r rs IH]; intros [|rk] st HN HE; try discriminate; cbn [nth_error] in HN; cbn [map Zsum fold_right].
  - injection HN as ->. pose proof (Z0 rs) as Z1. unfold Zsum in Z1. rewrite Z1; [lia|]. intros st' Hi. apply In_nth_error in Hi. destruct Hi as (i & Hi). apply (HE (S i)); auto.
  - assert (ER : unflushed r = []) by (apply (HE 0%nat); auto). rewrite ER. unfold Zsum in IH. rewrite (IH rk st HN) by (intros i st' Hi; apply (HE (S i)); congruence). reflexivity.
Qed.
Lemma empty_upd : forall rk st rs, empty_but rk rs -> empty_but rk (upd_nth rk st rs).
Proof. intros rk st rs H i st' Hi HN. rewrite upd_nth_ne in HN by auto. eapply H; eauto. Qed.

Lemma flush_alike : forall s rk st0 st st' datas datas' doff n,
  nth_error (g_ranks (s_g s)) rk = Some st0 -> empty_but rk (g_ranks (s_g s)) -> counted_ranks n (s_g (at_rank s rk st)) -> n < 2 ^ 31 ->
  has (g_cfg (s_g s)) CFG_PASSTHRU = false -> akin st st' -> amounts st = given datas -> amounts st' = given datas' ->
  Forall (fun d => Zlen d mod 2 ^ 32 < 2 ^ 31) datas -> concat datas <> [] ->
  concat datas' = flat_map counted datas ++ get (g_file (s_g s)) (doff + Zlen (flat_map counted datas)) (length (concat datas) - length (flat_map counted datas)) ->
  Zlen (concat datas') = Zlen (concat datas) ->
  exists g, flush_int doff (s_g (at_rank s rk st)) = Ok g /\ like_g g (flush_writes doff (s_g (at_rank s rk st'))) /\
    (forall r, In r (g_ranks g) -> unflushed r = []) /\ g_infos g = g_infos (s_g s) /\ length (g_ranks g) = length (g_ranks (s_g s)).
Proof.
  intros s rk st0 st st' datas datas' doff n HN HE HC Hn HP HA A1 A2 HM HNE HD HZ.
  destruct (amounts_data _ _ A1) as (D1 & L1). destruct (amounts_data _ _ A2) as (D2 & L2). destruct (cut_given _ _ D1 HM) as (C1 & C2).
  assert (N1 : nth_error (upd_nth rk st (g_ranks (s_g s))) rk = Some st) by (eapply upd_nth_eq; eauto).
  assert (N2 : nth_error (upd_nth rk st' (g_ranks (s_g s))) rk = Some st') by (eapply upd_nth_eq; eauto).
  pose proof (empty_upd rk st _ HE) as E1. pose proof (empty_upd rk st' _ HE) as E2.
  pose proof (sizes_one _ _ _ N1 E1) as S1. pose proof (sizes_one _ _ _ N2 E2) as S2.
  assert (R : Forall2 akin (upd_nth rk st (g_ranks (s_g s))) (upd_nth rk st' (g_ranks (s_g s)))).
  { assert (HR : forall r, In r (upd_nth rk st (g_ranks (s_g s))) -> akin r r).
    { intros r Hr. unfold counted_ranks in HC. rewrite Forall_forall in HC. destruct (HC r Hr) as (K & _). apply like_refl. auto. }
    clear - HR HA. revert rk HR. induction (g_ranks (s_g s)) as [|r rs IH]; intros [|rk] HR; cbn [upd_nth] in *; constructor; auto.
    - assert (T : forall r', In r' rs -> akin r' r') by (intros; apply HR; right; auto). clear - T. induction rs; constructor; [apply T; left; auto|apply IHrs; intros; apply T; right; auto].
    - apply HR. left. auto.
    - apply IH. intros. apply HR. right. auto. }
  assert (ES : map (fun st => local_size (unflushed st)) (upd_nth rk st (g_ranks (s_g s))) = map (fun st => local_size (unflushed st)) (upd_nth rk st' (g_ranks (s_g s)))) by (eapply Forall2_map_eq; [|exact R]; intros x y H; apply (akin_sizes _ _ H)).
  unfold flush_int. rewrite (counts_below n) by auto. cbn [at_rank s_g set_ranks g_cfg g_infos g_ranks g_file g_mdsets g_nldset g_metadirty]. rewrite HP.
  replace (existsb refused (upd_nth rk st (g_ranks (s_g s)))) with false.
  2:{ symmetry. apply existsb_false, Forall_forall. intros r Hr. apply In_nth_error in Hr. destruct Hr as (i & Hi). destruct (Nat.eq_dec i rk) as [->|NE]; [assert (r = st) by congruence; subst r; exact C1|]. unfold refused. rewrite (E1 i r NE Hi). reflexivity. }
  assert (NZ : Zlen (concat datas) <> 0) by (destruct (concat datas); [contradiction|]; unfold Zlen; cbn [length]; lia).
  replace (Zsum (map (fun st => local_size (unflushed st)) (upd_nth rk st (g_ranks (s_g s)))) =? 0) with false by (symmetry; apply Z.eqb_neq; rewrite S1, L1; auto).
  eexists. split; [reflexivity|]. unfold flush_writes. cbn [at_rank s_g set_ranks g_cfg g_infos g_ranks g_file g_mdsets g_nldset g_metadirty].
  replace (Zsum (map (fun st => local_size (unflushed st)) (upd_nth rk st' (g_ranks (s_g s)))) =? 0) with false by (symmetry; apply Z.eqb_neq; rewrite S2, L2, HZ; auto).
  cbn [g_infos g_ranks]. split; [|split; [|split; [reflexivity|rewrite map_length, combine_length, map_length, exscan_len, map_length, !upd_nth_len'; lia]]].
  - unfold like_g. cbn [g_cfg g_infos g_mdsets g_nldset g_metadirty g_file g_ranks]. split; [reflexivity|]. split; [reflexivity|]. split; [reflexivity|]. split; [reflexivity|]. split; [reflexivity|]. split.
    + intros x. rewrite (fold_one cut_bytes doff st) with (rk := rk); auto; [|intros r Er; unfold cut_bytes; rewrite Er; reflexivity].
      rewrite (fold_one local_bytes doff st') with (rk := rk); auto; [|intros r Er; unfold local_bytes; rewrite Er; reflexivity].
      rewrite (local_given _ _ D2), HD. unfold cut_bytes. rewrite C2. cbn [Z.add]. symmetry. apply put_rest.
    + rewrite <- ES. pose proof (Forall2_combine _ _ _ _ (map (fun o => o + doff) (exscan 0 (map (fun st => local_size (unflushed st)) (upd_nth rk st (g_ranks (s_g s)))))) _ _ R) as RC.
      eapply Forall2_maps; [|exact RC]. intros p q (E & K). rewrite E. apply like_flushed. auto.
  - intros r Hr. apply in_map_iff in Hr. destruct Hr as (p & <- & _). unfold rank_flushed, unflushed. cbn [k_wreqs k_nflushed]. apply skipn_all.
Qed.

(** *** The whole *)
Lemma none_pending : forall n g, counted_ranks n g -> any_pending g = false -> forall r, In r (g_ranks g) -> unflushed r = [].
Proof.
  intros n g HC H r Hr. unfold any_pending in H. assert (E : negb (num_pending r =? 0)%nat = false).
  { destruct (negb _) eqn:E; auto. exfalso. rewrite <- not_true_iff_false in H. apply H, existsb_exists. eauto. }
  apply negb_false_iff, Nat.eqb_eq in E. unfold num_pending in E. unfold unflushed. apply skipn_all2. lia.
Qed.
Lemma inv_any : forall n s, 0 <= n -> counted_ranks n (s_g s) -> Forall info_ok (g_infos (s_g s)) -> (forall r, In r (g_ranks (s_g s)) -> unflushed r = []) -> Zlen (g_ranks (s_g s)) < 2 ^ 20 ->
  exists B, inv n 0 B s.
Proof.
  intros n s Hn HC HI HU HZ. assert (HB : exists B, 0 <= B /\ forall r, In r (g_ranks (s_g s)) -> meta_len r <= B).
  { clear. induction (g_ranks (s_g s)) as [|r rs (B & B0 & HB)]; [exists 0; split; [lia|contradiction]|]. exists (Z.max (meta_len r) B). split; [lia|]. intros x [<-|Hx]; [lia|]. specialize (HB _ Hx). lia. }
  destruct HB as (B & B0 & HB). exists B. unfold inv. repeat split; auto; try lia. apply Forall_forall. intros r Hr. unfold counted_ranks in HC. rewrite Forall_forall in HC. destruct (HC r Hr) as (K1 & K2). specialize (HB _ Hr).
  unfold rank_ok. rewrite (HU r Hr). unfold lens, Zlen in *. cbn [flat_map length Z.of_nat]. repeat split; auto; lia.
Qed.
Lemma inv_run : forall e ops s s' outs n D B, inv n D B s -> Forall moderate ops -> run e s ops = Ok (s', outs) -> exists n' D' B', inv n' D' B' s' /\ g_cfg (s_g s') = g_cfg (s_g s).
Proof.
  intros e. induction ops as [|o ops IH]; intros s s' outs n D B HI HM H; cbn [run] in H; [injection H as <- <-; eauto 6|]. inversion HM; subst.
  destruct (step e s o) as [[s1 o1]| |] eqn:E; cbn [bind fst snd] in H; try discriminate. destruct (run e s1 ops) as [[s2 o2]| |] eqn:R; cbn [bind fst snd] in H; try discriminate. injection H as <- <-.
  destruct (inv_step _ _ _ _ _ _ _ _ HI H2 E) as (HI' & EC). destruct (IH _ _ _ _ _ _ HI' H3 R) as (n' & D' & B' & K & EC'). exists n', D', B'. split; auto. congruence.
Qed.
Lemma outputs_bind : forall (r r' : res (sys * list (list (list Z)))) (o : list (list (list Z))), observed r = observed r' ->
  observed (do q <- r; Ok (fst q, o ++ snd q)) = observed (do q <- r'; Ok (fst q, o ++ snd q)).
Proof. intros [[a b]| |] [[a' b']| |] o H; cbn in *; try discriminate; auto. injection H as ->. reflexivity. Qed.
Lemma outputs_cons : forall (r r' : res (sys * list (list (list Z)))) (o : list (list Z)), observed r = observed r' ->
  observed (do q <- r; Ok (fst q, o :: snd q)) = observed (do q <- r'; Ok (fst q, o :: snd q)).
Proof. intros [[a b]| |] [[a' b']| |] o H; cbn in *; try discriminate; auto. injection H as ->. reflexivity. Qed.

Lemma large_cut : forall e cfg np f0 ops s outs rk l datas datas' doff later,
  has cfg CFG_PASSTHRU = false -> Z.of_nat np < 2 ^ 20 -> Forall moderate ops -> Forall moderate later ->
  Zlen ops + Zlen l + 1 + Zlen later < 2 ^ 31 ->
  run e (init cfg np f0) ops = Ok (s, outs) -> any_pending (s_g s) = false ->
  length l = length datas -> Forall (fun p => snd p <> [] /\ Zlen (snd p) <= 2 ^ 21) l ->
  Forall (fun d => Zlen d mod 2 ^ 32 < 2 ^ 31) datas -> concat datas <> [] ->
  map (@Zlen Z) datas' = map (@Zlen Z) datas ->
  concat datas' = flat_map counted datas ++
    get (g_file (s_g s)) (doff + Zlen (flat_map counted datas)) (length (concat datas) - length (flat_map counted datas)) ->
  observed (run_int e (init cfg np f0) (ops ++ writes rk l datas ++ OFlush doff :: later)) =
  observed (run e (init cfg np f0) (ops ++ writes rk l datas' ++ OFlush doff :: later)).
Proof.
  intros e cfg np f0 ops s outs rk l datas datas' doff later HP Hnp HM HM' HN HR HPD HL HF HMOD HNE HZ HD.
  assert (HQ : run_int e (init cfg np f0) ops = Ok (s, outs)).
  { rewrite <- HR. apply (run_int_from e ops _ 0 0 0); auto; [apply inv_init; auto|]. split; [unfold Zlen in *; lia|]. cbn [init s_g g_cfg]. rewrite HP. discriminate. }
  destruct (inv_run _ _ _ _ _ _ _ _ (inv_init cfg np f0 Hnp) HM HR) as (n0 & D0 & B0 & HI & EC). cbn [init s_g g_cfg] in EC.
  destruct (counts_run _ _ _ _ _ 0 ltac:(lia) HQ (counts_init cfg np f0)) as (HC & _).
  rewrite run_int_app, run_app, HR, HQ. cbn [bind fst snd]. apply outputs_bind. rewrite run_int_app, run_app.
  destruct HI as (_ & _ & _ & HI & _ & HB).
  assert (HL2 : l <> []) by (intros ->; destruct datas; [|discriminate]; apply HNE; reflexivity).
  destruct (nth_error (g_ranks (s_g s)) rk) as [st0|] eqn:EN.
  2:{ destruct l as [|[d b] l]; [contradiction|]. destruct datas as [|x datas]; [discriminate|]. destruct datas' as [|x' datas']; [discriminate|].
      unfold writes. cbn [combine map fst snd run_int run step_int step]. rewrite EN. reflexivity. }
  assert (HU0 : unflushed st0 = []) by (eapply none_pending; eauto; eapply nth_error_In; eauto).
  assert (HE : empty_but rk (g_ranks (s_g s))) by (intros i st _ Hi; eapply none_pending; eauto; eapply nth_error_In; eauto).
  assert (HK : akin st0 st0) by (apply like_refl; unfold counted_ranks in HC; rewrite Forall_forall in HC; apply HC; eapply nth_error_In; eauto).
  pose proof (writes_alike e s rk st0 EN HI l datas datas' st0 st0 HL HF HZ HK) as HW. rewrite (at_self s rk st0 EN) in HW.
  assert (HWC : forall s1 o1, run_int e s (writes rk l datas) = Ok (s1, o1) -> counted_ranks (0 + Zlen ops + Zlen l) (s_g s1)).
  { intros s1 o1 HX. assert (Z0 : 0 <= 0 + Zlen ops) by (unfold Zlen; lia). destruct (counts_run _ _ _ _ _ _ Z0 HX HC) as (K & _). unfold writes, Zlen in K. rewrite map_length, combine_length, <- HL, Nat.min_id in K. exact K. }
  destruct (run_int e s (writes rk l datas)) as [[s1 o1]| |] eqn:RI, (run e s (writes rk l datas')) as [[s1' o1']| |]; try contradiction; auto.
  destruct HW as (-> & st1 & st1' & -> & -> & K & A1 & A2). specialize (HWC _ _ eq_refl). unfold amounts in A1 at 2. unfold amounts in A2 at 2. rewrite HU0 in A1, A2. cbn [map app] in A1, A2.
  cbn [bind fst snd]. apply outputs_bind. cbn [run_int run step_int step].
  assert (LZ : Zlen (concat datas') = Zlen (concat datas)).
  { clear - HZ. revert datas HZ. induction datas' as [|x t IH]; intros [|y u] H; try discriminate; auto. cbn [map] in H. injection H as H1 H2. specialize (IH _ H2). cbn [concat]. unfold Zlen in *. rewrite !app_length. lia. }
  assert (HN1 : 0 + Zlen ops + Zlen l < 2 ^ 31) by (unfold Zlen in *; lia).
  destruct (flush_alike s rk st0 st1 st1' datas datas' doff _ EN HE HWC HN1 ltac:(rewrite EC; exact HP) K A1 A2 HMOD HNE HD LZ) as (g & FE & FL & FU & FI & FR).
  assert (P1 : any_pending (s_g (at_rank s rk st1)) = true /\ any_pending (s_g (at_rank s rk st1')) = true).
  { assert (G : forall st ds, amounts st = given ds -> concat ds <> [] -> any_pending (s_g (at_rank s rk st)) = true).
    { intros st ds HA HC0. unfold any_pending. apply existsb_exists. exists st. split; [eapply nth_error_In; cbn [at_rank s_g set_ranks g_ranks]; eapply upd_nth_eq; eauto|].
      apply negb_true_iff, Nat.eqb_neq. unfold num_pending. rewrite <- skipn_length. fold (unflushed st). unfold amounts in HA. destruct (unflushed st); [|discriminate]. destruct ds; [contradiction|discriminate]. }
    split; [eapply G; eauto|eapply G; eauto]. intros E. rewrite E in LZ. destruct (concat datas); [contradiction|]. unfold Zlen in LZ. cbn [length] in LZ. lia. }
  destruct P1 as (P1 & P2). rewrite P1, P2, FE. cbn [bind fst snd s_idx at_rank]. apply outputs_cons.
  assert (C2 : counted_ranks (0 + Zlen ops + Zlen l) g /\ g_cfg g = g_cfg (s_g (at_rank s rk st1))) by (eapply counts_flush_int; eauto). destruct C2 as (C2 & EC2). cbn [at_rank s_g set_ranks g_cfg] in EC2.
  destruct (inv_any (0 + Zlen ops + Zlen l) (mksys g (s_idx s))) as (B & IB); cbn [s_g]; auto; [unfold Zlen; lia|rewrite FI; auto|unfold Zlen in *; rewrite FR; auto|].
  rewrite (run_int_from e later _ _ _ _ IB HM').
  - apply like_run. split; auto.
  - cbn [s_g]. rewrite EC2, EC. split; [unfold Zlen in *; lia|]. rewrite HP. discriminate.
Qed.
