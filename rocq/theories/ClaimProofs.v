(** Consequences of the refinement theorem, in the form the property files use. *)
From Verif Require Import Base BaseProofs Spec MetaModel QueueModel FlushModel IndexModel ReadModel SysModel
  SysSpec History GeomProofs MetaProofs QueueProofs IndexProofs SearchProofs SortProofs ReadProofs HitProofs MdProofs StoreProofs
  FlushProofs ReadOneProofs SysProofs HistoryProofs.
From Coq Require Import ZifyNat ZifyN.

(** ** Every read of a history is correct *)
Lemma srun_length : forall coll ops s, length (snd (srun coll s ops)) = length ops.
Proof.
  induction ops as [|o ops IH]; intros s; [reflexivity|]. cbn [srun]. destruct (sstep coll s o) as [s1 o1].
  specialize (IH s1). destruct (srun coll s1 ops). cbn in *. congruence.
Qed.

Lemma all_reads_correct : forall e cfg cv np f0 ops, ok_history e cfg cv np ops ->
  exists s outs, run e (init cfg np f0) ops = Ok (s, outs) /\ length outs = length ops /\
    forall i doff calls, nth_error ops i = Some (ORead doff calls) ->
      exists bufs, nth_error outs i = Some bufs /\
        Forall2 (correct_read (trace_of (e_coll e) np (firstn (S i) ops))) calls bufs.
Proof.
  intros e cfg cv np f0 ops H. destruct (run_spec _ _ _ _ f0 _ H) as (s & Hs). exists s, (snd (srun (e_coll e) (sinit np) ops)).
  split; auto. split; [apply srun_length|]. intros i doff calls Hi.
  destruct (nth_error_split _ _ Hi) as (a & b & Eops & El). subst ops. subst i.
  assert (H' : ok_history e cfg cv np (a ++ [ORead doff calls])).
  { destruct H as (Hp & H1 & H2 & H3 & H4 & H5). split; auto. split; auto. split; auto. split.
    - rewrite app_length in H3 |- *. cbn [length] in *. lia.
    - split; auto. change (ORead doff calls :: b) with ([ORead doff calls] ++ b) in H5. rewrite app_assoc in H5. apply (ok_run_app _ _ _ _ _ _ _ H5). }
  destruct (reads_correct _ _ _ _ f0 _ _ _ H') as (s' & outs & bufs & R1 & R2 & R3).
  destruct (run_spec _ _ _ _ f0 _ H') as (s'' & Hs''). rewrite Hs'' in R1. injection R1 as _ R1.
  exists bufs. split.
  - change (ORead doff calls :: b) with ([ORead doff calls] ++ b). rewrite app_assoc, srun_app. cbn [snd]. rewrite R1.
    rewrite nth_error_app1 by (rewrite app_length; cbn; lia). rewrite nth_error_app2 by lia. rewrite R2, Nat.sub_diag. reflexivity.
  - replace (firstn (S (length a)) (a ++ ORead doff calls :: b)) with (a ++ [ORead doff calls]); auto.
    change (ORead doff calls :: b) with ([ORead doff calls] ++ b). rewrite app_assoc.
    replace (S (length a)) with (length (a ++ [ORead doff calls])) by (rewrite app_length; cbn; lia).
    rewrite firstn_app, Nat.sub_diag, firstn_all. cbn [firstn]. rewrite app_nil_r. reflexivity.
Qed.

(** ** One process: publication order is program order *)
Lemma esize_at_map : forall sets did, esize_at sets did = nth (Z.to_nat did) (map di_esize sets) 0.
Proof.
  intros sets did. unfold esize_at. generalize (Z.to_nat did) as k. induction sets as [|d sets IH]; intros [|k]; cbn; auto.
Qed.

Lemma map_upd_esize : forall sets k d d', nth_error sets k = Some d -> di_esize d' = di_esize d ->
  map di_esize (upd_nth k d' sets) = map di_esize sets.
Proof.
  induction sets as [|x sets IH]; intros [|k] d d' H E; cbn in *; try discriminate.
  - injection H as ->. congruence.
  - f_equal. eauto.
Qed.

Lemma one_process_order : forall ops t sets, Forall one_process ops -> length (t_pend t) = 1%nat ->
  map di_esize (t_sets t) = map di_esize sets ->
  publish (fold_left (tstep true) ops t) = publish t ++ program_order sets ops /\ length (t_pend (fold_left (tstep true) ops t)) = 1%nat.
Proof.
  induction ops as [|o ops IH]; intros t sets H1 H2 H3; [cbn; rewrite app_nil_r; auto|].
  apply Forall_cons_iff in H1. destruct H1 as [Ho H1]. destruct (t_pend t) as [|p [|? ?]] eqn:Ep; try discriminate. cbn [fold_left].
  assert (Hpub : publish t = t_pub t ++ p) by (unfold publish; rewrite Ep; cbn; rewrite app_nil_r; reflexivity).
  assert (K : forall sets', length (t_pend (tstep true t o)) = 1%nat -> map di_esize (t_sets (tstep true t o)) = map di_esize sets' ->
     publish (tstep true t o) ++ program_order sets' ops = publish t ++ program_order sets (o :: ops) ->
     publish (fold_left (tstep true) ops (tstep true t o)) = publish t ++ program_order sets (o :: ops) /\
     length (t_pend (fold_left (tstep true) ops (tstep true t o))) = 1%nat).
  { intros sets' A B C. destruct (IH (tstep true t o) sets' H1 A B) as [I1 I2]. rewrite I1. auto. }
  destruct o; cbn [program_order] in *.
  - apply (K (sets ++ [d])); cbn [tstep t_pend t_sets]; auto; [rewrite Ep; reflexivity|rewrite !map_app, H3; reflexivity].
  - apply (K sets); cbn [tstep t_pend t_sets]; auto; [rewrite Ep; reflexivity|].
    destruct (nth_error (t_sets t) (Z.to_nat did)) as [d|] eqn:E; auto. rewrite (map_upd_esize _ _ _ _ E); auto.
  - cbn [one_process] in Ho. subst rk. apply (K sets); cbn [tstep t_pend t_sets]; auto; [rewrite Ep; reflexivity|].
    rewrite app_assoc. f_equal. rewrite Hpub, (esize_at_map sets), (esize_at_map (t_sets t)), H3.
    unfold publish. cbn [t_pend t_pub]. rewrite Ep. cbn. rewrite app_nil_r, <- app_assoc. reflexivity.
  - apply (K sets); cbn [tstep t_pend t_sets]; auto; [rewrite Ep; reflexivity|].
    f_equal. unfold publish at 1. cbn [t_pub t_pend]. rewrite Ep. cbn. apply app_nil_r.
  - apply (K sets); cbn [tstep t_pend t_sets]; auto; [rewrite Ep; reflexivity|].
    f_equal. unfold publish at 1. cbn [t_pub t_pend]. rewrite Ep. cbn. apply app_nil_r.
  - cbn [one_process] in Ho. subst np. apply (K sets); cbn [tstep t_pend t_sets]; auto.
    f_equal. unfold publish at 1. cbn [t_pub t_pend repeat concat app]. apply app_nil_r.
Qed.

Lemma one_process_pub : forall ops, Forall one_process ops -> publish (trace_of true 1 ops) = program_order [] ops.
Proof. intros ops H. destruct (one_process_order ops (mktr [] [] (repeat [] 1)) [] H) as [A _]; auto. Qed.

Lemma trace_snoc : forall coll np ops o, trace_of coll np (ops ++ [o]) = tstep coll (trace_of coll np ops) o.
Proof. intros. unfold trace_of. rewrite fold_left_app. reflexivity. Qed.

Lemma firstn_S_app : forall A (l : list A) i x, nth_error l i = Some x -> firstn (S i) l = firstn i l ++ [x].
Proof. induction l as [|y l IH]; intros [|i] x H; cbn in *; try discriminate; [congruence|]. f_equal. eauto. Qed.

(** C01 *)
Lemma one_process_reads : forall e cfg cv f0 ops, e_coll e = true -> Forall one_process ops -> ok_history e cfg cv 1 ops ->
  exists s outs, run e (init cfg 1 f0) ops = Ok (s, outs) /\ length outs = length ops /\
    forall i doff calls, nth_error ops i = Some (ORead doff calls) ->
      exists bufs, nth_error outs i = Some bufs /\
        Forall2 (fun c buf => exists d, nth_error (t_sets (trace_of true 1 (firstn i ops))) (Z.to_nat (rc_did c)) = Some d /\
           length (elems (di_esize d) buf) = length (sel_coords (rc_sels c)) /\
           forall k x, nth_error (sel_coords (rc_sels c)) k = Some x ->
             nth_error (elems (di_esize d) buf) k = Some (expected (program_order [] (firstn i ops)) d c k x)) calls bufs.
Proof.
  intros e cfg cv f0 ops He Hone H. destruct (all_reads_correct _ _ _ _ f0 _ H) as (s & outs & R1 & R2 & R3). exists s, outs. split; auto. split; auto.
  intros i doff calls Hi. destruct (R3 _ _ _ Hi) as (bufs & B1 & B2). exists bufs. split; auto. rewrite He in B2.
  rewrite (firstn_S_app _ _ _ _ Hi), trace_snoc in B2. cbn [tstep] in B2.
  assert (Hp : publish (trace_of true 1 (firstn i ops)) = program_order [] (firstn i ops)).
  { apply one_process_pub. rewrite <- (firstn_skipn i ops) in Hone. apply Forall_app in Hone. tauto. }
  rewrite Hp in B2. clear - B2. induction B2 as [|c b calls bufs Hc _ IH]; constructor; auto.
  destruct Hc as (d & D1 & D2 & D3 & D4). exists d. cbn [t_sets t_pub] in *. auto.
Qed.

(** C02 *)
Lemma last_assigned_none : forall did x l, (forall v, ~ In (did, x, v) l) -> last_assigned did x l = None.
Proof.
  induction l as [|[[d c] v] l IH]; intros H; [reflexivity|]. cbn [last_assigned]. rewrite IH by (intros w Hw; apply (H w); right; auto).
  destruct (Z.eqb_spec d did); cbn [andb]; auto. destruct (coord_eqb c x) eqn:E; auto. exfalso. apply (H v). left. subst.
  unfold coord_eqb in E. destruct (list_eq_dec Z.eq_dec c x); congruence.
Qed.

Definition assigned_in (did : Z) (x : list Z) (l : list assignment) : Prop := exists v, In (did, x, v) l.
Definition tr_assigned (did : Z) (x : list Z) (t : trace) : Prop := assigned_in did x (t_pub t) \/ assigned_in did x (concat (t_pend t)).

Lemma in_concat_upd : forall A (l : list (list A)) k y a, In a (concat (upd_nth k (nth k l [] ++ y) l)) -> In a (concat l) \/ In a y.
Proof.
  induction l as [|x l IH]; intros [|k] y a H; cbn in *; auto.
  - rewrite !in_app_iff in *. tauto.
  - rewrite in_app_iff in *. destruct H as [H|H]; [tauto|]. destruct (IH _ _ _ H); tauto.
Qed.

Lemma tr_assigned_step : forall coll t o did x, tr_assigned did x (tstep coll t o) ->
  tr_assigned did x t \/ match o with OWrite _ d sels _ => d = did /\ In x (sel_coords sels) | _ => False end.
Proof.
  intros coll t o did x H. unfold tr_assigned, assigned_in in *.
  assert (Hm : forall l : list (list assignment), concat (map (fun _ => @nil assignment) l) = []) by (induction l; auto).
  destruct o; cbn [tstep t_pub t_pend] in H; auto.
  - destruct H as [H|[v H]]; auto. apply in_concat_upd in H. destruct H as [H|H]; [left; right; eauto|]. right.
    unfold assigns_of in H. apply in_map_iff in H. destruct H as ([y w] & E & H). injection E as -> <- <-. split; auto. apply in_combine_l in H. exact H.
  - rewrite Hm in H. destruct H as [[v H]|[v []]]. unfold publish in H. apply in_app_iff in H. destruct H; eauto.
  - destruct coll; auto. cbn [t_pub t_pend] in H. rewrite Hm in H. destruct H as [[v H]|[v []]]. unfold publish in H. apply in_app_iff in H. destruct H; eauto.
  - assert (Hr : concat (repeat (@nil assignment) np) = []) by (clear; induction np; auto). rewrite Hr in H.
    destruct H as [[v H]|[v []]]. unfold publish in H. apply in_app_iff in H. destruct H; eauto.
Qed.

Lemma tr_assigned_run : forall coll did x ops t, tr_assigned did x (fold_left (tstep coll) ops t) ->
  tr_assigned did x t \/ ever_written did x ops.
Proof.
  induction ops as [|o ops IH]; intros t H; auto. cbn [fold_left] in H. destruct (IH _ H) as [K|K]; [|right; right; exact K].
  apply tr_assigned_step in K. destruct K as [K|K]; [left; exact K|right; left; exact K].
Qed.

Lemma never_written : forall coll np ops did x, ~ ever_written did x ops ->
  last_assigned did x (t_pub (trace_of coll np ops)) = None.
Proof.
  intros coll np ops did x H. apply last_assigned_none. intros v Hv.
  destruct (tr_assigned_run coll did x ops (mktr [] [] (repeat [] np))) as [K|K]; auto.
  - left. exists v. exact Hv.
  - destruct K as [[w []]|[w K]]. cbn [t_pend] in K. assert (Hr : concat (repeat (@nil assignment) np) = []) by (clear; induction np; auto). rewrite Hr in K. exact K.
Qed.

(** ** Simple legal histories are covered *)
Definition small_set (d : dinfo) : Prop :=
  (0 < length (di_dims d) <= 32)%nat /\ hd 0 (di_mdims d) <> UNLIMITED /\
  Forall (fun x => x < 2 ^ 31 /\ x * di_esize d < 2 ^ 31) (di_dims d) /\ 0 < di_esize d /\ length (di_mdims d) = length (di_dims d).

Lemma fits_in_blk : forall dims s n, fits_in dims s n -> length s = length dims /\ length n = length dims /\
  Forall (fun x => 0 <= x) s /\ Forall (fun x => 0 < x) n /\ Forall2 (fun d x => x <= d) dims s /\ Forall2 (fun d x => x <= d) dims n.
Proof.
  induction dims as [|d dims IH]; intros [|s0 s] [|n0 n] H; cbn [fits_in] in H; try tauto; [repeat split; constructor|].
  destruct H as (H1 & H2 & H3 & H4). destruct (IH _ _ H4) as (A & B & C & D & E & F). cbn [length].
  repeat split; try congruence; constructor; auto; lia.
Qed.

Lemma Forall2_le_lt : forall (P : Z -> Prop) dims l, (forall d x, P d -> x <= d -> P x) -> Forall P dims -> Forall2 (fun d x => x <= d) dims l -> Forall P l.
Proof. intros P dims l HP HF H2. induction H2; constructor; inversion HF; subst; eauto. Qed.

Lemma block_fits : forall d b, small_set d -> block_in d b -> blk_fits (di_ndim d) b /\ last (b_count b) 1 * di_esize d < 2 ^ 31.
Proof.
  intros d b (S1 & S2 & S3 & S4 & S5) H. destruct (fits_in_blk _ _ _ H) as (A & B & C & D & E & F).
  assert (K1 : Forall (fun x => x < 2 ^ 31) (b_start b)).
  { apply (Forall2_le_lt _ (di_dims d) _) with (3 := E); [intros; lia|]. eapply Forall_impl; [|exact S3]. cbn beta. tauto. }
  assert (K2 : Forall (fun x => x < 2 ^ 31 /\ x * di_esize d < 2 ^ 31) (b_count b)).
  { apply (Forall2_le_lt _ (di_dims d) _) with (3 := F); [|exact S3]. intros d0 x [Q1 Q2] Hx. split; [lia|nia]. }
  split.
  - split; [exact A|]. split; [exact B|]. split.
    + rewrite Forall_forall in *. intros x Hx. specialize (C x Hx). specialize (K1 x Hx). lia.
    + rewrite Forall_forall in *. intros x Hx. specialize (D x Hx). specialize (K2 x Hx). lia.
  - assert (Hne : b_count b <> []) by (intros Q; rewrite Q in B; cbn in B; lia).
    rewrite Forall_forall in K2. destruct (exists_last Hne) as (l & a & El). rewrite El, last_last. apply K2. rewrite El. apply in_or_app. right. left. reflexivity.
Qed.

Lemma is_rec_fixed : forall d sels, hd 0 (di_mdims d) <> UNLIMITED -> is_rec d sels = false /\ has_unlimited d = false.
Proof.
  intros d sels H. unfold is_rec, has_unlimited. destruct (di_mdims d) as [|m l]; auto. cbn [hd] in H.
  destruct (Z.eqb_spec m UNLIMITED); [congruence|]. destruct sels; auto.
Qed.

Lemma concat_upd_sum : forall A (f : A -> Z) l k y, (k < length l)%nat ->
  Zsum (map f (concat (upd_nth k (nth k l [] ++ y) l))) = Zsum (map f (concat l)) + Zsum (map f y).
Proof.
  induction l as [|x l IH]; intros [|k] y H; cbn [length] in H; try lia; cbn [upd_nth nth concat]; rewrite !map_app, !Zsum_app.
  - lia.
  - rewrite IH by lia. lia.
Qed.

Lemma upd_nth_length' : forall A (l : list A) k x, length (upd_nth k x l) = length l.
Proof. induction l as [|y l IH]; intros [|k] x; cbn; auto. Qed.

Lemma elems_sum : forall es (l : list (list Z)) cs, Forall (fun v => Zlen v = es) l -> length cs = length l ->
  forall did : Z, Zsum (map (fun a : assignment => Zlen (snd a)) (map (fun cv => (did, fst cv, snd cv)) (combine cs l))) = es * Zlen l.
Proof.
  intros es l cs H. revert cs. induction H as [|v l Hv _ IH]; intros [|c cs] HL did; try discriminate; cbn [combine map Zsum fold_right]; [unfold Zlen; cbn; lia|].
  cbn [snd]. injection HL as HL. specialize (IH cs HL did). unfold Zsum in IH. rewrite Zlen_cons. unfold Zsum. cbn [fold_right map]. rewrite IH. lia.
Qed.

Lemma assigns_sum : forall es did sels data, 0 < es -> Zlen data = es * Zlen (sel_coords sels) ->
  Zsum (map (fun a : assignment => Zlen (snd a)) (assigns_of es did sels data)) = Zlen data.
Proof.
  intros es did sels data He H. assert (Hn : 0 <= Zlen (sel_coords sels)) by (unfold Zlen; lia).
  destruct (elems_spec es data _ He Hn H) as [E1 E2].
  unfold assigns_of. rewrite (elems_sum es).
  - assert (Zlen (elems es data) = Zlen (sel_coords sels)) by (unfold Zlen in *; lia). rewrite H0. lia.
  - apply (elems_lengths es data (Zlen (sel_coords sels))); auto.
  - unfold Zlen in *. lia.
Qed.

Record lrel (s : sstate) (h : hstate) (t : trace) (hi : Z) (room : Z) : Prop := {
  l_rel : hrel s t;
  l_hi : hs_hi h = hi;
  l_seen : length (hs_seen h) = length (t_pend t);
  l_bytes : pend_bytes s = pending_bytes t;
  l_small : Forall small_set (ss_sets s);
  l_room : Zlen (ss_sets s) + room < 2 ^ 31 }.

Lemma sets_of_eq : forall s t did d, hrel s t -> dataset_of t did d -> set_of s did = Some d.
Proof.
  intros s t did d R [H1 H2]. unfold set_of. destruct (Z.ltb_spec did 0); [lia|]. rewrite <- (r_sets _ _ R). exact H2.
Qed.

Lemma placed_flush : forall s h t hi room doff, lrel s h t hi room -> placed_after t hi doff -> ok_flush s h doff.
Proof. intros s h t hi room doff L [H1 H2] _. rewrite (l_hi _ _ _ _ _ L), (l_bytes _ _ _ _ _ L). auto. Qed.

Lemma sum_nil : forall A B (f : B -> Z) (l : list A), Zsum (map f (concat (map (fun _ => @nil B) l))) = 0.
Proof. induction l; auto. Qed.
Lemma sum_nil' : forall B (f : B -> Z) n, Zsum (map f (concat (repeat (@nil B) n))) = 0.
Proof. induction n; auto. Qed.

Section Simple.
Context (e : env) (cfg : Z) (cv : conv).
Hypotheses (Hplain : plain_cfg cfg) (Hlim : e_limit e = None) (Hcoll : e_coll e = true).

Lemma simple_ok_op : forall s h t hi room o, 0 <= room -> lrel s h t hi room -> legal_op t hi o -> simple_op o -> ok_op e cfg cv s h o.
Proof.
  intros s h t hi room o H0 L Hl Hs. pose proof (l_rel _ _ _ _ _ L) as R.
  destruct o; cbn [legal_op simple_op ok_op] in *.
  - destruct Hl as (H1 & H2 & H3), Hs as (S1 & S2 & S3). unfold extent_ok in H2. split; auto. split; [symmetry; eapply Forall2_length; eauto|]. split; auto.
    intros _ Q. rewrite Q in S1. cbn in S1. lia.
  - contradiction.
  - destruct Hl as (H1 & d & H2 & H3 & H4).
    assert (exists seen, nth_error (hs_seen h) rk = Some seen) as [seen Hseen].
    { destruct (nth_error (hs_seen h) rk) as [x|] eqn:E; [eauto|]. apply nth_error_None in E. rewrite (l_seen _ _ _ _ _ L) in E. lia. }
    exists seen. split; auto. intros _. exists d. split; [apply (sets_of_eq _ _ _ _ R H2)|].
    assert (Hsm : small_set d). { pose proof (l_small _ _ _ _ _ L) as K. rewrite Forall_forall in K. apply K. rewrite <- (r_sets _ _ R). destruct H2 as [_ H2]. eapply nth_error_In; eauto. }
    assert (Hmu : multi sels = false) by (unfold multi; rewrite Hs; reflexivity).
    destruct (is_rec_fixed d sels (proj1 (proj2 Hsm))) as [Hr Hu].
    assert (Hbf : Forall (blk_fits (di_ndim d)) sels) by (eapply Forall_impl; [|exact H3]; intros b Hb; apply block_fits; auto).
    split. { destruct H2 as [H2 H2']. apply nth_error_lt in H2'. rewrite (r_sets _ _ R) in H2'. pose proof (l_room _ _ _ _ _ L). unfold Zlen in *. lia. }
    split; [exact Hbf|]. split.
    { rewrite H4. f_equal. unfold Zlen. apply (sel_coords_length (di_ndim d)). eapply Forall_impl; [|exact Hbf]. intros b (B1 & B2 & B3 & B4). unfold blk_small. auto. }
    split. { unfold meta_bound, Zlen. rewrite Hs. destruct Hsm as (S1 & _). unfold di_ndim. change (2 ^ 31) with 2147483648. lia. }
    split; [intros _ Q; congruence|]. split; [|intros _ Q; congruence].
    intros _. split; [intros Q; congruence|]. split; [intros _ Q; congruence|intros _ Q; congruence].
  - eapply placed_flush; eauto.
  - destruct Hl as (H1 & H2 & H3). split; [rewrite Hcoll; eapply placed_flush; eauto|]. split; [congruence|]. split; auto.
    apply Forall_forall. intros c Hc. rewrite Forall_forall in H3, Hs. specialize (H3 c Hc). specialize (Hs c Hc). cbn beta in *.
    destruct H3 as (Hne & d & D1 & D2). split; auto. exists d. split; [apply (sets_of_eq _ _ _ _ R D1)|].
    assert (Hsm : small_set d). { pose proof (l_small _ _ _ _ _ L) as K. rewrite Forall_forall in K. apply K. rewrite <- (r_sets _ _ R). destruct D1 as [_ D1]. eapply nth_error_In; eauto. }
    split; [eapply Forall_impl; [|exact D2]; intros b Hb; apply block_fits; auto|].
    split; [eapply Forall_impl; [|exact D2]; intros b Hb; apply block_fits; auto|].
    split; [destruct (rc_sels c) as [|b [|? ?]]; try discriminate; constructor; constructor|].
    intros _ Q. destruct (is_rec_fixed d [] (proj1 (proj2 Hsm))). congruence.
  - destruct Hl as (H1 & H2 & H3). split; auto. split; auto. eapply placed_flush; eauto.
Qed.

Lemma simple_step : forall s h t hi room o, 0 <= room -> lrel s h t hi (room + 1) -> legal_op t hi o -> simple_op o ->
  lrel (fst (sstep (e_coll e) s o)) (hstep e s h o) (tstep (e_coll e) t o) (log_end t hi o) room.
Proof.
  intros s h t hi room o H0 L Hl Hs. assert (H0' : 0 <= room + 1) by lia. pose proof (simple_ok_op _ _ _ _ _ _ H0' L Hl Hs) as Hok. pose proof (l_rel _ _ _ _ _ L) as R.
  pose proof (hrel_step _ _ _ _ _ _ _ R Hok) as R'.
  destruct L as [_ L2 L3 L4 L5 L6]. rewrite Hcoll in *.
  constructor; auto; destruct o; cbn [legal_op simple_op sstep tstep hstep log_end fst hs_hi hs_seen ss_sets ss_pend t_pend] in *; auto; try contradiction; rewrite ?Hcoll.
  all: try (unfold hflush; rewrite <- L4, <- L2; destruct (pend_bytes s =? 0); cbn [hs_hi hs_seen]; auto; fail).
  - rewrite !upd_nth_length'. auto.
  - unfold hflush. rewrite map_length. destruct (pend_bytes s =? 0); auto.
  - unfold hflush. cbn [t_pend]. rewrite map_length. destruct (pend_bytes s =? 0); auto.
  - rewrite !repeat_length. reflexivity.
  - destruct Hl as (H1 & d & H2 & H3 & H4). unfold pending_bytes. cbn [t_pend].
    rewrite concat_upd_sum by auto. change (Zsum (map _ (concat (t_pend t)))) with (pending_bytes t). rewrite <- L4.
    assert (HG : set_good d). { pose proof (r_good _ _ R) as K. rewrite Forall_forall in K. apply K. rewrite <- (r_sets _ _ R). destruct H2 as [_ H2]. eapply nth_error_In; eauto. }
    unfold esize_at. rewrite (proj2 H2). etransitivity; [|apply (f_equal (fun x => pend_bytes s + x)); symmetry; apply assigns_sum; [apply HG|exact H4]].
    assert (HL : length (ss_pend s) = length (t_pend t)) by (rewrite (r_pend _ _ R), map_length; reflexivity).
    destruct sels as [|b l]; [discriminate|]. unfold pend_bytes. cbn [ss_pend]. rewrite concat_upd_sum by lia.
    cbn. lia.
  - unfold pend_bytes, pending_bytes, sflush. cbn [ss_pend t_pend]. rewrite !sum_nil. reflexivity.
  - unfold pend_bytes, pending_bytes, sflush. cbn [ss_pend t_pend]. rewrite !sum_nil. reflexivity.
  - unfold pend_bytes, pending_bytes. cbn [ss_pend t_pend]. rewrite !sum_nil'. reflexivity.
  - apply Forall_app. split; auto. constructor; auto. destruct Hl as (H1 & H2 & H3), Hs as (S1 & S2 & S3). split; auto. split; auto. split; auto. split; auto. unfold extent_ok in H2. symmetry. eapply Forall2_length; eauto.
  - destruct sels; auto.
  - rewrite Zlen_app. unfold Zlen in *. cbn [length]. lia.
  - destruct sels; cbn [ss_sets]; lia.
  - unfold sflush. cbn [ss_sets]. lia.
  - unfold sflush. cbn [ss_sets]. lia.
  - lia.
Qed.

Lemma simple_ok_run : forall ops s h t hi, lrel s h t hi (Zlen ops) -> legal_run (e_coll e) t hi ops -> Forall simple_op ops -> ok_run e cfg cv s h ops.
Proof.
  induction ops as [|o ops IH]; intros s h t hi L Hl Hs; [exact I|]. apply Forall_cons_iff in Hs. destruct Hs as [Ho Hs]. destruct Hl as [H1 H2].
  rewrite Zlen_cons in L. replace (1 + Zlen ops) with (Zlen ops + 1) in L by lia. assert (Hz : 0 <= Zlen ops) by (unfold Zlen; lia). split; [eapply (simple_ok_op s h t hi (Zlen ops + 1)); eauto; lia|].
  eapply IH; eauto. apply simple_step; auto.
Qed.

Lemma simple_ok : forall np ops, is_sort (e_sort e) -> legal_history (e_coll e) np ops -> Forall simple_op ops -> ok_history e cfg cv np ops.
Proof.
  intros np ops HS (H1 & H2 & H3 & H4) Hs. split; auto. split; auto. split; auto. split; auto. split; auto.
  eapply simple_ok_run; eauto. constructor; cbn [sinit ss_sets ss_pend hs_hi hs_seen t_pend]; auto.
  - apply hrel_init.
  - rewrite !repeat_length. reflexivity.
  - unfold pend_bytes, pending_bytes, sinit. cbn [ss_pend t_pend]. rewrite !sum_nil'. reflexivity.
  - unfold Zlen. cbn [length]. lia.
Qed.
End Simple.

(** ** Comparing two runs *)
(** Two accepted histories with the same operations give the same results, whatever the
    configuration, index, limit, sorting function, compressor and initial content. *)
Lemma same_outputs : forall e e' cfg cfg' cv cv' np f0 f0' ops, e_coll e = e_coll e' ->
  ok_history e cfg cv np ops -> ok_history e' cfg' cv' np ops ->
  exists s s' outs, run e (init cfg np f0) ops = Ok (s, outs) /\ run e' (init cfg' np f0') ops = Ok (s', outs).
Proof.
  intros e e' cfg cfg' cv cv' np f0 f0' ops He H H'. destruct (run_spec _ _ _ _ f0 _ H) as (s & Hs). destruct (run_spec _ _ _ _ f0' _ H') as (s' & Hs').
  rewrite <- He in Hs'. eauto.
Qed.

(** Turning sharing off, or compression on or off, keeps a history acceptable. *)
Lemma ok_run_weaken : forall e e' cfg cfg' cv, e_coll e' = e_coll e -> e_limit e' = e_limit e -> e_kind e' = e_kind e ->
  has cfg' CFG_SEL_ENCODE = has cfg CFG_SEL_ENCODE -> (has cfg' CFG_METADATA_SHARE = true -> has cfg CFG_METADATA_SHARE = true) ->
  forall ops s h, ok_run e cfg cv s h ops -> ok_run e' cfg' cv s h ops.
Proof.
  intros e e' cfg cfg' cv E1 E2 E3 C1 C2. induction ops as [|o ops IH]; intros s h H; [exact I|]. destruct H as [H1 H2]. split.
  - destruct o; cbn [ok_op] in *; auto.
    + unfold ok_create in *. rewrite C1. exact H1.
    + unfold ok_write in *. destruct H1 as (seen & S1 & S2). exists seen. split; auto. intros Hne. destruct (S2 Hne) as (d & D1 & D2 & D3 & D4 & D5 & D6 & D7 & D8).
      exists d. rewrite C1, E3. repeat (split; [assumption|]). split; auto.
    + unfold ok_read in *. rewrite E1, E2. destruct H1 as (A1 & A2 & A3 & A4). split; auto. split; auto. split; auto.
      eapply Forall_impl; [|exact A4]. intros c. unfold ok_call. rewrite E3. auto.
  - rewrite E1. assert (HS : hstep e' s h o = hstep e s h o) by (destruct o; cbn [hstep]; rewrite ?E1; reflexivity). rewrite HS. apply IH. exact H2.
Qed.

Lemma ok_history_weaken : forall e e' cfg cfg' cv np ops, e_coll e' = e_coll e -> e_limit e' = e_limit e -> e_kind e' = e_kind e ->
  is_sort (e_sort e') -> plain_cfg cfg' ->
  has cfg' CFG_SEL_ENCODE = has cfg CFG_SEL_ENCODE -> (has cfg' CFG_METADATA_SHARE = true -> has cfg CFG_METADATA_SHARE = true) ->
  ok_history e cfg cv np ops -> ok_history e' cfg' cv np ops.
Proof.
  intros e e' cfg cfg' cv np ops E1 E2 E3 Hs Hp C1 C2 (H0 & H1 & H2 & H3 & H4 & H5). split; auto. split; auto. split; auto. split; auto. split; auto.
  revert H5. apply ok_run_weaken; auto.
Qed.

Lemma concat_chunk : forall fuel n l, (0 < n)%nat -> (length l <= fuel)%nat -> concat (chunk fuel n l) = l.
Proof.
  induction fuel as [|f IH]; intros n l Hn Hl; cbn [chunk]; [destruct l; [reflexivity|cbn in Hl; lia]|].
  destruct l as [|z l]; [reflexivity|]. cbn [concat]. rewrite IH; auto.
  - apply firstn_skipn.
  - rewrite skipn_length. cbn [length] in *. lia.
Qed.

(** Correct results are determined by the trace. *)
Lemma correct_unique : forall t t' c b b', correct_read t c b -> correct_read t' c b' ->
  (forall d, nth_error (t_sets t) (Z.to_nat (rc_did c)) = Some d -> 0 < di_esize d) ->
  (forall d, nth_error (t_sets t) (Z.to_nat (rc_did c)) = Some d -> exists d', nth_error (t_sets t') (Z.to_nat (rc_did c)) = Some d' /\ di_esize d' = di_esize d /\ di_fill d' = di_fill d) ->
  (forall x, last_assigned (rc_did c) x (t_pub t) = last_assigned (rc_did c) x (t_pub t')) -> b = b'.
Proof.
  intros t t' c b b' (d & A1 & A2 & A3 & A4) (d' & B1 & B2 & B3 & B4) He HD HL. destruct (HD d A1) as (d2 & D1 & D2 & D3). rewrite B1 in D1. injection D1 as <-.
  specialize (He d A1). rewrite D2 in *.
  assert (HE : elems (di_esize d) b = elems (di_esize d) b').
  { apply nth_error_ext. intros k. destruct (nth_error (sel_coords (rc_sels c)) k) as [x|] eqn:E.
    - rewrite (A4 k x E), (B4 k x E). f_equal. unfold expected. rewrite HL, D2, D3. reflexivity.
    - apply nth_error_None in E. rewrite !(proj2 (nth_error_None _ _)) by lia. reflexivity. }
  assert (K : forall l, concat (elems (di_esize d) l) = l) by (intros l; apply concat_chunk; [lia|auto]).
  rewrite <- (K b), <- (K b'). congruence.
Qed.

Lemma trace_sizes : forall e cfg cv np ops, ok_history e cfg cv np ops ->
  forall k d, nth_error (t_sets (trace_of (e_coll e) np ops)) k = Some d -> 0 < di_esize d.
Proof.
  intros e cfg cv np ops (_ & _ & _ & _ & _ & H) k d Hd. pose proof (hrel_run _ _ _ _ _ _ _ (hrel_init np) H) as R.
  pose proof (r_good _ _ R) as G. rewrite <- (r_sets _ _ R) in G. rewrite Forall_forall in G. apply (G d). eapply nth_error_In. exact Hd.
Qed.

(** Two histories ending in the same read calls return the same buffers when their traces agree
    on the datasets read. *)
Definition agree (did : Z) (t t' : trace) : Prop :=
  (forall d, nth_error (t_sets t) (Z.to_nat did) = Some d ->
     exists d', nth_error (t_sets t') (Z.to_nat did) = Some d' /\ di_esize d' = di_esize d /\ di_fill d' = di_fill d) /\
  (forall x, last_assigned did x (t_pub t) = last_assigned did x (t_pub t')).

Lemma final_read_same : forall e e' cfg cfg' cv cv' np np' f0 f0' ops ops' doff doff' calls,
  ok_history e cfg cv np (ops ++ [ORead doff calls]) -> ok_history e' cfg' cv' np' (ops' ++ [ORead doff' calls]) ->
  Forall (fun c => agree (rc_did c) (trace_of (e_coll e) np (ops ++ [ORead doff calls]))
                                    (trace_of (e_coll e') np' (ops' ++ [ORead doff' calls]))) calls ->
  exists s s' outs outs' bufs,
    run e (init cfg np f0) (ops ++ [ORead doff calls]) = Ok (s, outs ++ [bufs]) /\
    run e' (init cfg' np' f0') (ops' ++ [ORead doff' calls]) = Ok (s', outs' ++ [bufs]).
Proof.
  intros e e' cfg cfg' cv cv' np np' f0 f0' ops ops' doff doff' calls H H' HA.
  destruct (reads_correct _ _ _ _ f0 _ _ _ H) as (s & outs & bufs & R1 & R2 & R3).
  destruct (reads_correct _ _ _ _ f0' _ _ _ H') as (s' & outs' & bufs' & R1' & R2' & R3').
  exists s, s', outs, outs', bufs. split; auto. enough (bufs = bufs') by congruence.
  pose proof (trace_sizes _ _ _ _ _ H) as HT.
  set (t := trace_of (e_coll e) np (ops ++ [ORead doff calls])) in *. set (t' := trace_of (e_coll e') np' (ops' ++ [ORead doff' calls])) in *.
  clear - R3 R3' HA HT. clearbody t t'. revert bufs bufs' R3 R3'. induction HA as [|c cs Hc _ IH]; intros bufs bufs' R R'; inversion R; inversion R'; subst; auto.
  f_equal; eauto. destruct Hc as [C1 C2]. eapply correct_unique; eauto.
Qed.

(** ** Dataset isolation *)
Definition only (did : Z) (l : list assignment) : list assignment := filter (fun a => fst (fst a) =? did) l.
Lemma last_assigned_only : forall did x l, last_assigned did x l = last_assigned did x (only did l).
Proof.
  induction l as [|[[d c] v] l IH]; [reflexivity|]. cbn [only filter fst]. fold (only did l). destruct (Z.eqb_spec d did); cbn [last_assigned]; rewrite IH; auto.
  - destruct (Z.eqb_spec d did); [congruence|]. destruct (last_assigned did x (only did l)); reflexivity.
Qed.

Record oagree (did : Z) (t t' : trace) : Prop := {
  oa_sets : t_sets t = t_sets t';
  oa_pub : only did (t_pub t) = only did (t_pub t');
  oa_pend : map (only did) (t_pend t) = map (only did) (t_pend t') }.

Lemma only_app : forall did a b, only did (a ++ b) = only did a ++ only did b.
Proof. intros. apply filter_app. Qed.
Lemma only_concat : forall did l, only did (concat l) = concat (map (only did) l).
Proof. induction l as [|x l IH]; [reflexivity|]. cbn [concat map]. rewrite only_app, IH. reflexivity. Qed.
Lemma only_publish : forall did t t', oagree did t t' -> only did (publish t) = only did (publish t').
Proof. intros did t t' [A B C]. unfold publish. rewrite !only_app, !only_concat, B, C. reflexivity. Qed.
Lemma map_upd_nth : forall A B (f : A -> B) l k x, map f (upd_nth k x l) = upd_nth k (f x) (map f l).
Proof. induction l as [|y l IH]; intros [|k] x; cbn; auto. f_equal. auto. Qed.
Lemma upd_nth_same : forall A (d : A) l k, upd_nth k (nth k l d) l = l.
Proof. induction l as [|y l IH]; intros [|k]; cbn; auto. f_equal. auto. Qed.
Lemma assigns_other : forall did did' es sels data, did' <> did -> only did (assigns_of es did' sels data) = [].
Proof.
  intros did did' es sels data H. unfold assigns_of, only. induction (combine (sel_coords sels) (elems es data)) as [|p l IH]; [reflexivity|].
  cbn [map filter fst]. destruct (Z.eqb_spec did' did); [congruence|auto].
Qed.
Lemma oagree_step : forall coll did t t' o, oagree did t t' -> oagree did (tstep coll t o) (tstep coll t' o).
Proof.
  intros coll did t t' o H. pose proof (only_publish _ _ _ H) as HP. destruct H as [A B C].
  assert (HL : length (t_pend t) = length (t_pend t')) by (apply (f_equal (@length _)) in C; rewrite !map_length in C; exact C).
  assert (HN : map (only did) (map (fun _ => []) (t_pend t)) = map (only did) (map (fun _ => []) (t_pend t'))).
  { revert HL. generalize (t_pend t) (t_pend t'). induction l as [|x l IH]; intros [|y l'] HL; try discriminate; auto. cbn. f_equal. apply IH. cbn in HL. congruence. }
  destruct o; cbn [tstep]; try (destruct coll); constructor; cbn [t_sets t_pub t_pend]; rewrite ?A; auto.
  all: rewrite !map_upd_nth, !only_app, C, <- !map_nth_nil with (f := only did) by reflexivity; rewrite C; reflexivity.
Qed.

Lemma oagree_skip : forall coll did t t' o, oagree did t t' -> touches did o = false -> oagree did (tstep coll t o) t'.
Proof.
  intros coll did t t' o [A B C] H. destruct o; try discriminate. cbn [touches] in H. apply Z.eqb_neq in H.
  constructor; cbn [tstep t_sets t_pub t_pend]; auto. rewrite map_upd_nth, only_app, assigns_other, app_nil_r by auto.
  rewrite <- C. rewrite <- map_nth_nil with (f := only did) by reflexivity. apply upd_nth_same.
Qed.

Lemma oagree_filter : forall coll did ops t t', oagree did t t' ->
  oagree did (fold_left (tstep coll) ops t) (fold_left (tstep coll) (filter (touches did) ops) t').
Proof.
  induction ops as [|o ops IH]; intros t t' H; [exact H|]. cbn [fold_left filter]. destruct (touches did o) eqn:E; cbn [fold_left]; apply IH.
  - apply oagree_step. exact H.
  - apply oagree_skip; auto.
Qed.

Lemma oagree_agree : forall did t t', oagree did t t' -> agree did t t'.
Proof.
  intros did t t' [A B C]. split.
  - intros d H. exists d. rewrite <- A. auto.
  - intros x. rewrite (last_assigned_only did x (t_pub t)), B, <- last_assigned_only. reflexivity.
Qed.
Lemma oagree_sym : forall did t t', oagree did t t' -> oagree did t' t.
Proof. intros did t t' [A B C]. constructor; auto. Qed.
Lemma oagree_trans : forall did a b c, oagree did a b -> oagree did b c -> oagree did a c.
Proof. intros did a b c [A B C] [A' B' C']. constructor; congruence. Qed.

Lemma isolation : forall e cfg cv e' cfg' cv' np f0 f0' did ops ops' doff calls, e_coll e = e_coll e' ->
  ok_history e cfg cv np (ops ++ [ORead doff calls]) -> ok_history e' cfg' cv' np (ops' ++ [ORead doff calls]) ->
  filter (touches did) ops = filter (touches did) ops' ->
  Forall (fun c => rc_did c = did) calls ->
  exists s s' outs outs' bufs,
    run e (init cfg np f0) (ops ++ [ORead doff calls]) = Ok (s, outs ++ [bufs]) /\
    run e' (init cfg' np f0') (ops' ++ [ORead doff calls]) = Ok (s', outs' ++ [bufs]).
Proof.
  intros e cfg cv e' cfg' cv' np f0 f0' did ops ops' doff calls He H H' HF HC. eapply final_read_same; eauto.
  eapply Forall_impl; [|exact HC]. intros c ->. apply oagree_agree. rewrite !trace_snoc, <- He. apply oagree_step. unfold trace_of.
  assert (R : forall t, oagree did t t) by (constructor; auto).
  eapply oagree_trans; [apply oagree_filter, R|]. rewrite HF. apply oagree_sym, oagree_filter, R.
Qed.

(** ** write_n *)
Lemma chunk_fuel : forall f f' n l, (0 < n)%nat -> (length l <= f)%nat -> (length l <= f')%nat -> chunk f n l = chunk f' n l.
Proof.
  induction f as [|f IH]; intros [|f'] n l Hn H1 H2; cbn [chunk]; auto.
  - destruct l; [reflexivity|cbn in H1; lia].
  - destruct l; [reflexivity|cbn in H2; lia].
  - destruct l as [|z l]; [reflexivity|]. f_equal. apply IH; auto; rewrite skipn_length; cbn [length] in *; lia.
Qed.

Lemma chunk_app : forall m n a b f, (0 < n)%nat -> length a = (n * m)%nat -> (length (a ++ b) <= f)%nat ->
  chunk f n (a ++ b) = chunk f n a ++ chunk f n b.
Proof.
  induction m as [|m IH]; intros n a b f Hn Ha Hf.
  - assert (a = []) by (destruct a; [reflexivity|cbn in Ha; lia]). subst a. destruct f; reflexivity.
  - destruct f as [|f]; [rewrite app_length in Hf; lia|].
    assert (Hlen : (n <= length a)%nat) by nia. cbn [chunk].
    destruct a as [|z a']; [cbn in Hlen; lia|]. set (a := z :: a') in *. change ((z :: a') ++ b) with (a ++ b).
    assert (E : a ++ b <> []) by discriminate. destruct (a ++ b) as [|y l] eqn:Eab; [congruence|]. rewrite <- Eab in *. clear E Eab y l.
    rewrite app_length in Hf.
    rewrite firstn_app, skipn_app. replace (n - length a)%nat with 0%nat by lia. cbn [firstn skipn]. rewrite app_nil_r.
    rewrite (IH n (skipn n a) b f); auto; [|rewrite skipn_length; nia|rewrite app_length, skipn_length; lia].
    cbn [app]. f_equal. f_equal. destruct b as [|y b]; [destruct f; reflexivity|].
    change (chunk f n (y :: b) = chunk (S f) n (y :: b)). apply chunk_fuel; auto; cbn [length] in *; lia.
Qed.

Lemma elems_app : forall es m a b, 0 < es -> 0 <= m -> Zlen a = es * m -> elems es (a ++ b) = elems es a ++ elems es b.
Proof.
  intros es m a b He Hm Ha. unfold elems. rewrite (chunk_app (Z.to_nat m)); auto; try lia.
  - f_equal; apply chunk_fuel; rewrite ?app_length; lia.
  - unfold Zlen in Ha. nia.
Qed.

Lemma combine_app : forall A B (a1 a2 : list A) (b1 b2 : list B), length a1 = length b1 -> combine (a1 ++ a2) (b1 ++ b2) = combine a1 b1 ++ combine a2 b2.
Proof. induction a1 as [|x a1 IH]; intros a2 [|y b1] b2 H; try discriminate; cbn; auto. f_equal. apply IH. cbn in H. congruence. Qed.

Lemma assigns_split : forall es did b sels data, 0 < es -> Zlen data = es * Zlen (sel_coords (b :: sels)) ->
  let n := Z.to_nat (es * Zlen (coords b)) in
  assigns_of es did (b :: sels) data = assigns_of es did [b] (firstn n data) ++ assigns_of es did sels (skipn n data) /\
  Zlen (firstn n data) = es * Zlen (sel_coords [b]) /\ Zlen (skipn n data) = es * Zlen (sel_coords sels).
Proof.
  intros es did b sels data He H n. unfold sel_coords in H. cbn [flat_map] in H. rewrite Zlen_app in H. fold (sel_coords sels) in H.
  assert (P1 : 0 <= Zlen (coords b)) by (unfold Zlen; lia). assert (P2 : 0 <= Zlen (sel_coords sels)) by (unfold Zlen; lia).
  assert (L1 : Zlen (firstn n data) = es * Zlen (coords b)).
  { unfold Zlen in *. rewrite firstn_length. unfold n. nia. }
  assert (L2 : Zlen (skipn n data) = es * Zlen (sel_coords sels)).
  { unfold Zlen in *. rewrite skipn_length. unfold n. nia. }
  split; [|split; auto].
  - unfold assigns_of. rewrite <- map_app. f_equal. unfold sel_coords. cbn [flat_map]. rewrite app_nil_r.
    rewrite <- (firstn_skipn n data) at 1. rewrite (elems_app es (Zlen (coords b))); auto. apply combine_app.
    destruct (elems_spec es _ _ He P1 L1) as [E _]. rewrite E. unfold Zlen. lia.
  - unfold sel_coords. cbn [flat_map]. rewrite app_nil_r. exact L1.
Qed.

Lemma tstep_write_nil : forall coll t rk did data, tstep coll t (OWrite rk did [] data) = t.
Proof. intros. cbn [tstep]. unfold assigns_of. cbn [sel_coords flat_map combine map]. rewrite app_nil_r, upd_nth_same. destruct t; reflexivity. Qed.

Lemma nth_upd_same : forall A (l : list A) k x d, (k < length l)%nat -> nth k (upd_nth k x l) d = x.
Proof. induction l as [|y l IH]; intros [|k] x d H; cbn in *; try lia; auto. apply IH. lia. Qed.
Lemma upd_upd : forall A (l : list A) k x y, upd_nth k x (upd_nth k y l) = upd_nth k x l.
Proof. induction l as [|z l IH]; intros [|k] x y; cbn; auto. f_equal. auto. Qed.
Lemma upd_oob : forall A (l : list A) k x, (length l <= k)%nat -> upd_nth k x l = l.
Proof. induction l as [|z l IH]; intros [|k] x H; cbn in *; auto; try lia. f_equal. apply IH. lia. Qed.

Lemma write_each_trace : forall coll rk did sels data t, let es := esize_at (t_sets t) did in 0 < es ->
  Zlen data = es * Zlen (sel_coords sels) ->
  fold_left (tstep coll) (write_each rk did es sels data) t = tstep coll t (OWrite rk did sels data).
Proof.
  intros coll rk did sels. induction sels as [|b sels IH]; intros data t es He H; [rewrite tstep_write_nil; reflexivity|].
  cbn [write_each fold_left]. set (n := Z.to_nat (es * Zlen (coords b))).
  destruct (assigns_split es did b sels data He H) as (A & B & C). fold n in A, B, C.
  pose proof (IH (skipn n data) (tstep coll t (OWrite rk did [b] (firstn n data)))) as K. cbv zeta in K.
  change (esize_at (t_sets (tstep coll t (OWrite rk did [b] (firstn n data)))) did) with es in K. rewrite K; auto.
  cbn [tstep t_sets t_pub]. fold es. rewrite A. f_equal. cbn [t_pend]. destruct (Nat.lt_ge_cases rk (length (t_pend t))) as [Hk|Hk].
  - rewrite upd_upd, nth_upd_same by auto. rewrite app_assoc. reflexivity.
  - rewrite !upd_oob; auto; rewrite ?upd_nth_length; auto.
Qed.

Lemma ok_write_size : forall e cfg cv np a rk did sels data b, ok_history e cfg cv np (a ++ OWrite rk did sels data :: b) -> sels <> [] ->
  let es := esize_at (t_sets (trace_of (e_coll e) np a)) did in 0 < es /\ Zlen data = es * Zlen (sel_coords sels).
Proof.
  intros e cfg cv np a rk did sels data b (_ & _ & _ & _ & _ & H) Hne es. destruct (ok_run_app _ _ _ _ _ _ _ H) as [A1 (h' & A2 & _)].
  pose proof (hrel_run _ _ _ _ _ _ _ (hrel_init np) A1) as R. destruct A2 as (seen & _ & A2). destruct (A2 Hne) as (d & D1 & D2 & D3 & D4 & _).
  unfold set_of in D1. destruct (did <? 0); [discriminate|]. rewrite <- (r_sets _ _ R) in D1. change (fold_left _ _ _) with (trace_of (e_coll e) np a) in *.
  unfold es, esize_at. rewrite D1. pose proof (r_good _ _ R) as G. rewrite <- (r_sets _ _ R) in G. rewrite Forall_forall in G. destruct (G d (nth_error_In _ _ D1)) as [G1 _].
  split; auto. rewrite D4. f_equal. unfold Zlen. symmetry. apply (sel_coords_length (di_ndim d)). eapply Forall_impl; [|exact D3]. intros x (B1 & B2 & B3 & B4). unfold blk_small. auto.
Qed.

Lemma write_n_each : forall e cfg cv e' cfg' cv' np f0 f0' pre post rk did sels data doff doff' calls, e_coll e = e_coll e' ->
  let es := esize_at (t_sets (trace_of (e_coll e) np pre)) did in
  ok_history e cfg cv np ((pre ++ OWrite rk did sels data :: post) ++ [ORead doff calls]) ->
  ok_history e' cfg' cv' np ((pre ++ write_each rk did es sels data ++ post) ++ [ORead doff' calls]) ->
  exists s s' outs outs' bufs,
    run e (init cfg np f0) ((pre ++ OWrite rk did sels data :: post) ++ [ORead doff calls]) = Ok (s, outs ++ [bufs]) /\
    run e' (init cfg' np f0') ((pre ++ write_each rk did es sels data ++ post) ++ [ORead doff' calls]) = Ok (s', outs' ++ [bufs]).
Proof.
  intros e cfg cv e' cfg' cv' np f0 f0' pre post rk did sels data doff doff' calls He es H H'. eapply final_read_same; eauto.
  apply Forall_forall. intros c _. apply oagree_agree. rewrite !trace_snoc, <- He.
  assert (E : trace_of (e_coll e) np (pre ++ OWrite rk did sels data :: post) = trace_of (e_coll e) np (pre ++ write_each rk did es sels data ++ post)).
  { unfold trace_of. rewrite !fold_left_app. cbn [fold_left]. f_equal. change (fold_left (tstep (e_coll e)) pre _) with (trace_of (e_coll e) np pre).
    destruct sels as [|b0 l] eqn:Es; [apply tstep_write_nil|]. rewrite <- Es in *. symmetry. 
    rewrite <- app_assoc in H. destruct (ok_write_size _ _ _ _ _ _ _ _ _ _ H) as [A B]; [congruence|].
    apply write_each_trace; auto. }
  rewrite E. constructor; auto.
Qed.

(** ** Close and reopen, flush, set_extent *)
Lemma reopen_same : forall e cfg cv np np' f0 ops doff doff1 doff2 calls, e_coll e = true ->
  ok_history e cfg cv np (ops ++ [ORead doff calls]) -> ok_history e cfg cv np ((ops ++ [OReopen doff1 np']) ++ [ORead doff2 calls]) ->
  exists s s' outs outs' bufs,
    run e (init cfg np f0) (ops ++ [ORead doff calls]) = Ok (s, outs ++ [bufs]) /\
    run e (init cfg np f0) ((ops ++ [OReopen doff1 np']) ++ [ORead doff2 calls]) = Ok (s', outs' ++ [bufs]).
Proof.
  intros e cfg cv np np' f0 ops doff doff1 doff2 calls He H H'. eapply final_read_same; eauto. apply Forall_forall. intros c _.
  rewrite !trace_snoc, He. cbn [tstep]. split; cbn [t_sets t_pub]; [eauto|]. intros x. unfold publish at 2. cbn [t_pub t_pend].
  assert (Hr : forall n, concat (repeat (@nil assignment) n) = []) by (induction n; auto). rewrite Hr, app_nil_r. reflexivity.
Qed.

Lemma extent_same : forall e cfg cv np f0 ops did dims doff calls,
  ok_history e cfg cv np (ops ++ [ORead doff calls]) -> ok_history e cfg cv np ((ops ++ [OSetExtent did dims]) ++ [ORead doff calls]) ->
  exists s s' outs outs' bufs,
    run e (init cfg np f0) (ops ++ [ORead doff calls]) = Ok (s, outs ++ [bufs]) /\
    run e (init cfg np f0) ((ops ++ [OSetExtent did dims]) ++ [ORead doff calls]) = Ok (s', outs' ++ [bufs]).
Proof.
  intros e cfg cv np f0 ops did dims doff calls H H'. eapply final_read_same; eauto. apply Forall_forall. intros c _.
  rewrite !trace_snoc. set (t := trace_of (e_coll e) np ops).
  assert (A : agree (rc_did c) t (tstep (e_coll e) t (OSetExtent did dims))).
  { split; [|reflexivity]. intros d Hd. cbn [tstep t_sets]. destruct (nth_error (t_sets t) (Z.to_nat did)) as [d0|] eqn:E; eauto.
    destruct (Nat.eq_dec (Z.to_nat (rc_did c)) (Z.to_nat did)) as [Q|Q].
    - rewrite Q in *. rewrite E in Hd. injection Hd as ->. eexists. split; [apply nth_error_upd_nth_eq; apply nth_error_Some; congruence|]. auto.
    - rewrite nth_error_upd_nth_ne by auto. eauto. }
  destruct A as [A1 A2]. cbn [tstep] in *. destruct (e_coll e); split; cbn [t_sets t_pub] in *; auto.
Qed.

Lemma flush_publishes : forall e cfg cv np f0 ops doff doff' calls,
  ok_history e cfg cv np ((ops ++ [OFlush doff]) ++ [ORead doff' calls]) ->
  exists s outs bufs, run e (init cfg np f0) ((ops ++ [OFlush doff]) ++ [ORead doff' calls]) = Ok (s, outs ++ [bufs]) /\
    let t := trace_of (e_coll e) np ops in
    Forall2 (correct_read (mktr (t_sets t) (t_pub t ++ concat (t_pend t)) [])) calls bufs.
Proof.
  intros e cfg cv np f0 ops doff doff' calls H. destruct (reads_correct _ _ _ _ f0 _ _ _ H) as (s & outs & bufs & R1 & R2 & R3).
  exists s, outs, bufs. split; auto. cbv zeta. eapply Forall2_impl; [|exact R3]. intros c b (d & D1 & D2 & D3 & D4). rewrite !trace_snoc in *.
  assert (Hm : forall l : list (list assignment), concat (map (fun _ => @nil assignment) l) = []) by (induction l; auto).
  exists d. cbn [tstep t_sets t_pub] in *. destruct (e_coll e); cbn [t_sets t_pub t_pend] in *; unfold publish in *; cbn [t_pub t_pend] in *; rewrite ?Hm, ?app_nil_r in D4; auto.
Qed.

(** Highest rank wins. *)
Lemma last_assigned_concat : forall did x l r v, last_assigned did x (nth r l []) = Some v ->
  (forall r', (r < r')%nat -> last_assigned did x (nth r' l []) = None) -> last_assigned did x (concat l) = Some v.
Proof.
  induction l as [|a l IH]; intros r v H1 H2; [destruct r; discriminate|]. cbn [concat]. rewrite last_assigned_app. destruct r as [|r].
  - cbn [nth] in H1. rewrite H1. replace (last_assigned did x (concat l)) with (@None (list Z)); auto. symmetry.
    assert (H3 : forall r', last_assigned did x (nth r' l []) = None) by (intros r'; apply (H2 (S r')); lia).
    clear - H3. induction l as [|b l IH]; [reflexivity|]. cbn [concat]. rewrite last_assigned_app, (IH (fun r => H3 (S r))). apply (H3 0%nat).
  - cbn [nth] in H1. rewrite (IH r v H1); auto. intros r' Hr. apply (H2 (S r')). lia.
Qed.
