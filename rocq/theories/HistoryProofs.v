(** The state-based specification and the element-based one agree. *)
From Verif Require Import Base BaseProofs Spec MetaModel QueueModel FlushModel IndexModel ReadModel SysModel
  SysSpec History GeomProofs MetaProofs QueueProofs IndexProofs SearchProofs SortProofs ReadProofs HitProofs MdProofs StoreProofs
  FlushProofs ReadOneProofs SysProofs.
From Coq Require Import ZifyNat ZifyN Permutation.

(** ** Sorting functions exist *)
Lemma lex_ltb_irrefl : forall a, lex_ltb a a = false.
Proof. induction a as [|x a IH]; [reflexivity|]. cbn. rewrite Z.ltb_irrefl. exact IH. Qed.
Lemma lex_ltb_total : forall a b, lex_ltb a b = false -> lex_ltb b a = false -> a = b.
Proof.
  induction a as [|x a IH]; intros [|y b]; cbn; try discriminate; auto.
  destruct (Z.ltb_spec x y), (Z.ltb_spec y x); try discriminate; try lia. intros. f_equal; [lia|auto].
Qed.
Lemma lex_ltb_trans : forall a b c, lex_ltb a b = true -> lex_ltb b c = true -> lex_ltb a c = true.
Proof.
  induction a as [|x a IH]; intros [|y b] [|z c]; cbn; try discriminate; auto.
  destruct (Z.ltb_spec x y); destruct (Z.ltb_spec y z); intros H1 H2.
  - destruct (Z.ltb_spec x z); auto; lia.
  - destruct (Z.ltb_spec z y); [discriminate|]. destruct (Z.ltb_spec x z); auto; lia.
  - destruct (Z.ltb_spec y x); [discriminate|]. destruct (Z.ltb_spec x z); auto; lia.
  - destruct (Z.ltb_spec y x); [discriminate|]. destruct (Z.ltb_spec z y); [discriminate|].
    destruct (Z.ltb_spec x z); auto. destruct (Z.ltb_spec z x); [lia|]. eauto.
Qed.
Lemma lex_lt_ltb : forall a b, lex_lt a b = true -> lex_ltb a b = true.
Proof.
  induction a as [|x a IH]; intros [|y b]; cbn; try discriminate; auto.
  destruct (x <? y); auto. destruct (y <? x); auto.
Qed.

Definition sr_bef (a b : sret) : Prop := sr_before b a = false.

Lemma sr_bef_trans : forall a b c, sr_bef a b -> sr_bef b c -> sr_bef a c.
Proof.
  unfold sr_bef, sr_before. intros a b c.
  destruct (Z.ltb_spec (sr_key b) (sr_key a)); [discriminate|].
  destruct (Z.ltb_spec (sr_key c) (sr_key b)); [discriminate|].
  destruct (Z.ltb_spec (sr_key c) (sr_key a)); [lia|].
  destruct (Z.ltb_spec (sr_key a) (sr_key c)); auto.
  destruct (Z.ltb_spec (sr_key a) (sr_key b)); [lia|]. destruct (Z.ltb_spec (sr_key b) (sr_key c)); [lia|].
  intros H1' H2'. destruct (lex_ltb (sr_dstart c) (sr_dstart a)) eqn:E; auto. exfalso.
  destruct (lex_ltb (sr_dstart a) (sr_dstart b)) eqn:E2.
  - rewrite (lex_ltb_trans _ _ _ E E2) in H2'. discriminate.
  - rewrite (lex_ltb_total _ _ E2 H1') in E. congruence.
Qed.

Lemma sr_before_asym : forall a b, sr_before a b = true -> sr_before b a = false.
Proof.
  unfold sr_before. intros a b. destruct (Z.ltb_spec (sr_key a) (sr_key b)).
  - intros _. destruct (Z.ltb_spec (sr_key b) (sr_key a)); [lia|]. reflexivity.
  - destruct (Z.ltb_spec (sr_key b) (sr_key a)); [discriminate|]. intros H1.
    destruct (lex_ltb (sr_dstart b) (sr_dstart a)) eqn:E; auto.
    rewrite <- (lex_ltb_irrefl (sr_dstart a)). symmetry. eapply lex_ltb_trans; eauto.
Qed.

Lemma insert_sr_ok : forall x l, StronglySorted sr_bef l ->
  StronglySorted sr_bef (insert_sr x l) /\ Permutation (x :: l) (insert_sr x l).
Proof.
  induction l as [|y l IH]; intros H; cbn [insert_sr].
  - split; auto. constructor; constructor.
  - inversion H as [|? ? H1 H2]; subst. destruct (IH H1) as [I1 I2]. destruct (sr_before y x) eqn:E.
    + split; [|rewrite perm_swap; constructor; exact I2]. constructor; auto.
      apply Forall_forall. intros z Hz. apply (Permutation_in _ (Permutation_sym I2)) in Hz. destruct Hz as [<-|Hz].
      * unfold sr_bef. apply sr_before_asym. exact E.
      * rewrite Forall_forall in H2. auto.
    + split; auto. constructor; auto. constructor; [exact E|].
      eapply Forall_impl; [|exact H2]. intros z Hz. eapply sr_bef_trans; eauto.
Qed.

Lemma isort_is_sort : is_sort isort.
Proof.
  intros l. assert (H : StronglySorted sr_bef (isort l) /\ Permutation l (isort l)).
  { induction l as [|x l [I1 I2]]; [split; constructor|]. cbn [isort fold_right]. destruct (insert_sr_ok x (isort l) I1) as [J1 J2].
    split; auto. eapply Permutation_trans; [|exact J2]. constructor. exact I2. }
  destruct H as [H1 H2]. split; auto. clear H2. induction H1 as [|a l' Hs IH Hf]; constructor; auto.
  eapply Forall_impl; [|exact Hf]. intros b Hb. unfold sr_bef, sr_before in Hb. unfold sr_lt.
  destruct (sr_key b <? sr_key a); [discriminate|]. destruct (sr_key a <? sr_key b); auto.
  destruct (lex_lt (sr_dstart b) (sr_dstart a)) eqn:E; auto. apply lex_lt_ltb in E. congruence.
Qed.

(** ** Assignments *)
Lemma last_assigned_app : forall did c a b, last_assigned did c (a ++ b) =
  match last_assigned did c b with Some v => Some v | None => last_assigned did c a end.
Proof.
  induction a as [|[[d' c'] v] a IH]; intros b; cbn [app last_assigned].
  - destruct (last_assigned did c b); reflexivity.
  - rewrite IH. destruct (last_assigned did c b); reflexivity.
Qed.

Definition pw_assigns (sets : list dinfo) (w : pwrite) : list assignment :=
  assigns_of (esize_in sets (pw_did w)) (pw_did w) (pw_sels w) (pw_data w).

Lemma write_elems_last : forall cvs st did d c, write_elems st did cvs d c =
  match last_assigned d c (map (fun cv => (did, fst cv, snd cv)) cvs) with Some v => Some v | None => st d c end.
Proof.
  intros cvs. induction cvs as [|[x v] cvs IH]; intros st did d c; [reflexivity|].
  unfold write_elems in *. cbn [fold_left map last_assigned fst snd]. rewrite IH.
  destruct (last_assigned d c (map (fun cv : list Z * value => (did, fst cv, snd cv)) cvs)); auto.
  unfold set_elem. rewrite (Z.eqb_sym d did). destruct ((did =? d) && coord_eqb x c); reflexivity.
Qed.

Lemma apply_write_last : forall sets st w d c, apply_write sets st w d c =
  match last_assigned d c (pw_assigns sets w) with Some v => Some v | None => st d c end.
Proof. intros. unfold apply_write, spec_write. rewrite write_elems_last. reflexivity. Qed.

Lemma apply_writes_last : forall sets ws st d c, fold_left (apply_write sets) ws st d c =
  match last_assigned d c (flat_map (pw_assigns sets) ws) with Some v => Some v | None => st d c end.
Proof.
  induction ws as [|w ws IH]; intros st d c; [reflexivity|]. cbn [fold_left flat_map]. rewrite IH, last_assigned_app, apply_write_last.
  destruct (last_assigned d c (flat_map (pw_assigns sets) ws)); reflexivity.
Qed.

(** ** The relation between the two specifications *)
Definition set_good (d : dinfo) : Prop :=
  0 < di_esize d /\ match di_fill d with Some f => Zlen f = di_esize d | None => True end.
Definition asg_good (sets : list dinfo) (a : assignment) : Prop :=
  exists d, nth_error sets (Z.to_nat (fst (fst a))) = Some d /\ Zlen (snd a) = di_esize d.
Definition pw_good (sets : list dinfo) (w : pwrite) : Prop :=
  exists d, nth_error sets (Z.to_nat (pw_did w)) = Some d /\ 0 <= sel_size (pw_sels w) /\
    Zlen (pw_data w) = di_esize d * sel_size (pw_sels w).

Record hrel (sp : sstate) (t : trace) : Prop := {
  r_sets : t_sets t = ss_sets sp;
  r_good : Forall set_good (ss_sets sp);
  r_store : forall did c, ss_store sp did c = last_assigned did c (t_pub t);
  r_pend : t_pend t = map (flat_map (pw_assigns (ss_sets sp))) (ss_pend sp);
  r_pw : Forall (Forall (pw_good (ss_sets sp))) (ss_pend sp);
  r_pub : Forall (asg_good (ss_sets sp)) (t_pub t) }.

Lemma nth_error_lt : forall A (l : list A) k x, nth_error l k = Some x -> (k < length l)%nat.
Proof. intros A l k x H. apply nth_error_Some. congruence. Qed.

Lemma elems_lengths : forall es l n, 0 < es -> 0 <= n -> Zlen l = es * n -> Forall (fun v => Zlen v = es) (elems es l).
Proof.
  intros es l n H1 H2 H3. destruct (elems_spec es l n H1 H2 H3) as [E1 E2]. apply Forall_forall. intros v Hv.
  apply In_nth_error in Hv. destruct Hv as [k Hk]. assert (Hlt : (k < Z.to_nat n)%nat) by (rewrite <- E1; exact (nth_error_lt _ _ _ _ Hk)).
  rewrite (E2 k Hlt) in Hk. injection Hk as <-. unfold Zlen in *. rewrite firstn_length, skipn_length.
  assert (es * Z.of_nat k + es <= es * n) by nia. lia.
Qed.

Lemma pw_assigns_good : forall sets w, Forall set_good sets -> pw_good sets w -> Forall (asg_good sets) (pw_assigns sets w).
Proof.
  intros sets w HS (d & H1 & H2 & H3). apply Forall_forall. intros a Ha. unfold pw_assigns, assigns_of in Ha.
  apply in_map_iff in Ha. destruct Ha as ([x v] & <- & Hin). apply in_combine_r in Hin. exists d. cbn [fst snd]. split; auto.
  assert (HE : esize_in sets (pw_did w) = di_esize d) by (unfold esize_in; rewrite H1; reflexivity). rewrite HE in Hin.
  assert (Hd : set_good d) by (rewrite Forall_forall in HS; apply HS; eapply nth_error_In; eauto).
  pose proof (elems_lengths _ _ _ (proj1 Hd) H2 H3) as HL. rewrite Forall_forall in HL. auto.
Qed.

Lemma flat_concat : forall A B (f : A -> list B) l, concat (map (flat_map f) l) = flat_map f (concat l).
Proof. induction l as [|x l IH]; [reflexivity|]. cbn [map concat]. rewrite flat_map_app. congruence. Qed.

Lemma Forall_concat : forall A (P : A -> Prop) l, Forall (Forall P) l -> Forall P (concat l).
Proof. induction 1; cbn [concat]; [constructor|]. apply Forall_app. auto. Qed.

Lemma hrel_publish : forall sp t, hrel sp t ->
  (forall did c, ss_store (sflush sp) did c = last_assigned did c (publish t)) /\ Forall (asg_good (ss_sets sp)) (publish t).
Proof.
  intros sp t R. unfold publish. rewrite (r_pend _ _ R), flat_concat. split.
  - intros did c. unfold sflush. cbn [ss_store]. rewrite apply_writes_last, last_assigned_app, (r_store _ _ R). reflexivity.
  - apply Forall_app. split; [apply R|]. apply Forall_flat_map. apply Forall_concat. pose proof (r_pw _ _ R) as H.
    eapply Forall_impl; [|exact H]. intros ws. apply Forall_impl. intros w. apply pw_assigns_good. apply R.
Qed.

Lemma hrel_flush : forall sp t, hrel sp t -> hrel (sflush sp) (mktr (t_sets t) (publish t) (map (fun _ => []) (t_pend t))).
Proof.
  intros sp t R. destruct (hrel_publish _ _ R) as [P1 P2]. constructor; cbn [sflush ss_sets ss_pend t_sets t_pub t_pend]; try apply R; auto.
  - rewrite (r_pend _ _ R), !map_map. reflexivity.
  - clear. induction (ss_pend sp); constructor; auto.
Qed.

Lemma pw_sets : forall sets sets' w, (forall did d, nth_error sets (Z.to_nat did) = Some d -> exists d', nth_error sets' (Z.to_nat did) = Some d' /\ di_esize d' = di_esize d) ->
  pw_good sets w -> pw_good sets' w /\ pw_assigns sets' w = pw_assigns sets w.
Proof.
  intros sets sets' w H (d & H1 & H2 & H3). destruct (H _ _ H1) as (d' & K1 & K2). split.
  - exists d'. rewrite K2. auto.
  - unfold pw_assigns, esize_in. rewrite H1, K1, K2. reflexivity.
Qed.

Lemma hrel_sets : forall sp t sets', hrel sp t -> Forall set_good sets' ->
  (forall did d, nth_error (ss_sets sp) (Z.to_nat did) = Some d -> exists d', nth_error sets' (Z.to_nat did) = Some d' /\ di_esize d' = di_esize d) ->
  hrel (mkss sets' (ss_store sp) (ss_pend sp)) (mktr sets' (t_pub t) (t_pend t)).
Proof.
  intros sp t sets' R HG H. constructor; cbn [ss_sets ss_store ss_pend t_sets t_pub t_pend]; auto; try apply R.
  - rewrite (r_pend _ _ R). apply map_ext_in. intros ws Hw. pose proof (proj1 (Forall_forall _ _) (r_pw _ _ R) ws Hw) as HF. cbn beta in HF.
    clear - H HF. induction HF as [|w ws Hw _ IH]; [reflexivity|]. cbn [flat_map]. rewrite IH. f_equal. symmetry. apply (pw_sets _ _ _ H Hw).
  - pose proof (r_pw _ _ R) as HF. eapply Forall_impl; [|exact HF]. intros ws. apply Forall_impl. intros w Hw. apply (pw_sets _ _ _ H Hw).
  - pose proof (r_pub _ _ R) as HF. eapply Forall_impl; [|exact HF]. intros a (d & A1 & A2). destruct (H _ _ A1) as (d' & K1 & K2). exists d'. split; auto. lia.
Qed.

Lemma map_nth_nil : forall A B (f : list A -> list B) l k, f [] = [] -> nth k (map f l) [] = f (nth k l []).
Proof. intros A B f l. induction l as [|x l IH]; intros [|k] H; cbn; auto. Qed.

Lemma sel_size_fits : forall nd sels, Forall (blk_fits nd) sels -> 0 <= sel_size sels.
Proof.
  intros nd sels H. apply (sel_size_nonneg nd). eapply Forall_impl; [|exact H]. intros b (B1 & B2 & B3 & B4). unfold blk_small. auto.
Qed.

Lemma hrel_step : forall e cfg cv sp t h o, hrel sp t -> ok_op e cfg cv sp h o ->
  hrel (fst (sstep (e_coll e) sp o)) (tstep (e_coll e) t o).
Proof.
  intros e cfg cv sp t h o R Hok. destruct o; cbn [ok_op] in Hok; cbn [sstep fst tstep].
  - rewrite (r_sets _ _ R). apply hrel_sets; auto.
    + apply Forall_app. split; [apply R|]. constructor; auto. destruct Hok as (H1 & H2 & H3 & H4). split; auto.
    + intros did d0 H. exists d0. split; auto. rewrite nth_error_app1; auto. apply nth_error_Some. congruence.
  - destruct Hok as (d & H1 & H2 & H3). rewrite H1, (r_sets _ _ R). unfold set_of in H1. destruct (did <? 0); [discriminate|]. rewrite H1.
    apply hrel_sets; auto.
    + apply Forall_forall. intros x Hx. apply In_nth_error in Hx. destruct Hx as [k Hk].
      pose proof (r_good _ _ R) as HG. rewrite Forall_forall in HG.
      destruct (Nat.eq_dec (Z.to_nat did) k) as [E|E].
      * subst k. rewrite nth_error_upd_nth_eq in Hk by (apply nth_error_Some; congruence). injection Hk as <-. apply nth_error_In in H1. apply HG in H1. exact H1.
      * rewrite nth_error_upd_nth_ne in Hk by auto. apply HG. eapply nth_error_In; eauto.
    + intros did' d0 H. destruct (Nat.eq_dec (Z.to_nat did) (Z.to_nat did')) as [E|E].
      * rewrite <- E in *. rewrite nth_error_upd_nth_eq by (apply nth_error_Some; congruence). eexists. split; [reflexivity|]. cbn. congruence.
      * rewrite nth_error_upd_nth_ne by auto. eauto.
  - destruct Hok as (seen & H1 & H2). destruct sels as [|b0 sels0].
    + destruct t as [ts tp td]. cbn [t_sets t_pub t_pend]. unfold assigns_of. cbn [sel_coords flat_map combine map]. rewrite app_nil_r.
      assert (HU : upd_nth rk (nth rk td []) td = td). { clear. revert rk. induction td as [|x td IH]; intros [|rk]; cbn; auto. f_equal. apply IH. }
      rewrite HU. exact R.
    + set (sels := b0 :: sels0) in *. destruct (H2 ltac:(discriminate)) as (d & W1 & W2 & W3 & W4 & _).
      assert (HN : nth_error (ss_sets sp) (Z.to_nat did) = Some d) by (unfold set_of in W1; destruct (did <? 0); [discriminate|exact W1]).
      constructor; cbn [ss_sets ss_store ss_pend t_sets t_pub t_pend]; try apply R.
      * rewrite map_upd_nth, (r_pend _ _ R), map_nth_nil by reflexivity. rewrite (r_sets _ _ R). f_equal. rewrite flat_map_app. f_equal.
        cbn [flat_map]. rewrite app_nil_r. reflexivity.
      * assert (HW : pw_good (ss_sets sp) (mkpw did sels data)).
        { exists d. cbn [pw_did pw_sels pw_data]. split; auto. split; auto. eapply sel_size_fits; eauto. }
        pose proof (r_pw _ _ R) as HF. revert HF. generalize (ss_pend sp) as l. clear - HW. intros l. revert rk. induction l as [|x l IH]; intros [|rk] HF; cbn [upd_nth]; auto; inversion HF; subst; constructor; auto.
        -- cbn [nth]. apply Forall_app. auto.
        -- apply (IH rk). auto.
  - apply hrel_flush. exact R.
  - destruct (e_coll e); [apply hrel_flush|]; exact R.
  - destruct (hrel_publish _ _ R) as [P1 P2]. constructor; cbn [ss_sets ss_store ss_pend t_sets t_pub t_pend]; try apply R; auto.
    + clear. induction np; cbn; congruence.
    + clear. induction np; cbn; constructor; auto.
Qed.

Lemma hrel_init : forall np, hrel (sinit np) (mktr [] [] (repeat [] np)).
Proof.
  intros np. constructor; cbn; auto.
  - clear. induction np; cbn; congruence.
  - clear. induction np; cbn; constructor; auto.
Qed.

Lemma hrel_run : forall e cfg cv ops sp t h, hrel sp t -> ok_run e cfg cv sp h ops ->
  hrel (fst (srun (e_coll e) sp ops)) (fold_left (tstep (e_coll e)) ops t).
Proof.
  intros e cfg cv. induction ops as [|o ops IH]; intros sp t h R H; [exact R|]. destruct H as [H1 H2].
  cbn [srun fold_left]. pose proof (hrel_step _ _ _ _ _ _ _ R H1) as R1.
  destruct (sstep (e_coll e) sp o) as [sp1 out]. cbn [fst] in *. specialize (IH _ _ _ R1 H2).
  destruct (srun (e_coll e) sp1 ops). exact IH.
Qed.

Lemma srun_app : forall coll a b s, srun coll s (a ++ b) =
  (fst (srun coll (fst (srun coll s a)) b), snd (srun coll s a) ++ snd (srun coll (fst (srun coll s a)) b)).
Proof.
  induction a as [|o a IH]; intros b s.
  - cbn [app srun fst snd]. destruct (srun coll s b); reflexivity.
  - cbn [app srun]. destruct (sstep coll s o) as [s1 o1]. rewrite IH.
    destruct (srun coll s1 a) as [s2 o2]. cbn [fst snd app]. destruct (srun coll s2 b). reflexivity.
Qed.

Lemma ok_run_app : forall e cfg cv a b s h, ok_run e cfg cv s h (a ++ b) ->
  ok_run e cfg cv s h a /\ exists h', ok_run e cfg cv (fst (srun (e_coll e) s a)) h' b.
Proof.
  induction a as [|o a IH]; intros b s h H; [split; [exact I|]; exists h; exact H|]. destruct H as [H1 H2].
  destruct (IH _ _ _ H2) as [I1 (h' & I2)]. split; [split; auto|]. exists h'. cbn [srun].
  destruct (sstep (e_coll e) s o) as [s1 o1]. cbn [fst] in *. destruct (srun (e_coll e) s1 a). exact I2.
Qed.

Lemma elems_concat : forall es vals, 0 < es -> Forall (fun v => Zlen v = es) vals -> elems es (concat vals) = vals.
Proof.
  intros es vals He H. unfold elems.
  assert (HL : (length vals <= length (concat vals))%nat).
  { induction H as [|v vals Hv _ IH]; [auto|]. cbn [concat length]. rewrite app_length. unfold Zlen in Hv. lia. }
  revert HL. generalize (length (concat vals)) as fuel. induction H as [|v vals Hv _ IH]; intros fuel Hf.
  - destruct fuel; reflexivity.
  - destruct fuel as [|fuel]; [cbn in Hf; lia|]. cbn [chunk concat].
    destruct (v ++ concat vals) as [|z l] eqn:E; [destruct v; [unfold Zlen in Hv; cbn in Hv; lia|discriminate]|]. rewrite <- E.
    unfold Zlen in Hv. replace (Z.to_nat es) with (length v) by lia.
    rewrite firstn_app, firstn_all, Nat.sub_diag. rewrite skipn_app, skipn_all, Nat.sub_diag. cbn [firstn skipn app]. rewrite app_nil_r.
    f_equal. replace (length v) with (Z.to_nat es) by lia. apply IH. cbn in Hf. lia.
Qed.

Lemma zseq_nth : forall n k, (k < Z.to_nat n)%nat -> nth_error (zseq n) k = Some (Z.of_nat k).
Proof.
  intros n k H. unfold zseq. rewrite nth_error_map. 
  assert (E : nth_error (seq 0 (Z.to_nat n)) k = Some k).
  { rewrite (nth_error_nth' _ 0%nat) by (rewrite seq_length; auto). rewrite seq_nth by auto. reflexivity. }
  rewrite E. reflexivity.
Qed.

Lemma last_assigned_good : forall sets did c l v, Forall (asg_good sets) l -> last_assigned did c l = Some v ->
  exists d, nth_error sets (Z.to_nat did) = Some d /\ Zlen v = di_esize d.
Proof.
  induction l as [|[[d' c'] w] l IH]; intros v H E; [discriminate|]. cbn [last_assigned] in E. inversion H as [|? ? H1 H2]; subst.
  destruct (last_assigned did c l) eqn:El; [injection E as ->; auto|].
  destruct (Z.eqb_spec d' did); cbn [andb] in E; [|discriminate]. destruct (coord_eqb c' c); [|discriminate]. injection E as <-. subst d'.
  destruct H1 as (d & A1 & A2). exists d. auto.
Qed.

Lemma sread_correct : forall e sp t c, hrel sp t -> ok_call e sp c -> correct_read t c (sread sp c).
Proof.
  intros e sp t c R (Hne & d & H1 & H2 & _). unfold sread. rewrite H1.
  assert (H0 : 0 <= rc_did c /\ nth_error (ss_sets sp) (Z.to_nat (rc_did c)) = Some d).
  { unfold set_of in H1. destruct (Z.ltb_spec (rc_did c) 0); [discriminate|]. auto. }
  destruct H0 as [H0 HN].
  pose proof (r_good _ _ R) as HG. rewrite Forall_forall in HG. destruct (HG d (nth_error_In _ _ HN)) as [G1 G2].
  exists d. rewrite (r_sets _ _ R). split; auto.
  set (vals := spec_read (ss_store sp) (rc_did c) (rc_sels c) (read_dflt d c)).
  pose proof (sel_size_fits _ _ H2) as HS.
  assert (HL : length (sel_coords (rc_sels c)) = Z.to_nat (sel_size (rc_sels c))).
  { enough (Z.of_nat (length (sel_coords (rc_sels c))) = sel_size (rc_sels c)) by lia.
    apply (sel_coords_length (di_ndim d)). eapply Forall_impl; [|exact H2]. intros b (B1 & B2 & B3 & B4). unfold blk_small. auto. }
  assert (Hlen : length (read_dflt d c) = Z.to_nat (sel_size (rc_sels c))).
  { unfold read_dflt, zseq. rewrite !map_length, seq_length. reflexivity. }
  assert (Hn : forall k x, nth_error (sel_coords (rc_sels c)) k = Some x -> nth_error vals k = Some (expected (t_pub t) d c k x)).
  { intros k x Hk. unfold vals, spec_read. rewrite nth_error_map.
    assert (Hlt : (k < Z.to_nat (sel_size (rc_sels c)))%nat) by (rewrite <- HL; exact (nth_error_lt _ _ _ _ Hk)).
    assert (Hd : nth_error (read_dflt d c) k = Some (match di_fill d with Some f => f | None => get (rc_mem c) (rc_buf c + di_esize d * Z.of_nat k) (Z.to_nat (di_esize d)) end)).
    { unfold read_dflt. rewrite nth_error_map, zseq_nth by auto. reflexivity. }
    rewrite (proj2 (nth_error_combine _ _ k _ _ _ _) (conj Hk Hd)). cbn [option_map fst snd]. rewrite (r_store _ _ R). reflexivity. }
  assert (Hvl : length vals = length (sel_coords (rc_sels c))).
  { unfold vals, spec_read. rewrite map_length, combine_length, Hlen, HL. lia. }
  assert (Hall : Forall (fun v => Zlen v = di_esize d) vals).
  { apply Forall_forall. intros v Hv. apply In_nth_error in Hv. destruct Hv as [k Hk].
    destruct (nth_error (sel_coords (rc_sels c)) k) as [x|] eqn:Ex.
    2:{ apply nth_error_None in Ex. apply nth_error_lt in Hk. lia. }
    rewrite (Hn k x Ex) in Hk. injection Hk as <-. unfold expected.
    destruct (last_assigned (rc_did c) x (t_pub t)) as [v|] eqn:El.
    - destruct (last_assigned_good _ _ _ _ _ (r_pub _ _ R) El) as (d' & D1 & D2). congruence.
    - destruct (di_fill d); auto. unfold Zlen, get. rewrite map_length, seq_length. lia. }
  rewrite (elems_concat _ _ G1 Hall). split; auto. split.
  - assert (E : forall l : list value, Forall (fun v => Zlen v = di_esize d) l -> Zlen (concat l) = di_esize d * Zlen l).
    { clear. induction 1 as [|v l Hv _ IH]; [unfold Zlen; cbn; lia|]. cbn [concat]. rewrite Zlen_app, Zlen_cons, IH, Hv. lia. }
    rewrite (E _ Hall). unfold Zlen. rewrite Hvl. reflexivity.
  - exact Hn.
Qed.

(** Every read of a history returns, element by element, what the user expects. *)
Theorem reads_correct : forall e cfg cv np f0 ops doff calls, ok_history e cfg cv np (ops ++ [ORead doff calls]) ->
  exists s outs bufs, run e (init cfg np f0) (ops ++ [ORead doff calls]) = Ok (s, outs ++ [bufs]) /\
    length outs = length ops /\
    Forall2 (correct_read (trace_of (e_coll e) np (ops ++ [ORead doff calls]))) calls bufs.
Proof.
  intros e cfg cv np f0 ops doff calls H. destruct (run_spec _ _ _ _ f0 _ H) as (s & Hs). destruct H as (_ & H1 & H2 & H3 & H4 & H5).
  rewrite srun_app in Hs. cbn [snd] in Hs.
  destruct (ok_run_app _ _ _ _ _ _ _ H5) as [A1 (h' & A2 & _)].
  pose proof (hrel_run _ _ _ _ _ _ _ (hrel_init np) A1) as R1. pose proof (hrel_step _ _ _ _ _ _ _ R1 A2) as R2.
  set (sp := fst (srun (e_coll e) (sinit np) ops)) in *.
  exists s, (snd (srun (e_coll e) (sinit np) ops)), (snd (sstep (e_coll e) sp (ORead doff calls))).
  split; [|split].
  - rewrite Hs. cbn [srun]. destruct (sstep (e_coll e) sp (ORead doff calls)). reflexivity.
  - clear. generalize (sinit np). induction ops as [|o ops IH]; intros s0; [reflexivity|]. cbn [srun]. destruct (sstep (e_coll e) s0 o) as [s1 o1].
    specialize (IH s1). destruct (srun (e_coll e) s1 ops). cbn in *. congruence.
  - unfold trace_of. rewrite fold_left_app. cbn [fold_left].
    cbn [ok_op] in A2. destruct A2 as (_ & _ & _ & K). cbn [sstep fst snd] in *.
    set (t2 := tstep (e_coll e) (fold_left (tstep (e_coll e)) ops (mktr [] [] (repeat [] np))) (ORead doff calls)) in *.
    assert (K' : Forall (ok_call e (if e_coll e then sflush sp else sp)) calls).
    { eapply Forall_impl; [|exact K]. intros c (Hc & d & Q). split; auto. exists d. unfold set_of in *. destruct (e_coll e); exact Q. }
    clear - R2 K'. induction K' as [|c l Hc _ IH]; cbn [map]; constructor; auto. eapply sread_correct; eauto.
Qed.
