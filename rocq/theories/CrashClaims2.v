(** Lemmas behind P_Crash.v, continued. *)
From Verif Require Import Base BaseProofs Spec MetaModel QueueModel FlushModel IndexModel ReadModel SysModel
  SysSpec History FlushProofs SysProofs HistoryProofs SysCheck Examples ClaimProofs2 ClaimProofs DefSpec DefProofs SizedProofs AnySpec AnyProofs TameSpec TameProofs AnyClaims CrashModel CrashSpec CrashProofs CrashClaims.
From Coq Require Import ZifyNat ZifyN.

(** The same, in terms of the API: the values of the last close. *)
Lemma crash_correct : forall e cfg np f0 pre doff np1 post np2 doff2 calls s1 dk outs1 xs dk',
  tame e cfg np (pre ++ OReopen doff np1 :: post) -> tame e cfg np (pre ++ [OReopen doff np2; ORead doff2 calls]) ->
  Forall (fun o => creates o = false) post ->
  crun e (init cfg np f0, disk0 cfg f0) (pre ++ [OReopen doff np1]) = Ok ((s1, dk), outs1) ->
  incl xs (issued e s1 post) -> Forall (fun x => writes_att x = false) xs -> apply_all dk xs = Ok dk' ->
  exists bufs, read_after_crash e np2 dk' doff2 calls = Ok bufs /\
    let t := trace_of true np pre in Forall2 (correct_read (mktr (t_sets t) (publish t) [])) calls bufs.
Proof.
  intros e cfg np f0 pre doff np1 post np2 doff2 calls s1 dk outs1 xs dk' T1 T2 Hc R X Ha A.
  destruct (crash_reads _ _ _ _ _ _ _ _ _ _ _ _ _ _ _ _ T1 T2 Hc R X Ha A) as (bufs & B1 & B2). exists bufs. split; auto.
  destruct (tame_reads _ _ _ f0 _ T2) as (s & outs & Q1 & Q2 & Q3). rewrite Q1 in B2. cbn [last_read] in B2. injection B2 as B2. cbn [snd] in B2.
  specialize (Q3 (S (length pre)) doff2 calls). rewrite nth_error_app2 in Q3 by lia. replace (S (length pre) - length pre)%nat with 1%nat in Q3 by lia.
  destruct (Q3 eq_refl) as (b & N1 & N2). clear Q3.
  assert (Eb : b = bufs).
  { rewrite app_length in Q2. cbn [length] in Q2. destruct outs as [|x outs] using rev_ind; [cbn in Q2; lia|]. rewrite last_last in B2. subst x. rewrite app_length in Q2. cbn [length] in Q2.
    rewrite nth_error_app2 in N1 by lia. replace (S (length pre) - length outs)%nat with 0%nat in N1 by lia. cbn in N1. congruence. }
  subst b. intros t. assert (Ef : firstn (S (length pre)) (pre ++ [OReopen doff np2; ORead doff2 calls]) = pre ++ [OReopen doff np2]).
  { change [OReopen doff np2; ORead doff2 calls] with ([OReopen doff np2] ++ [ORead doff2 calls]). rewrite app_assoc.
    replace (S (length pre)) with (length (pre ++ [OReopen doff np2])) by (rewrite app_length; cbn [length]; lia). rewrite firstn_app, Nat.sub_diag, firstn_all. apply app_nil_r. }
  rewrite Ef, trace_snoc in N2. cbn [tstep t_sets t_pub t_pend] in N2. fold t in N2.
  assert (Ec : concat (repeat (@nil assignment) np2) = []) by (clear; induction np2; auto). rewrite Ec, app_nil_r in N2. exact N2.
Qed.

(** ** Every crash point *)
Lemma kept_none : forall e ops s k, kept e s ops k = 0%nat -> (exists r, run e s ops = Ok r) -> Forall (fun x => writes_att x = false) (firstn k (issued e s ops)).
Proof.
  intros e. assert (F : forall s o, closes o = false -> Forall (fun x => writes_att x = false) (effects e s o)).
  { assert (F1 : forall doff g, Forall (fun x => writes_att x = false) (flush_effects doff g)) by (intros; unfold flush_effects; destruct (_ =? 0); constructor; auto; apply Forall_map; apply Forall_forall; auto).
    assert (F2 : forall g, Forall (fun x => writes_att x = false) (meta_effects g)) by (intros; unfold meta_effects; destruct (_ <? _); constructor; auto; apply Forall_map; apply Forall_forall; auto).
    intros s o H. destruct o; cbn [effects closes] in *; try discriminate; auto.
    - destruct (info_at _ _) as [[]|]; auto.
    - destruct (any_pending _); auto.
    - apply Forall_app. split; [destruct (_ && _); auto|destruct (g_metadirty _); auto]. }
  assert (F3 : forall s o k, (k < length (effects e s o))%nat -> Forall (fun x => writes_att x = false) (firstn k (effects e s o))).
  { intros s o k H. destruct (closes o) eqn:Ec.
    - destruct o; try discriminate. cbn [effects] in *. rewrite app_assoc in *. rewrite app_length in H. cbn [length] in H. rewrite firstn_app.
      replace (k - _)%nat with 0%nat by lia. rewrite app_nil_r. apply Forall_forall. intros x Hx. assert (Hx' : In x (flush_effects doff (s_g s) ++ meta_effects (flush_writes doff (s_g s)))) by (rewrite <- (firstn_skipn k); apply in_or_app; auto).
      assert (F1 : Forall (fun x => writes_att x = false) (flush_effects doff (s_g s) ++ meta_effects (flush_writes doff (s_g s)))).
      { apply Forall_app. split; [unfold flush_effects; destruct (_ =? 0); constructor; auto; apply Forall_map; apply Forall_forall; auto|unfold meta_effects; destruct (_ <? _); constructor; auto; apply Forall_map; apply Forall_forall; auto]. }
      rewrite Forall_forall in F1. apply F1. exact Hx'.
    - apply Forall_forall. intros x Hx. specialize (F s o Ec). rewrite Forall_forall in F. apply F. rewrite <- (firstn_skipn k). apply in_or_app. auto. }
  induction ops as [|o ops IH]; intros s k H (r & R); cbn [issued kept run] in *; [rewrite firstn_nil; constructor|].
  destruct (step e s o) as [[s' out]| |] eqn:E; cbn [bind fst snd] in R; try discriminate. rewrite firstn_app.
  destruct (Nat.leb_spec (length (effects e s o)) k) as [L|L].
  - destruct (kept e s' ops (k - length (effects e s o))) eqn:K; [|discriminate]. destruct (closes o) eqn:Ec; [discriminate|]. apply Forall_app. split.
    + rewrite firstn_all2 by lia. apply F. exact Ec.
    + destruct (run e s' ops) as [[a b]| |] eqn:R'; cbn [bind] in R; try discriminate. apply IH; eauto.
  - replace (k - length (effects e s o))%nat with 0%nat by lia. cbn [firstn]. rewrite app_nil_r. apply F3. exact L.
Qed.
Lemma kept_some : forall e ops s k j, kept e s ops k = S j -> (exists r, run e s ops = Ok r) ->
  exists pre doff np1 post s1 outs1 k', ops = pre ++ OReopen doff np1 :: post /\ length pre = j /\ run e s (pre ++ [OReopen doff np1]) = Ok (s1, outs1) /\
    firstn k (issued e s ops) = issued e s (pre ++ [OReopen doff np1]) ++ firstn k' (issued e s1 post) /\ Forall (fun x => writes_att x = false) (firstn k' (issued e s1 post)).
Proof.
  intros e. induction ops as [|o ops IH]; intros s k j H (r & R); cbn [issued kept run] in *; [discriminate|].
  destruct (Nat.leb_spec (length (effects e s o)) k) as [L|L]; [|discriminate].
  destruct (step e s o) as [[s' out]| |] eqn:E; cbn [bind fst snd] in R; try discriminate.
  destruct (run e s' ops) as [[a b]| |] eqn:R'; cbn [bind] in R; try discriminate.
  destruct (kept e s' ops (k - length (effects e s o))) as [|j'] eqn:K.
  - destruct (closes o) eqn:Ec; [|discriminate]. injection H as <-. destruct o; try discriminate.
    exists [], doff, np, ops, s', [out], (k - length (effects e s (OReopen doff np)))%nat. split; [reflexivity|]. split; [reflexivity|]. cbn [app run issued]. rewrite E. cbn [bind fst snd].
    split; [reflexivity|]. rewrite firstn_app, firstn_all2, app_nil_r by lia. split; [reflexivity|]. apply kept_none; eauto.
  - injection H as <-. destruct (IH _ _ _ K) as (pre & doff & np1 & post & s1 & outs1 & k' & I1 & I2 & I3 & I4 & I5); eauto.
    exists (o :: pre), doff, np1, post, s1, (out :: outs1), k'. split; [cbn; congruence|]. split; [cbn; lia|]. cbn [app run issued]. rewrite E. cbn [bind fst snd]. rewrite I3. cbn [bind fst snd].
    split; [reflexivity|]. split; auto. rewrite firstn_app, firstn_all2 by lia. rewrite I4, app_assoc. reflexivity.
Qed.

Lemma firstn_incl : forall A k (l : list A), incl (firstn k l) l.
Proof. intros A k l x H. rewrite <- (firstn_skipn k l). apply in_or_app. auto. Qed.
Lemma nth_pre : forall A (pre : list A) x post, nth_error (pre ++ x :: post) (length pre) = Some x.
Proof. intros. rewrite nth_error_app2, Nat.sub_diag by lia. reflexivity. Qed.

Lemma crash_point : forall e cfg np f0 ops k j doff np1 np2 doff2 calls dk,
  tame e cfg np ops -> kept e (init cfg np f0) ops k = S j -> nth_error ops j = Some (OReopen doff np1) ->
  Forall (fun o => creates o = false) (skipn (S j) ops) ->
  tame e cfg np (firstn j ops ++ [OReopen doff np2; ORead doff2 calls]) ->
  apply_all (disk0 cfg f0) (firstn k (issued e (init cfg np f0) ops)) = Ok dk ->
  exists bufs, read_after_crash e np2 dk doff2 calls = Ok bufs /\
    last_read (run e (init cfg np f0) (firstn j ops ++ [OReopen doff np2; ORead doff2 calls])) = Ok bufs /\
    let t := trace_of true np (firstn j ops) in Forall2 (correct_read (mktr (t_sets t) (publish t) [])) calls bufs.
Proof.
  intros e cfg np f0 ops k j doff np1 np2 doff2 calls dk T K N Hc T2 A. destruct (tame_reads _ _ _ f0 _ T) as (s & outs & R & _).
  destruct (kept_some _ _ _ _ _ K) as (pre & doff' & np' & post & s1 & outs1 & k' & I1 & I2 & I3 & I4 & I5); eauto. subst ops j.
  rewrite nth_pre in N. injection N as -> ->. rewrite I4, apply_app in A. destruct (close_open _ _ _ _ _ _ _ _ _ I3) as (dk1 & D1 & D2 & _). rewrite D1 in A. cbn [bind] in A.
  replace (firstn (length pre) (pre ++ OReopen doff np1 :: post)) with pre in * by (rewrite firstn_app, Nat.sub_diag; cbn; rewrite app_nil_r, firstn_all; auto).
  replace (skipn (S (length pre)) (pre ++ OReopen doff np1 :: post)) with post in Hc.
  2:{ change (OReopen doff np1 :: post) with ([OReopen doff np1] ++ post). rewrite app_assoc, skipn_app, skipn_all2 by (rewrite app_length; cbn [length]; lia).
      replace (S (length pre) - _)%nat with 0%nat by (rewrite app_length; cbn [length]; lia). reflexivity. }
  destruct (crash_reads _ _ _ _ _ _ _ _ _ _ _ _ _ _ _ _ T T2 Hc D2 (firstn_incl _ k' _) I5 A) as (bufs & B1 & B2).
  destruct (crash_correct _ _ _ _ _ _ _ _ _ _ _ _ _ _ _ _ T T2 Hc D2 (firstn_incl _ k' _) I5 A) as (bufs' & B3 & B4). rewrite B1 in B3. injection B3 as <-. eauto.
Qed.

(** ** Datasets created since the last close *)
Definition created_ok (n : Z) (x : effect) : Prop :=
  match x with
  | XAnchor k _ => n <= k
  | XId k v => v = k /\ n <= k
  | XAtt _ => False
  | _ => True
  end.
Definition strangers (n : Z) (dk : disk) : Prop :=
  forall k a, In (k, a) (dk_sets dk) -> n <= k -> an_id a = None \/ exists v, an_id a = Some v /\ n <= v.
Lemma in_at : forall A k (f : A -> A) l p, In p (at_key k f l) -> exists q, In q l /\ fst p = fst q /\ (p = q \/ (fst q = k /\ snd p = f (snd q))).
Proof.
  intros A k f l p H. unfold at_key in H. apply in_map_iff in H. destruct H as (q & E & H). exists q. split; auto. destruct (Z.eqb_spec (fst q) k); subst p; auto.
Qed.
Lemma at_in : forall A k (f : A -> A) l q, In q l -> exists p, In p (at_key k f l) /\ fst p = fst q.
Proof. intros A k f l q H. eexists. split; [apply in_map; exact H|]. cbn. destruct (fst q =? k); reflexivity. Qed.
Lemma strangers_apply : forall n dk x dk', created_ok n x -> strangers n dk -> apply dk x = Ok dk' -> strangers n dk' /\ dk_att dk' = dk_att dk /\
  (forall p, In p (dk_sets dk) -> exists q, In q (dk_sets dk') /\ fst q = fst p) /\ (forall k d, x = XAnchor k d -> exists q, In q (dk_sets dk') /\ fst q = k).
Proof.
  intros n dk x dk' C S A. destruct x; cbn [apply created_ok] in *; try contradiction.
  - destruct (find_key _ _); [discriminate|]. injection A as <-. cbn [dk_sets dk_att]. repeat split; auto.
    + intros k' a H Hk. apply in_app_or in H. destruct H as [H|[H|[]]]; [eapply S; eauto|]. injection H as <- <-. left. reflexivity.
    + intros p Hp. exists p. split; auto. apply in_or_app. auto.
    + intros k' d' E. injection E as <- <-. eexists. split; [apply in_or_app; right; left; reflexivity|reflexivity].
  - injection A as <-. cbn [dk_sets dk_att]. repeat split; auto; [| |discriminate].
    + intros k' a H Hk. apply in_at in H. destruct H as ([q1 q2] & H1 & H2 & [H5|[H3 H4]]); [injection H5 as -> ->; eapply S; eauto|]. cbn in *. subst. cbn. eapply S; eauto.
    + intros p Hp. destruct (at_in _ k (fun a => mkan (an_new a) (Some dims) (an_mdims a) (an_id a)) _ _ Hp) as (q & Q1 & Q2). eauto.
  - injection A as <-. cbn [dk_sets dk_att]. repeat split; auto; [| |discriminate].
    + intros k' a H Hk. apply in_at in H. destruct H as ([q1 q2] & H1 & H2 & [H5|[H3 H4]]); [injection H5 as -> ->; eapply S; eauto|]. cbn in *. subst. cbn. eapply S; eauto.
    + intros p Hp. destruct (at_in _ k (fun a => mkan (an_new a) (an_dims a) (Some mdims) (an_id a)) _ _ Hp) as (q & Q1 & Q2). eauto.
  - injection A as <-. cbn [dk_sets dk_att]. repeat split; auto; [| |discriminate].
    + intros k' a H Hk. apply in_at in H. destruct H as ([q1 q2] & H1 & H2 & [H5|[H3 H4]]); [injection H5 as -> ->; eapply S; eauto|]. cbn in *. subst. cbn. right. eexists. split; [reflexivity|]. lia.
    + intros p Hp. destruct (at_in _ k (fun a => mkan (an_new a) (an_dims a) (an_mdims a) (Some id)) _ _ Hp) as (q & Q1 & Q2). eauto.
  - destruct (existsb _ _); [discriminate|]. injection A as <-. repeat split; eauto. discriminate.
  - injection A as <-. repeat split; eauto. discriminate.
  - destruct (find_key _ _); [discriminate|]. injection A as <-. repeat split; eauto. discriminate.
  - injection A as <-. repeat split; eauto. discriminate.
Qed.
Lemma strangers_all : forall n xs dk dk', Forall (created_ok n) xs -> strangers n dk -> apply_all dk xs = Ok dk' -> strangers n dk' /\ dk_att dk' = dk_att dk /\
  (forall p, In p (dk_sets dk) -> exists q, In q (dk_sets dk') /\ fst q = fst p) /\ (forall k d, In (XAnchor k d) xs -> exists q, In q (dk_sets dk') /\ fst q = k).
Proof.
  intros n. induction xs as [|x xs IH]; intros dk dk' F S A; cbn [apply_all] in A; [injection A as <-; repeat split; eauto; intros; contradiction|]. inversion F; subst.
  destruct (apply dk x) as [dk1| |] eqn:E; cbn [bind] in A; try discriminate. destruct (strangers_apply _ _ _ _ H1 S E) as (S1 & A1 & P1 & N1).
  destruct (IH _ _ H2 S1 A) as (S2 & A2 & P2 & N2). split; auto. split; [congruence|]. split.
  - intros p Hp. destruct (P1 _ Hp) as (q & Q1 & Q2). destruct (P2 _ Q1) as (q' & Q3 & Q4). exists q'. split; auto. congruence.
  - intros k d [->|Hin]; [|eauto]. destruct (N1 _ _ eq_refl) as (q & Q1 & Q2). destruct (P2 _ Q1) as (q' & Q3 & Q4). exists q'. split; auto. congruence.
Qed.
Lemma open_length : forall cfg a infos infos', open_anchor cfg infos a = Ok infos' -> length infos' = length infos.
Proof.
  intros cfg a infos infos' H. unfold open_anchor in H. destruct (an_id a); [|discriminate]. destruct (info_at infos z) as [[d|]|]; try discriminate; [injection H as <-; reflexivity|].
  destruct (an_dims a), (an_mdims a); try discriminate. destruct (create_info _ _); cbn [bind] in H; try discriminate. injection H as <-. apply upd_length.
Qed.
Lemma open_stranger : forall cfg l infos infos' k a, In (k, a) l -> (an_id a = None \/ exists v, an_id a = Some v /\ Z.of_nat (length infos) <= v) -> open_anchors cfg infos l <> Ok infos'.
Proof.
  intros cfg. induction l as [|[k0 a0] l IH]; intros infos infos' k a Hin Hs H; [contradiction|]. cbn [open_anchors snd] in H.
  destruct (open_anchor cfg infos a0) as [i| |] eqn:E; cbn [bind] in H; try discriminate. destruct Hin as [Q|Hin].
  - injection Q as -> ->. unfold open_anchor in E. destruct Hs as [Hs|(v & Hs & Hv)]; rewrite Hs in E; [discriminate|]. unfold info_at in E. destruct (v <? 0); [discriminate|].
    rewrite (proj2 (nth_error_None infos (Z.to_nat v))) in E by lia. discriminate.
  - apply (IH i infos' k a Hin); auto. rewrite (open_length _ _ _ _ E). exact Hs.
Qed.

Lemma issued_created : forall e n ops s, n <= Zlen (g_infos (s_g s)) -> Forall (fun x => writes_att x = true \/ created_ok n x) (issued e s ops).
Proof.
  intros e n. induction ops as [|o ops IH]; intros s H; cbn [issued]; [constructor|]. apply Forall_app. split.
  - assert (F1 : forall doff g, Forall (fun x => writes_att x = true \/ created_ok n x) (flush_effects doff g)) by (intros; unfold flush_effects; destruct (_ =? 0); constructor; [right; exact Logic.I|]; apply Forall_map; apply Forall_forall; right; exact Logic.I).
    assert (F2 : forall g, Forall (fun x => writes_att x = true \/ created_ok n x) (meta_effects g)) by (intros; unfold meta_effects; destruct (_ <? _); constructor; [right; exact Logic.I|]; apply Forall_map; apply Forall_forall; right; exact Logic.I).
    destruct o; cbn [effects].
    + repeat (apply Forall_cons; [right; cbn; auto|]). apply Forall_nil.
    + destruct (info_at _ _) as [[]|]; repeat (apply Forall_cons; [right; exact Logic.I|]); apply Forall_nil.
    + constructor.
    + destruct (any_pending _); auto.
    + apply Forall_app. split; [destruct (_ && _); auto|destruct (g_metadirty _); auto].
    + apply Forall_app. split; auto. apply Forall_app. split; auto.
  - destruct (step e s o) as [[s' out]| |] eqn:E; [|constructor..]. apply IH. destruct (creates o) eqn:Ec.
    + destruct o; try discriminate. cbn [step] in E. destruct (create_info _ _); cbn [bind] in E; try discriminate. injection E as <- <-. cbn. unfold Zlen in *. rewrite app_length. lia.
    + apply step_infos in E; auto. apply Forall2_length in E. unfold Zlen in *. lia.
Qed.

(** A dataset created since the last close: the file cannot be opened. *)
Lemma created_lost : forall e cfg np f0 pre doff np1 post np2 s1 dk outs1 xs dk' k d s',
  crun e (init cfg np f0, disk0 cfg f0) (pre ++ [OReopen doff np1]) = Ok ((s1, dk), outs1) ->
  incl xs (issued e s1 post) -> Forall (fun x => writes_att x = false) xs -> apply_all dk xs = Ok dk' -> In (XAnchor k d) xs ->
  recover np2 dk' <> Ok s'.
Proof.
  intros e cfg np f0 pre doff np1 post np2 s1 dk outs1 xs dk' k d s' R X Ha A Hx Hr.
  assert (E1 : exists o, run e (init cfg np f0) (pre ++ [OReopen doff np1]) = Ok (s1, o)).
  { destruct (crun_run e (pre ++ [OReopen doff np1]) _ _ (init_synced cfg np f0)) as (Q & Q'). rewrite R in Q. cbn in Q. destruct (run e (init cfg np f0) (pre ++ [OReopen doff np1])) as [[s2 o2]| |]; try discriminate.
    destruct (Q' _ _ eq_refl) as (dk2 & Q1 & _). rewrite R in Q1. injection Q1 as <- _ _. eauto. }
  destruct E1 as (o1 & E1). destruct (close_open _ _ _ _ _ _ _ _ _ E1) as (dk1 & _ & Q1 & Q2 & Q3 & _). rewrite R in Q1. injection Q1 as <- _.
  set (n := Zlen (g_infos (s_g s1))).
  assert (F : Forall (created_ok n) xs).
  { pose proof (issued_created e n post s1 ltac:(unfold n; lia)) as F. rewrite Forall_forall in *. intros x Hin. destruct (F x (X x Hin)) as [W|W]; [|exact W]. rewrite (Ha x Hin) in W. discriminate. }
  assert (S : strangers n dk).
  { intros k0 a Hin Hk. exfalso. destruct Q2 as [_ _ _ _ (l & L1 & L2 & _)]. rewrite L1 in Hin. unfold number in Hin. apply in_combine_l in Hin. apply in_map_iff in Hin. destruct Hin as (i & <- & Hi). apply in_seq in Hi. unfold n, Zlen in Hk. lia. }
  destruct (strangers_all _ _ _ _ F S A) as (S' & A' & _ & N'). destruct (N' _ _ Hx) as ([k1 a1] & B1 & B2). cbn in B2. subst k1.
  assert (Hk : n <= k). { rewrite Forall_forall in F. exact (F _ Hx). }
  unfold recover in Hr. rewrite A', Q3 in Hr. unfold att_of in Hr. cbn [at_cfg at_ndset at_nldset at_nmdset] in Hr.
  destruct (open_anchors _ _ _) as [infos| |] eqn:E; cbn [bind] in Hr; try discriminate. revert E. apply (open_stranger _ _ _ _ k a1 B1).
  destruct (S' _ _ B1 Hk) as [W|(v & W1 & W2)]; [left; auto|right]. exists v. split; auto. rewrite repeat_length. unfold n, Zlen in *. lia.
Qed.
Lemma created_first : forall e cfg np f0 ops np2 xs dk k d s',
  incl xs (issued e (init cfg np f0) ops) -> Forall (fun x => writes_att x = false) xs -> apply_all (disk0 cfg f0) xs = Ok dk -> In (XAnchor k d) xs ->
  recover np2 dk <> Ok s'.
Proof.
  intros e cfg np f0 ops np2 xs dk k d s' X Ha A Hx Hr.
  assert (F : Forall (created_ok 0) xs).
  { pose proof (issued_created e 0 ops (init cfg np f0) ltac:(unfold Zlen; lia)) as F. rewrite Forall_forall in *. intros x Hin. destruct (F x (X x Hin)) as [W|W]; [|exact W]. rewrite (Ha x Hin) in W. discriminate. }
  assert (S0 : strangers 0 (disk0 cfg f0)) by (intros ? ? H; cbn in H; contradiction).
  destruct (strangers_all 0 _ _ _ F S0 A) as (S' & A' & _ & N'). destruct (N' _ _ Hx) as ([k1 a1] & B1 & B2). cbn in B2. subst k1.
  assert (Hk : 0 <= k). { rewrite Forall_forall in F. exact (F _ Hx). }
  unfold recover in Hr. rewrite A' in Hr. cbn [disk0 dk_att at_cfg at_ndset at_nldset at_nmdset] in Hr.
  destruct (open_anchors _ _ _) as [infos| |] eqn:E; cbn [bind] in Hr; try discriminate. revert E. apply (open_stranger _ _ _ _ k a1 B1).
  destruct (S' _ _ B1 Hk) as [W|(v & W1 & W2)]; [left; auto|right]. exists v. split; auto.
Qed.

(** ** A log dataset created since the last close: no data can be stored any more *)
Definition stuck (s : sys) (dk : disk) : Prop :=
  In (g_nldset (s_g s)) (dk_logs dk) /\ g_metadirty (s_g s) = false /\ Forall (tidy false) (g_ranks (s_g s)).

Lemma apply_logs : forall dk x dk' n, apply dk x = Ok dk' -> In n (dk_logs dk) -> In n (dk_logs dk').
Proof.
  intros dk x dk' n A H. destruct x; cbn [apply] in A;
    repeat match type of A with context [match ?y with _ => _ end] => destruct y; try discriminate end; injection A as <-; cbn; auto. apply in_or_app. auto.
Qed.
Lemma apply_all_logs : forall xs dk dk' n, apply_all dk xs = Ok dk' -> In n (dk_logs dk) -> In n (dk_logs dk').
Proof.
  induction xs as [|x xs IH]; intros dk dk' n A H; cbn [apply_all] in A; [injection A as <-; auto|]. destruct (apply dk x) eqn:E; cbn [bind] in A; try discriminate. eauto using apply_logs.
Qed.
Lemma stuck_flush : forall doff g dk rest dk', Forall (tidy false) (g_ranks g) -> In (g_nldset g) (dk_logs dk) ->
  apply_all dk (flush_effects doff g ++ rest) = Ok dk' -> any_pending g = false.
Proof.
  intros doff g dk rest dk' T H A. unfold flush_effects in A. destruct (sizes_zero _ _ T) as (S1 & S2). destruct (Z.eqb_spec (Zsum (map (fun st => local_size (unflushed st)) (g_ranks g))) 0) as [Q|Q]; [apply S2; exact Q|].
  cbn [app apply_all apply] in A. replace (existsb (Z.eqb (g_nldset g)) (dk_logs dk)) with true in A; [discriminate|]. symmetry. apply existsb_exists. exists (g_nldset g). split; auto. apply Z.eqb_refl.
Qed.
Lemma upd_nth_in : forall A (l : list A) k v x, In x (upd_nth k v l) -> x = v \/ In x l.
Proof. induction l as [|a l IH]; intros [|k] v x H; cbn in *; [tauto..|destruct H; auto|]. destruct H as [H|H]; auto. destruct (IH _ _ _ H); auto. Qed.
Lemma upd_nth_has : forall A (l : list A) k v, (k < length l)%nat -> In v (upd_nth k v l).
Proof. induction l as [|a l IH]; intros [|k] v H; cbn in *; try lia; auto. right. apply IH. lia. Qed.
Lemma upd_nth_old : forall A (l : list A) k v x y, nth_error l k = Some y -> In x l -> x = y \/ In x (upd_nth k v l).
Proof. induction l as [|a l IH]; intros [|k] v x y E H; cbn in *; try discriminate; [injection E as ->; destruct H; auto|]. destruct H as [->|H]; auto. destruct (IH _ v _ _ E H); auto. Qed.

Lemma stuck_step : forall e s dk o s' dk' out, with_data o -> stuck s dk -> cstep e (s, dk) o = Ok ((s', dk'), out) ->
  stuck s' dk' /\ (any_pending (s_g s) = true -> any_pending (s_g s') = true /\ closes o = false) /\ (puts o = true -> any_pending (s_g s') = true).
Proof.
  intros e s dk o s' dk' out W (S1 & S2 & S3) H. unfold cstep in H. cbn [fst snd] in H. destruct (apply_all dk (effects e s o)) as [dk1| |] eqn:A; cbn [bind] in H; try discriminate.
  destruct (step e s o) as [[s1 o1]| |] eqn:E; cbn [bind fst snd] in H; try discriminate. injection H as <- <- <-.
  pose proof (apply_all_logs _ _ _ _ A S1) as L. destruct o; cbn [step effects with_data] in *.
  - destruct (create_info _ _); cbn [bind] in E; try discriminate. injection E as <- <-. cbn. repeat split; auto; discriminate.
  - destruct (info_at _ _) as [[d|]|]; try discriminate. destruct (set_extent _ _ _) as [d' []]; try discriminate. injection E as <- <-. cbn. repeat split; auto; discriminate.
  - destruct (nth_error (g_ranks (s_g s)) rk) as [st|] eqn:N; try discriminate. destruct (ds_write _ _ _ _ _ _ _) as [st'| |] eqn:D; cbn [bind] in E; try discriminate. injection E as <- <-.
    assert (Hst : tidy false st) by (rewrite Forall_forall in S3; apply S3; eapply nth_error_In; eauto). pose proof (ds_write_tidy _ _ _ _ _ _ _ _ false W D Hst) as Ht.
    assert (Pn : (num_pending st <= num_pending st')%nat /\ (sels <> [] -> num_pending st' <> 0%nat)).
    { unfold ds_write in D. destruct sels as [|b bs]; [injection D as <-; split; [lia|tauto]|]. destruct (nth_error (g_infos (s_g s)) _) as [[dip|]|]; try discriminate. destruct (finish_meta _ _ _ _) as [[[r tbl] zb]| |]; cbn [bind] in D; try discriminate.
      injection D as <-. unfold num_pending. cbn [k_wreqs k_nflushed]. rewrite app_length. cbn [length]. destruct Hst as (H1 & _). split; [lia|intros _; lia]. }
    split; [|split].
    + split; [exact L|]. split; [exact S2|]. cbn. apply Forall_forall. intros x Hx. apply upd_nth_in in Hx. destruct Hx as [->|Hx]; auto. rewrite Forall_forall in S3. auto.
    + intros P. split; auto. unfold any_pending in *. cbn. apply existsb_exists in P. destruct P as (x & P1 & P2). apply existsb_exists. apply negb_true_iff, Nat.eqb_neq in P2.
      destruct (upd_nth_old _ _ _ st' _ _ N P1) as [->|Hx].
      * exists st'. split; [apply upd_nth_has; apply nth_error_Some; congruence|]. apply negb_true_iff, Nat.eqb_neq. lia.
      * exists x. split; auto. apply negb_true_iff, Nat.eqb_neq. auto.
    + intros P. destruct sels; [discriminate|]. unfold any_pending. cbn. apply existsb_exists. exists st'. split; [apply upd_nth_has; apply nth_error_Some; congruence|]. apply negb_true_iff, Nat.eqb_neq. apply Pn. discriminate.
  - destruct (any_pending (s_g s)) eqn:P.
    + rewrite <- (app_nil_r (flush_effects _ _)) in A. apply stuck_flush in A; auto. congruence.
    + injection E as <- <-. cbn [s_g]. repeat split; auto; try discriminate; congruence.
  - destruct (e_coll e && any_pending (s_g s)) eqn:P.
    + apply andb_true_iff in P. destruct P as [_ P]. apply stuck_flush in A; auto. congruence.
    + rewrite S2 in E. destruct (read_each _ _ _ _); cbn [bind] in E; try discriminate. injection E as <- <-. cbn [s_g]. repeat split; auto; discriminate.
  - pose proof (stuck_flush _ _ _ _ _ S3 S1 A) as P. destruct (reopen_infos _ _); cbn [bind] in E; try discriminate. injection E as <- <-. cbn [s_g closes puts].
    split; [|split; [congruence|discriminate]]. unfold close_file. rewrite no_pending_flush by (rewrite ?S2; auto). split; [exact L|]. split; [reflexivity|]. cbn. clear. induction np; cbn; constructor; auto. repeat split; cbn; auto.
Qed.
Lemma stuck_run : forall e ops s dk s' dk' outs, Forall with_data ops -> stuck s dk -> crun e (s, dk) ops = Ok ((s', dk'), outs) ->
  stuck s' dk' /\ (any_pending (s_g s) = true \/ existsb puts ops = true -> any_pending (s_g s') = true).
Proof.
  intros e. induction ops as [|o ops IH]; intros s dk s' dk' outs W S H; cbn [crun] in H; [injection H as <- <- <-; split; auto; intros [Q|Q]; auto; discriminate|].
  inversion W as [|? ? W1 W2]; subst. destruct (cstep e (s, dk) o) as [[[s1 dk1] o1]| |] eqn:E; cbn [bind fst snd] in H; try discriminate. destruct (crun e (s1, dk1) ops) as [[[a b] c]| |] eqn:R; cbn [bind fst snd] in H; try discriminate.
  injection H as <- <- <-. destruct (stuck_step _ _ _ _ _ _ _ W1 S E) as (T1 & T2 & T3). destruct (IH _ _ _ _ _ W2 T1 R) as (I1 & I2). split; auto. cbn [existsb]. intros Q. apply I2.
  destruct Q as [Q|Q]; [left; apply T2; exact Q|]. apply orb_true_iff in Q. destruct Q; auto.
Qed.

Lemma recover_fields : forall np dk s, recover np dk = Ok s -> g_nldset (s_g s) = at_nldset (dk_att dk) /\ g_metadirty (s_g s) = false /\ g_ranks (s_g s) = repeat rank0 np.
Proof.
  intros np dk s H. unfold recover in H. destruct (open_anchors _ _ _); cbn [bind] in H; try discriminate. destruct (open_mds _ _); cbn [bind] in H; try discriminate. injection H as <-. repeat split.
Qed.
Lemma apply_att : forall dk x dk', writes_att x = false -> apply dk x = Ok dk' -> dk_att dk' = dk_att dk.
Proof.
  intros dk x dk' W A. destruct x; cbn [apply writes_att] in *; try discriminate;
    repeat match type of A with context [match ?y with _ => _ end] => destruct y; try discriminate end; injection A as <-; reflexivity.
Qed.
Lemma apply_all_att : forall xs dk dk', Forall (fun x => writes_att x = false) xs -> apply_all dk xs = Ok dk' -> dk_att dk' = dk_att dk.
Proof.
  induction xs as [|x xs IH]; intros dk dk' W A; cbn [apply_all] in A; [congruence|]. inversion W; subst. destruct (apply dk x) eqn:E; cbn [bind] in A; try discriminate.
  rewrite (IH _ _ H2 A). eapply apply_att; eauto.
Qed.
Lemma apply_all_log : forall xs dk dk' n, In (XLog n) xs -> apply_all dk xs = Ok dk' -> In n (dk_logs dk').
Proof.
  induction xs as [|x xs IH]; intros dk dk' n Hx A; cbn [apply_all] in A; [contradiction|]. destruct Hx as [->|Hi].
  - destruct (apply dk (XLog n)) as [dk1| |] eqn:E; cbn [bind] in A; try discriminate. eapply apply_all_logs; eauto. cbn [apply] in E. destruct (existsb _ _); [discriminate|]. injection E as <-. cbn. apply in_or_app. cbn. auto.
  - destruct (apply dk x) as [dk1| |] eqn:E; cbn [bind] in A; try discriminate. eauto.
Qed.
Lemma crun_att : forall e cfg np f0 pre doff np1 s1 dk outs1,
  crun e (init cfg np f0, disk0 cfg f0) (pre ++ [OReopen doff np1]) = Ok ((s1, dk), outs1) -> dk_att dk = att_of (s_g s1) /\ synced (s_g s1) dk.
Proof.
  intros e cfg np f0 pre doff np1 s1 dk outs1 R.
  destruct (crun_run e (pre ++ [OReopen doff np1]) _ _ (init_synced cfg np f0)) as (Q & Q'). rewrite R in Q. cbn in Q. destruct (run e (init cfg np f0) (pre ++ [OReopen doff np1])) as [[s2 o2]| |] eqn:E1; try discriminate.
  destruct (Q' _ _ eq_refl) as (dk2 & Q1 & _). rewrite R in Q1. injection Q1 as <- <- <-. destruct (close_open _ _ _ _ _ _ _ _ _ E1) as (dk1 & _ & Q1 & Q2 & Q3 & _). rewrite R in Q1. injection Q1 as <-. auto.
Qed.

Lemma no_more_data : forall e cfg np f0 pre doff np1 post np2 s1 dk outs1 xs dk' s' ops doff3 np3 r,
  crun e (init cfg np f0, disk0 cfg f0) (pre ++ [OReopen doff np1]) = Ok ((s1, dk), outs1) ->
  incl xs (issued e s1 post) -> Forall (fun x => writes_att x = false) xs -> apply_all dk xs = Ok dk' -> In (XLog (g_nldset (s_g s1))) xs ->
  recover np2 dk' = Ok s' -> Forall with_data ops ->
  crun e (s', dk') (ops ++ [OReopen doff3 np3]) = Ok r -> existsb puts ops = false.
Proof.
  intros e cfg np f0 pre doff np1 post np2 s1 dk outs1 xs dk' s' ops doff3 np3 r R X Ha A Hx Hr W C. destruct (crun_att _ _ _ _ _ _ _ _ _ _ R) as (Q3 & _).
  assert (S : stuck s' dk').
  { destruct (recover_fields _ _ _ Hr) as (F1 & F2 & F3). rewrite (apply_all_att _ _ _ Ha A), Q3 in F1. split; [rewrite F1; eapply apply_all_log; eauto|]. split; auto. rewrite F3. clear. induction np2; cbn; constructor; auto. repeat split; cbn; auto. }
  destruct r as [[s2 dk2] o2].
  assert (C' : exists s3 dk3 o3, crun e (s', dk') ops = Ok ((s3, dk3), o3) /\ exists q, cstep e (s3, dk3) (OReopen doff3 np3) = Ok q).
  { clear - C. revert s' dk' s2 dk2 o2 C. induction ops as [|o ops IH]; intros; cbn [app crun] in *.
    - exists s', dk', []. split; auto. destruct (cstep e (s', dk') (OReopen doff3 np3)); cbn [bind] in C; try discriminate. eauto.
    - destruct (cstep e (s', dk') o) as [[[s1 dk1] o1]| |]; cbn [bind fst snd] in *; try discriminate. destruct (crun e (s1, dk1) (ops ++ _)) as [[[a b] c]| |] eqn:E; cbn [bind fst snd] in C; try discriminate.
      destruct (IH _ _ _ _ _ E) as (s3 & dk3 & o3 & I1 & I2). rewrite I1. cbn [bind fst snd]. eauto 6. }
  destruct C' as (s3 & dk3 & o3 & C1 & ([[s4 dk4] o4] & C2)). destruct (stuck_run _ _ _ _ _ _ _ W S C1) as (T1 & T2). destruct (stuck_step _ _ _ (OReopen doff3 np3) _ _ _ Logic.I T1 C2) as (_ & T3 & _).
  destruct (existsb puts ops) eqn:Q; auto. destruct (T3 (T2 (or_intror eq_refl))) as [_ F]. discriminate.
Qed.

(** ** Nothing created since the last close: the file can be used as before *)
Lemma recover_remains_synced : forall np g hi dk, remains g hi dk -> 0 <= g_nldset g -> dk_logs dk = zseq (g_nldset g) -> (exists ms, dk_mds dk = number ms /\ map md_of ms = g_mdsets g) ->
  exists s, recover np dk = Ok s /\ synced (s_g s) dk.
Proof.
  intros np g hi dk [R1 R2 (ms & R3 & R4) (l & infos & R5 & (R6 & R7) & R8)] N L M.
  assert (R : remains g hi dk) by (constructor; eauto; exists l, infos; repeat split; auto).
  exists (mksys (mkg (g_cfg g) infos (repeat rank0 np) (dk_file dk) (g_mdsets g) (g_nldset g) false) None). split.
  - unfold recover. rewrite R2. unfold att_of. cbn [at_cfg at_ndset at_nldset at_nmdset].
    rewrite R5. unfold number. pose proof (Forall2_length _ _ _ _ _ R8) as L'. replace (Z.to_nat (Zlen (g_infos g))) with (length l) by (unfold Zlen; lia).
    pose proof (open_anchors_ok (g_cfg g) l infos 0 [] ltac:(intros; apply R7; auto) R6 eq_refl) as O. cbn [app] in O. rewrite O. cbn [bind].
    assert (Lm : Zlen (g_mdsets g) = Zlen ms) by (rewrite <- R3; unfold Zlen; rewrite map_length; reflexivity).
    rewrite (open_mds_ok _ ms).
    + cbn [bind]. rewrite R3, nth_zseq. reflexivity.
    + intros n H. apply zseq_range in H. lia.
    + intros n H. apply zseq_range in H. apply R4. lia.
    + apply Forall_forall. intros n H. apply zseq_range in H. unfold Zlen in *. lia.
  - constructor; cbn [s_g g_file g_nldset g_mdsets g_cfg g_infos]; auto. exists l. split; auto. split; auto.
Qed.
Lemma keeps_all : forall xs dk dk', Forall (fun x => keeps_objects x = true) xs -> apply_all dk xs = Ok dk' -> dk_logs dk' = dk_logs dk /\ dk_mds dk' = dk_mds dk.
Proof.
  induction xs as [|x xs IH]; intros dk dk' F A; cbn [apply_all] in A; [injection A as <-; auto|]. inversion F; subst. destruct (apply dk x) as [dk1| |] eqn:E; cbn [bind] in A; try discriminate.
  destruct (IH _ _ H2 A) as (I1 & I2). rewrite I1, I2. destruct x; try discriminate; cbn [apply] in E; injection E as <-; auto.
Qed.
Lemma session_remains : forall e cfg np f0 pre doff np1 post s1 dk outs1 xs dk',
  tame e cfg np (pre ++ OReopen doff np1 :: post) -> Forall (fun o => creates o = false) post ->
  crun e (init cfg np f0, disk0 cfg f0) (pre ++ [OReopen doff np1]) = Ok ((s1, dk), outs1) ->
  incl xs (issued e s1 post) -> Forall (fun x => writes_att x = false) xs -> apply_all dk xs = Ok dk' ->
  synced (s_g s1) dk /\ exists hi, remains (s_g s1) hi dk'.
Proof.
  intros e cfg np f0 pre doff np1 post s1 dk outs1 xs dk' T1 Hc R X Ha A.
  destruct (tame_ok _ _ _ _ T1) as (cv1 & K1). clear T1. destruct K1 as (_ & N1 & N2 & N3 & Hs & K1).
  change (OReopen doff np1 :: post) with ([OReopen doff np1] ++ post) in K1, N3. rewrite !app_length in N3. cbn [length] in N3.
  apply ok_run_split in K1. destruct K1 as (Kp & K1). apply ok_run_split in K1. destruct K1 as (Kr & Kpost).
  set (sp := fst (srun (e_coll e) (sinit np) pre)) in *. set (h := hrun e (sinit np) (mkhs 0 (repeat [] np)) pre) in *.
  destruct (run_inv e cfg cv1 pre _ _ _ 0 _ _ _ (inv_init e cfg cv1 np f0 N1 N2) Hs Kp ltac:(lia)) as (s & outs & C & ms & grs & Rp & V). fold sp in V. fold h in V.
  destruct (run_inv e cfg cv1 [OReopen doff np1] _ _ _ _ _ _ _ V Hs Kr ltac:(cbn; lia)) as (s1' & o1 & C' & ms' & grs' & R1 & V1).
  assert (E1 : run e (init cfg np f0) (pre ++ [OReopen doff np1]) = Ok (s1', outs ++ o1)) by (rewrite run_app1, Rp; cbn [bind fst snd]; rewrite R1; reflexivity).
  destruct (close_open _ _ _ _ _ _ _ _ _ E1) as (dk1 & _ & Q1 & Q2 & Q3 & _). rewrite R in Q1. injection Q1 as Es Edk _. subst s1' dk1. split; auto.
  cbn [srun fst snd hrun] in V1, Kpost.
  set (hi := hs_hi (hflush sp h doff)). exists hi.
  assert (Hhi1 : hi <= hs_hi (hstep e sp h (OReopen doff np1))) by (cbn [hstep hs_hi]; unfold hi; lia).
  assert (Hx : Forall (harmless (s_g s1) hi) xs).
  { pose proof (issued_harmless e cfg cv1 (s_g s1) hi post _ _ _ _ _ _ _ V1 Hs Kpost ltac:(cbn [length]; lia) Hc (like_all _) ltac:(lia) Hhi1) as F.
    rewrite Forall_forall in *. intros x Hin. specialize (Ha x Hin). destruct (F x (X x Hin)) as [W|W]; [congruence|exact W]. }
  exact (harmless_all _ _ _ _ _ (synced_remains _ hi _ Q2 Q3) Hx A).
Qed.

Lemma crash_usable : forall e cfg np f0 pre doff np1 post np2 s1 dk outs1 xs dk',
  tame e cfg np (pre ++ OReopen doff np1 :: post) -> Forall (fun o => creates o = false) post ->
  crun e (init cfg np f0, disk0 cfg f0) (pre ++ [OReopen doff np1]) = Ok ((s1, dk), outs1) ->
  incl xs (issued e s1 post) -> Forall (fun x => keeps_objects x = true) xs -> apply_all dk xs = Ok dk' ->
  exists s, recover np2 dk' = Ok s /\ forall ops, observed (crun e (s, dk') ops) = observed (run e s ops).
Proof.
  intros e cfg np f0 pre doff np1 post np2 s1 dk outs1 xs dk' T Hc R X Hk A.
  assert (Ha : Forall (fun x => writes_att x = false) xs) by (eapply Forall_impl; [|exact Hk]; intros [] Q; try discriminate; reflexivity).
  destruct (session_remains _ _ _ _ _ _ _ _ _ _ _ _ _ T Hc R X Ha A) as (Y & hi & RM). destruct (keeps_all _ _ _ Hk A) as (K1 & K2). destruct Y as [Y1 Y2 Y3 Y4 Y5].
  destruct (recover_remains_synced np2 _ _ _ RM Y2) as (s & S1 & S2); [congruence|rewrite K2; exact Y4|]. exists s. split; auto. intros ops. apply crun_run. exact S2.
Qed.
Lemma nothing_issued : forall e cfg np f0 pre doff np1 np2 s1 dk outs1 s2 outs2,
  crun e (init cfg np f0, disk0 cfg f0) (pre ++ [OReopen doff np1]) = Ok ((s1, dk), outs1) -> run e (init cfg np f0) (pre ++ [OReopen doff np2]) = Ok (s2, outs2) ->
  recover np2 dk = Ok s2 /\ forall ops, observed (crun e (s2, dk) ops) = observed (run e s2 ops).
Proof.
  intros e cfg np f0 pre doff np1 np2 s1 dk outs1 s2 outs2 R1 R2. destruct (close_open _ _ _ _ _ _ _ _ _ R2) as (dk2 & Q1 & Q2 & Q3 & Q4 & Q5).
  assert (E : dk2 = dk); [|subst dk2; split; auto; intros ops; apply crun_run; exact Q3].
  destruct (crun_run e (pre ++ [OReopen doff np1]) _ _ (init_synced cfg np f0)) as (Q & Q'). rewrite R1 in Q. cbn in Q. destruct (run e (init cfg np f0) (pre ++ [OReopen doff np1])) as [[s3 o3]| |] eqn:E1; try discriminate.
  destruct (Q' _ _ eq_refl) as (dk3 & P1 & _ & P2). rewrite R1 in P1. injection P1 as <- <- <-.
  assert (I : issued e (init cfg np f0) (pre ++ [OReopen doff np1]) = issued e (init cfg np f0) (pre ++ [OReopen doff np2])).
  { clear - R2 E1. rewrite run_app1 in R2, E1. revert R2 E1. generalize (init cfg np f0) as s. revert outs2 outs1. induction pre as [|o pre IH]; intros; cbn [app issued run bind fst snd] in *.
    - f_equal. destruct (step e s (OReopen doff np1)) as [[]| |], (step e s (OReopen doff np2)) as [[]| |]; reflexivity.
    - f_equal. destruct (step e s o) as [[s4 o4]| |]; cbn [bind fst snd] in *; try discriminate. destruct (run e s4 pre) as [[s5 o5]| |] eqn:E; cbn [bind fst snd] in *; try discriminate.
      destruct (step e s5 (OReopen doff np2)) as [[s6 o6]| |] eqn:E6; cbn [bind fst snd] in *; try discriminate. destruct (step e s5 (OReopen doff np1)) as [[s7 o7]| |] eqn:E7; cbn [bind fst snd] in *; try discriminate.
      injection R2 as <- <-. injection E1 as <- <-. eapply IH; rewrite E; cbn [bind fst snd]; [rewrite E6|rewrite E7]; cbn [bind fst snd]; reflexivity. }
  congruence.
Qed.

(** ** Closing is all or nothing *)
Lemma crun_app : forall e ops1 ops2 c, crun e c (ops1 ++ ops2) = do p <- crun e c ops1; do q <- crun e (fst p) ops2; Ok (fst q, snd p ++ snd q).
Proof.
  intros e. induction ops1 as [|o ops1 IH]; intros ops2 c; cbn [app crun bind fst snd].
  - destruct (crun e c ops2) as [[? ?]| |]; reflexivity.
  - destruct (cstep e c o) as [[c1 o1]| |]; cbn [bind fst snd]; auto. rewrite IH. destruct (crun e c1 ops1) as [[c2 o2]| |]; cbn [bind fst snd]; auto.
    destruct (crun e c2 ops2) as [[c3 o3]| |]; cbn [bind fst snd]; auto.
Qed.
Lemma crun_issued : forall e ops s dk s' dk' outs, crun e (s, dk) ops = Ok ((s', dk'), outs) -> apply_all dk (issued e s ops) = Ok dk' /\ run e s ops = Ok (s', outs).
Proof.
  intros e. induction ops as [|o ops IH]; intros s dk s' dk' outs H; cbn [crun issued run] in *; [injection H as <- <- <-; auto|]. unfold cstep in H. cbn [fst snd] in H. rewrite apply_app.
  destruct (apply_all dk (effects e s o)) as [dk1| |]; cbn [bind] in *; try discriminate. destruct (step e s o) as [[s1 o1]| |]; cbn [bind fst snd] in *; try discriminate.
  destruct (crun e (s1, dk1) ops) as [[[s2 dk2] o2]| |] eqn:E; cbn [bind fst snd] in *; try discriminate. injection H as <- <- <-. destruct (IH _ _ _ _ _ E) as (I1 & I2). rewrite I1, I2. auto.
Qed.
Lemma issued_app : forall e ops1 ops2 s s1 o1, run e s ops1 = Ok (s1, o1) -> issued e s (ops1 ++ ops2) = issued e s ops1 ++ issued e s1 ops2.
Proof.
  intros e. induction ops1 as [|o ops1 IH]; intros ops2 s s1 o1 H; cbn [app run issued] in *; [injection H as -> <-; reflexivity|].
  destruct (step e s o) as [[s2 o2]| |]; cbn [bind fst snd] in *; try discriminate. destruct (run e s2 ops1) as [[s3 o3]| |] eqn:E; cbn [bind fst snd] in *; try discriminate.
  injection H as -> <-. rewrite (IH _ _ _ _ E), app_assoc. reflexivity.
Qed.
Lemma no_att_step : forall e s o, closes o = false -> Forall (fun x => writes_att x = false) (effects e s o).
Proof.
  intros e s o H. assert (F1 : forall doff g, Forall (fun x => writes_att x = false) (flush_effects doff g)) by (intros; unfold flush_effects; destruct (_ =? 0); constructor; auto; apply Forall_map; apply Forall_forall; auto).
  assert (F2 : forall g, Forall (fun x => writes_att x = false) (meta_effects g)) by (intros; unfold meta_effects; destruct (_ <? _); constructor; auto; apply Forall_map; apply Forall_forall; auto).
  destruct o; cbn [effects closes] in *; try discriminate; auto.
  - destruct (info_at _ _) as [[]|]; auto.
  - destruct (any_pending _); auto.
  - apply Forall_app. split; [destruct (_ && _); auto|destruct (g_metadirty _); auto].
Qed.
Lemma no_att : forall e ops s, Forall (fun o => closes o = false) ops -> Forall (fun x => writes_att x = false) (issued e s ops).
Proof.
  intros e. induction ops as [|o ops IH]; intros s F; cbn [issued]; [constructor|]. inversion F; subst. apply Forall_app. split; [apply no_att_step; auto|]. destruct (step e s o) as [[s1 o1]| |]; auto.
Qed.
Lemma no_att_close : forall e s doff np k, (k < length (effects e s (OReopen doff np)))%nat -> Forall (fun x => writes_att x = false) (firstn k (effects e s (OReopen doff np))).
Proof.
  intros e s doff np k H. cbn [effects] in *. rewrite app_assoc in *. rewrite app_length in H. cbn [length] in H. rewrite firstn_app.
  replace (k - _)%nat with 0%nat by lia. rewrite app_nil_r.
  assert (F1 : Forall (fun x => writes_att x = false) (flush_effects doff (s_g s) ++ meta_effects (flush_writes doff (s_g s)))).
  { apply Forall_app. split; [unfold flush_effects; destruct (_ =? 0); constructor; auto; apply Forall_map; apply Forall_forall; auto|unfold meta_effects; destruct (_ <? _); constructor; auto; apply Forall_map; apply Forall_forall; auto]. }
  rewrite Forall_forall in *. intros x Hx. apply F1. apply (firstn_incl _ k). exact Hx.
Qed.

Lemma close_atomic : forall e cfg np f0 pre doff np1 mid doff3 np3 np2 doff2 calls s2 dk2 outs2 k dk',
  tame e cfg np (pre ++ OReopen doff np1 :: mid ++ [OReopen doff3 np3]) ->
  tame e cfg np (pre ++ [OReopen doff np2; ORead doff2 calls]) ->
  tame e cfg np ((pre ++ OReopen doff np1 :: mid) ++ [OReopen doff3 np2; ORead doff2 calls]) ->
  Forall (fun o => creates o = false /\ closes o = false) mid ->
  crun e (init cfg np f0, disk0 cfg f0) (pre ++ OReopen doff np1 :: mid) = Ok ((s2, dk2), outs2) ->
  apply_all dk2 (firstn k (effects e s2 (OReopen doff3 np3))) = Ok dk' ->
  exists bufs, read_after_crash e np2 dk' doff2 calls = Ok bufs /\
    last_read (run e (init cfg np f0)
      (if (k <? length (effects e s2 (OReopen doff3 np3)))%nat
       then pre ++ [OReopen doff np2; ORead doff2 calls]
       else (pre ++ OReopen doff np1 :: mid) ++ [OReopen doff3 np2; ORead doff2 calls])) = Ok bufs.
Proof.
  intros e cfg np f0 pre doff np1 mid doff3 np3 np2 doff2 calls s2 dk2 outs2 k dk' T1 T2 T3 Hm R A.
  assert (Hm1 : Forall (fun o => creates o = false) mid) by (eapply Forall_impl; [|exact Hm]; cbn; intros ? [? ?]; auto).
  assert (Hm2 : Forall (fun o => closes o = false) mid) by (eapply Forall_impl; [|exact Hm]; cbn; intros ? [? ?]; auto).
  destruct (Nat.ltb_spec k (length (effects e s2 (OReopen doff3 np3)))) as [L|L].
  - change (OReopen doff np1 :: mid) with ([OReopen doff np1] ++ mid) in R. rewrite app_assoc, crun_app in R.
    destruct (crun e (init cfg np f0, disk0 cfg f0) (pre ++ [OReopen doff np1])) as [[[s1 dk1] o1]| |] eqn:E; cbn [bind fst snd] in R; try discriminate.
    destruct (crun e (s1, dk1) mid) as [[[s4 dk4] o4]| |] eqn:E'; cbn [bind fst snd] in R; try discriminate. injection R as -> -> <-. destruct (crun_issued _ _ _ _ _ _ _ E') as (I1 & I2).
    apply (crash_reads e cfg np f0 pre doff np1 (mid ++ [OReopen doff3 np3]) np2 doff2 calls s1 dk1 o1 (issued e s1 mid ++ firstn k (effects e s2 (OReopen doff3 np3)))); auto.
    + apply Forall_app. split; auto.
    + rewrite (issued_app _ _ _ _ _ _ I2). cbn [issued]. intros x Hx. apply in_app_or in Hx. apply in_or_app. destruct Hx as [Hx|Hx]; auto. right. apply in_or_app. left. eapply firstn_incl; eauto.
    + apply Forall_app. split; [apply no_att; auto|apply no_att_close; auto].
    + rewrite apply_app, I1. cbn [bind]. exact A.
  - rewrite firstn_all2 in A by lia. pose proof T1 as T1'. change (OReopen doff np1 :: mid ++ [OReopen doff3 np3]) with ((OReopen doff np1 :: mid) ++ [OReopen doff3 np3]) in T1'. rewrite app_assoc in T1'.
    destruct (tame_reads _ _ _ f0 _ T1') as (s5 & o5 & R5 & _). destruct (close_open _ _ _ _ _ _ _ _ _ R5) as (dk5 & _ & C5 & _).
    assert (E : dk5 = dk').
    { pose proof C5 as C6. rewrite crun_app, R in C6. cbn [bind fst snd crun] in C6. unfold cstep in C6. cbn [fst snd] in C6. rewrite A in C6. cbn [bind] in C6. destruct (step e s2 _); cbn [bind fst snd] in C6; try discriminate. congruence. }
    subst dk5. apply (crash_reads e cfg np f0 (pre ++ OReopen doff np1 :: mid) doff3 np3 [] np2 doff2 calls s5 dk' o5 []); auto. intros x [].
Qed.

(** ** Flushing *)
Lemma flush_adds_nothing : forall e cfg np f0 pre doff np1 post np2 doff2 calls,
  tame e cfg np (pre ++ OReopen doff np1 :: post) -> tame e cfg np (pre ++ [OReopen doff np2; ORead doff2 calls]) ->
  Forall (fun o => creates o = false /\ closes o = false) post ->
  exists s dk outs bufs, crun e (init cfg np f0, disk0 cfg f0) (pre ++ OReopen doff np1 :: post) = Ok ((s, dk), outs) /\
    read_after_crash e np2 dk doff2 calls = Ok bufs /\
    last_read (run e (init cfg np f0) (pre ++ [OReopen doff np2; ORead doff2 calls])) = Ok bufs.
Proof.
  intros e cfg np f0 pre doff np1 post np2 doff2 calls T1 T2 Hm.
  assert (Hm1 : Forall (fun o => creates o = false) post) by (eapply Forall_impl; [|exact Hm]; cbn; intros ? [? ?]; auto).
  assert (Hm2 : Forall (fun o => closes o = false) post) by (eapply Forall_impl; [|exact Hm]; cbn; intros ? [? ?]; auto).
  destruct (tame_reads _ _ _ f0 _ T1) as (s & outs & R & _). destruct (crun_run e (pre ++ OReopen doff np1 :: post) _ _ (init_synced cfg np f0)) as (_ & Q). destruct (Q _ _ R) as (dk & C & _). exists s, dk, outs.
  pose proof C as C'. change (OReopen doff np1 :: post) with ([OReopen doff np1] ++ post) in C'. rewrite app_assoc, crun_app in C'.
  destruct (crun e (init cfg np f0, disk0 cfg f0) (pre ++ [OReopen doff np1])) as [[[s1 dk1] o1]| |] eqn:E; cbn [bind fst snd] in C'; try discriminate.
  destruct (crun e (s1, dk1) post) as [[[s4 dk4] o4]| |] eqn:E'; cbn [bind fst snd] in C'; try discriminate. injection C' as -> -> _. destruct (crun_issued _ _ _ _ _ _ _ E') as (I1 & I2).
  destruct (crash_reads e cfg np f0 pre doff np1 post np2 doff2 calls s1 dk1 o1 (issued e s1 post) dk) as (bufs & B1 & B2); auto; [intros x; auto|apply no_att; auto|]. exists bufs. auto.
Qed.

(** ** Examples *)
Definition c_post : list op :=
  [OWrite 1 0 [B [0;0] [1;2]] [3;3;4;4]; OFlush 5000; OSetExtent 1 [12;4]; OWrite 0 1 [B [10;1] [1;2]] [1;2]; ORead 7000 [mkrcall 0 [B [0;0] [1;2]] 0 junk]; OWrite 0 0 [B [0;0] [1;1]] [8;8]].
Definition c_read : list rcall := [mkrcall 0 [B [0;0] [2;6]; B [3;4] [1;2]] 0 junk; mkrcall 1 [B [0;0] [9;4]] 0 junk].
(** All but the log datasets, last change first. *)
Definition c_some (xs : list effect) : list effect := filter (fun x => match x with XLog _ => false | _ => true end) (rev xs).
Definition c_sizes (xs : list effect) : list effect := filter keeps_objects xs.
Lemma crash_ex : 
  tame e_dflt cfg_dflt 2 (h_pre ++ OReopen 1000 2 :: c_post) /\ tame e_dflt cfg_dflt 2 (h_pre ++ [OReopen 1000 3; ORead 9000 c_read]) /\
  tame e_dflt cfg_dflt 2 ((h_pre ++ OReopen 1000 2 :: c_post) ++ [OReopen 8000 1]) /\
  tame e_dflt cfg_dflt 2 ((h_pre ++ OReopen 1000 2 :: c_post) ++ [OReopen 8000 3; ORead 9000 c_read]) /\
  Forall (fun o => creates o = false /\ closes o = false) c_post /\
  (forall x, incl (c_some x) x) /\ (forall x, incl (c_sizes x) x) /\
  (do dk <- after_crash e_dflt cfg_dflt 2 f_zero (h_pre ++ [OReopen 1000 2]) c_post c_some; read_after_crash e_dflt 3 dk 9000 c_read) =
  last_read (run e_dflt (init cfg_dflt 2 f_zero) (h_pre ++ [OReopen 1000 3; ORead 9000 c_read])) /\
  last_read (run e_dflt (init cfg_dflt 2 f_zero) (h_pre ++ [OReopen 1000 3; ORead 9000 c_read])) <>
  last_read (run e_dflt (init cfg_dflt 2 f_zero) ((h_pre ++ OReopen 1000 2 :: c_post) ++ [OReopen 8000 3; ORead 9000 c_read])).
Proof.
  split; [tame_dflt|]. split; [tame_dflt|]. split; [tame_dflt|]. split; [tame_dflt|]. split; [repeat constructor|].
  split; [intros x y H; apply filter_In in H; destruct H as [H _]; apply in_rev; exact H|]. split; [intros x y H; apply filter_In in H; tauto|].
  split; [vm_compute; reflexivity|]. vm_compute. discriminate.
Qed.
(** What is on the disk of the example: a log dataset for the first write, one for the second, one
    metadata dataset; the log datasets are left out by [c_some], everything that creates an object by [c_sizes]. *)
Lemma crash_effects_ex : match crun e_dflt (init cfg_dflt 2 f_zero, disk0 cfg_dflt f_zero) (h_pre ++ [OReopen 1000 2]) with
  | Ok (s, dk, _) => length (issued e_dflt s c_post) = 10%nat /\ length (c_some (issued e_dflt s c_post)) = 8%nat /\ length (c_sizes (issued e_dflt s c_post)) = 5%nat /\
      Forall (fun x => writes_att x = false) (issued e_dflt s c_post) /\ Forall (fun x => keeps_objects x = true) (c_sizes (issued e_dflt s c_post)) /\
      In (XLog (g_nldset (s_g s))) (issued e_dflt s c_post)
  | _ => False end.
Proof. vm_compute. repeat split; try (repeat constructor; reflexivity). Qed.
Lemma crash_point_ex : let ops := (h_pre ++ OReopen 1000 2 :: c_post) ++ [OReopen 8000 1] in
  tame e_dflt cfg_dflt 2 ops /\ kept e_dflt (init cfg_dflt 2 f_zero) ops 36 = 18%nat /\ kept e_dflt (init cfg_dflt 2 f_zero) ops 35 = 11%nat /\ kept e_dflt (init cfg_dflt 2 f_zero) ops 5 = 0%nat /\
  length (issued e_dflt (init cfg_dflt 2 f_zero) ops) = 36%nat /\ nth_error ops 10 = Some (OReopen 1000 2) /\ Forall (fun o => creates o = false) (skipn 11 ops).
Proof. intros ops. split; [unfold ops; tame_dflt|]. vm_compute. repeat split; repeat constructor. Qed.

(** Flushed, and lost. *)
Definition c_one : list op := [OCreate dA; OReopen 100 1].
Definition c_write : op := OWrite 0 0 [B [0;0] [1;2]] [3;3;4;4].
Definition c_rd : list rcall := [mkrcall 0 [B [0;0] [1;3]] 0 junk].
Lemma flush_lost : legal_history true 1 (c_one ++ [c_write; OFlush 200; ORead 300 c_rd]) /\
  last_read (run e_dflt (init cfg_dflt 1 f_zero) (c_one ++ [c_write; OFlush 200; ORead 300 c_rd])) = Ok [[3;3;4;4;9;9]] /\
  (do dk <- after_crash e_dflt cfg_dflt 1 f_zero c_one [c_write; OFlush 200] (fun xs => xs); read_after_crash e_dflt 1 dk 300 c_rd) = Ok [[9;9;9;9;9;9]].
Proof. split; [legal|]. split; vm_compute; reflexivity. Qed.
(** The attribute on the disk before the metadata it counts. *)
Lemma close_reordered : legal_history true 1 (c_one ++ [c_write; OReopen 200 1]) /\
  (do dk <- after_crash e_dflt cfg_dflt 1 f_zero c_one [c_write; OReopen 200 1] (filter writes_att); recover 1 dk) = Err.
Proof. split; [legal|vm_compute; reflexivity]. Qed.
(** A dataset created and not yet closed. *)
Lemma created_unopenable : legal_history true 1 (c_one ++ [c_write; OReopen 200 1; OCreate dR]) /\
  (do dk <- after_crash e_dflt cfg_dflt 1 f_zero (c_one ++ [c_write; OReopen 200 1]) [OCreate dR] (fun xs => xs); recover 1 dk) = UB /\
  (do dk <- after_crash e_dflt cfg_dflt 1 f_zero (c_one ++ [c_write; OReopen 200 1]) [OCreate dR] (firstn 1); recover 1 dk) = Err.
Proof. split; [legal|]. split; vm_compute; reflexivity. Qed.
(** A log dataset left behind: writing and closing fails. *)
Lemma no_more_data_ex : legal_history true 1 (c_one ++ [c_write; OFlush 200]) /\
  exists n, (do dk <- after_crash e_dflt cfg_dflt 1 f_zero c_one [c_write; OFlush 200] (fun xs => xs); do s <- recover 1 dk; Ok (g_nldset (s_g s))) = Ok n /\
  observed (do dk <- after_crash e_dflt cfg_dflt 1 f_zero c_one [c_write; OFlush 200] (fun xs => xs); do s <- recover 1 dk; crun e_dflt (s, dk) [OReopen 400 1]) = Ok [[]] /\
  observed (do dk <- after_crash e_dflt cfg_dflt 1 f_zero c_one [c_write; OFlush 200] (fun xs => xs); do s <- recover 1 dk; crun e_dflt (s, dk) [c_write; OReopen 400 1]) = Err.
Proof. split; [legal|]. eexists. split; [vm_compute; reflexivity|]. split; vm_compute; reflexivity. Qed.
Lemma disk_reopens : forall e cfg np f0 ops doff np' s outs,
  run e (init cfg np f0) (ops ++ [OReopen doff np']) = Ok (s, outs) ->
  exists dk, apply_all (disk0 cfg f0) (issued e (init cfg np f0) (ops ++ [OReopen doff np'])) = Ok dk /\ recover np' dk = Ok s.
Proof. intros e cfg np f0 ops doff np' s outs H. destruct (close_open _ _ _ _ _ _ _ _ _ H) as (dk & A & _ & _ & _ & B). eauto. Qed.
Lemma disk_transparent : forall e cfg np f0 ops, observed (crun e (init cfg np f0, disk0 cfg f0) ops) = observed (run e (init cfg np f0) ops).
Proof. intros. apply crun_run. apply init_synced. Qed.
