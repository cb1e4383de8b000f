(** Statements about the settings of the connector in the form used by P_Info. *)
From Verif Require Import Base BaseProofs InfoModel InfoProofs.
From Coq Require Import ZifyNat.

Lemma text_reads_back : forall v u, 0 <= v < 10 ^ 7 ->
  exists s, info_to_str v u = Ok s /\ str_to_info s = Ok (v, match u with [] => None | _ => Some u end).
Proof.
  intros v u Hv. destruct (text_fits v u Hv) as [s E]. exists s. split; [exact E|].
  apply text_round_trip; [lia|exact E].
Qed.

Lemma stack_reads_back : forall vs, vs <> [] -> Forall (fun v => 0 <= v < 10 ^ 7) vs ->
  exists s, stack_to_str vs = Ok s /\ exists n, str_to_stack n s = Ok vs.
Proof.
  intros vs H F. destruct (stack_round_trip vs H F) as (s & E & _ & P). exists s. split; [exact E|].
  exists (length vs + 0)%nat. apply P.
Qed.

Lemma unknown_overflows : forall u, info_to_str (2 ^ 32 - 1) u = UB.
Proof.
  intros u. unfold info_to_str.
  destruct (Z.leb_spec (Zlen (under_vol ++ dec (2 ^ 32 - 1) ++ under_info ++ u ++ [close_brace]) + 1) (32 + Zlen u));
    [|reflexivity].
  exfalso. unfold Zlen in *. rewrite !app_length in *.
  change (length (dec (2 ^ 32 - 1))) with 10%nat in *. unfold under_vol, under_info in *. cbn [length] in *. lia.
Qed.

(** "under_info={}" *)
Lemma strip_some : forall p l r, strip p l = Some r -> l = p ++ r.
Proof.
  induction p as [|a p IH]; intros [|b l] r H; cbn [strip] in H; try (inversion H; reflexivity).
  destruct (a =? b) eqn:E; [|discriminate H]. apply Z.eqb_eq in E. subst. rewrite (IH _ _ H). reflexivity.
Qed.
Lemma find_first_none : forall c l, ~ In c l -> find_first c l = None.
Proof.
  induction l as [|x l IH]; intros N; cbn [find_first]; [reflexivity|].
  destruct (x =? c) eqn:E; [apply Z.eqb_eq in E; subst; exfalso; apply N; left; reflexivity|].
  rewrite IH; [reflexivity|]. intros I. apply N. right. exact I.
Qed.
Lemma find_last_some : forall c l, In c l -> exists k, find_last c l = Some k.
Proof.
  induction l as [|x l IH]; intros I; [contradiction|]. cbn [find_last].
  destruct (find_last c l) as [k|] eqn:E; [eauto|]. destruct I as [I|I].
  - subst. rewrite Z.eqb_refl. eauto.
  - destruct (IH I) as [k K]. congruence.
Qed.
Lemma malformed : forall s,
  (forall c rest, 48 <= c <= 57 \/ 9 <= c <= 13 \/ In c [32; 43; 45] -> s <> under_vol ++ c :: rest) \/ (~ In open_brace s /\ In close_brace s) ->
  str_to_info s = UB.
Proof.
  intros s H. unfold str_to_info. destruct (scan_value s) as [v| |] eqn:E; cbn [bind]; [|exfalso|reflexivity].
  - destruct H as [H|[N I]].
    + exfalso. unfold scan_value in E. destruct (strip under_vol s) as [[|c rest]|] eqn:S; try discriminate E.
      destruct ((48 <=? c) && (c <=? 57)) eqn:D; [|discriminate E]. apply Bool.andb_true_iff in D.
      apply (H c rest); [lia|]. apply strip_some. exact S.
    + rewrite (find_first_none _ _ N). destruct (find_last_some _ _ I) as [k K]. rewrite K. reflexivity.
  - unfold scan_value in E. destruct (strip under_vol s) as [[|c rest]|]; try discriminate E.
    destruct ((48 <=? c) && (c <=? 57)); discriminate E.
Qed.

Lemma refs_released : forall os s0 s v, irun s0 os = Ok s ->
  (forall o, In o os -> forall w, o <> IText w /\ o <> ISet w /\ o <> IUse w) -> Forall (fun o => o = None) (i_objs s) ->
  i_refs s v = i_refs s0 v - held v (i_objs s0).
Proof.
  intros os s0 s v H T F. pose proof (refs_counted os _ s v H) as R.
  assert (L : live_count v (i_objs s) = 0).
  { clear - F. unfold live_count, Zlen. induction F as [|o l -> _ IH]; [reflexivity|]. exact IH. }
  assert (X : texts v os = 0).
  { unfold texts, Zlen. clear - T. induction os as [|o os IH]; [reflexivity|]. cbn [filter].
    destruct o as [w|w|w|i|i]; try (exfalso; destruct (T _ (or_introl eq_refl) w) as (A & B & C); congruence); apply IH; intros; apply T; right; auto. }
  unfold live_count, held in *. lia.
Qed.

Lemma refs_leak : forall os s0 s v, irun s0 os = Ok s -> Forall (fun o => o = None) (i_objs s) ->
  i_refs s v = i_refs s0 v - held v (i_objs s0) +
    Zlen (filter (fun o => match o with IText w | ISet w | IUse w => w =? v | _ => false end) os).
Proof.
  intros os s0 s v H F. pose proof (refs_counted os _ s v H) as R.
  assert (L : live_count v (i_objs s) = 0).
  { clear - F. unfold live_count, Zlen. induction F as [|o l -> _ IH]; [reflexivity|]. exact IH. }
  unfold texts, live_count, held in *. lia.
Qed.
