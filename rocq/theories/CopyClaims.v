(** Proofs of C69. *)
From Verif Require Import Base NameModel LibModel NsModel NsSpec NsProofs NsSim NsClaims CopyModel CopySpec CopyProofs CopyReach.
From Coq Require Import Ascii String Lia ZifyNat Permutation.

Lemma inv_root st : inv st -> exists r, nth_error (l_objs st) 0 = Some r.
Proof. intros [(r & t & H & _) _]. exists r. now rewrite H. Qed.


(** The visited paths are paths of hard links, of objects that exist. *)
Definition vis_ok (os : list obj) (p : list string) (j : nat) (v : list (list string * nat)) : Prop :=
  forall q i, In (q, i) v -> exists r, q = p ++ r /\ hard_path os j r i.
Lemma vis_go os f p j :
  (forall seen q i, vis_ok os q i (fst (visit f os seen q (links_of os i)))) ->
  forall ls seen, (forall x, In x ls -> In x (links_of os j)) -> vis_ok os p j (fst (go os f p seen ls)).
Proof.
  intros IHf. induction ls as [|[n [i|t']] t IH]; intros seen Sub; cbn [go].
  - intros q i [].
  - assert (Sub' : forall x, In x t -> In x (links_of os j)) by (intros x Hx; apply Sub; now right).
    destruct (existsb (Nat.eqb i) seen); auto. cbn [fst]. intros q k [H|H].
    + injection H as <- <-. exists [n]. split; auto. apply hp_links. apply Sub. now left.
    + apply in_app_or in H as [H|H].
      * apply IHf in H as (r & -> & H). exists (n :: r). split; [now rewrite <- app_assoc|].
        eapply hp_links'; eauto. apply Sub. now left.
      * eapply IH; eauto.
  - apply IH. intros x Hx. apply Sub. now right.
Qed.
Lemma vis_visit os f : forall seen p j, vis_ok os p j (fst (visit f os seen p (links_of os j))).
Proof.
  induction f as [|f IH]; intros seen p j; [intros q i []|]. rewrite visit_S. apply vis_go; auto.
Qed.
Lemma visited_hp os f q i : In (q, i) (visit_file f os) -> hard_path os 0 q i.
Proof. intros H. apply vis_visit in H as (r & -> & H). exact H. Qed.
Lemma hp_exists st j p i : inr st -> hard_path (l_objs st) j p i -> nth_error (l_objs st) i <> None.
Proof.
  intros I. induction 1 as [j o n i Hj Hn|]; auto. apply nth_error_Some. eauto.
Qed.


Lemma copy_exact dbi cs st rs fuel r : supported_run lib0 cs -> vol_run dbi vol0 cs = Ok (st, rs) ->
  let os := l_objs (fst (lib_run lib0 cs)) in
  (fuel <> 0)%nat -> nth_error os 0 = Some r ->
  (forall q i, In (q, i) (visit_file fuel os) -> starts plain q) ->
  copy_file fuel (l_objs st) = Ok (out_attrs (ob_attrs r), flat_map (out os) (visit_file fuel os)).
Proof.
  intros SR V os F0 R P. rewrite vol_run0 in V by auto. injection V as <- <-. cbn [enc l_objs]. fold os.
  pose proof (inv_run lib0 cs inv0) as I. pose proof (inr_run lib0 cs inr0) as IR. destruct I as [W I].
  fold os in I. destruct fuel as [|f]; [congruence|].
  assert (N : os <> []) by (intros E; rewrite E in R; discriminate).
  assert (E : eobjs os = eobj true r :: tl (eobjs os)) by (destruct os; [congruence|]; cbn in R; injection R as ->; reflexivity).
  unfold copy_file. rewrite E at 1. rewrite copy_attrs_enc.
  2:{ rewrite Forall_forall in I. apply I. now apply nth_error_In in R. }
  cbn [bind]. rewrite visit_file_enc by auto. cbn [copy_each]. unfold copy_one at 1. cbn [fst].
  change (dset_visit LOG_GROUP) with (@None string). cbn [bind].
  pose proof (copy_all os r R I (visit_file (S f) os) []) as C. cbn [app outs flat_map] in C.
  unfold outs in C. cbn [flat_map app] in C. rewrite C; [reflexivity| |].
  - unfold visit_file. replace (links_of os 0) with (ob_links r) by (unfold links_of; now rewrite R).
    apply good_visit; [apply nd_links; auto|]. replace (ob_links r) with (links_of os 0) by (unfold links_of; now rewrite R).
    now apply nd_links.
  - apply Forall_forall. intros [q i] H. split; [eapply P; eauto|]. cbn [snd]. eapply hp_exists; eauto. eapply visited_hp; eauto.
Qed.

(** * Ordinary names *)

Lemma hp_names os j p i : all_ordinary os -> hard_path os j p i -> Forall ordinary p.
Proof.
  intros A. assert (K : forall k o n t, nth_error os k = Some o -> In (n, t) (ob_links o) -> ordinary n).
  { intros k o n t H L. apply nth_error_In in H. apply A in H as [H _]. rewrite Forall_forall in H. apply (H _ L). }
  induction 1; constructor; eauto.
Qed.
Lemma ordinary_plain n : ordinary n -> plain n /\ keep_name n = true /\ doubled n = n.
Proof.
  destruct n as [|c s]; cbn [ordinary]; [tauto|]. intros (A & B & C). split; [exact A|]. unfold keep_name, doubled.
  destruct (Ascii.eqb_spec c US), (Ascii.eqb_spec c DOT), (Ascii.eqb_spec c SLASH); try congruence. auto.
Qed.
Lemma attrs_perm l : Forall (fun p => attr_ok (fst p)) l -> Permutation (out_attrs l) l.
Proof.
  intros F. unfold out_attrs. transitivity (ordered ByName Inc l); [|symmetry; apply ordered_perm].
  assert (G : Forall (fun p => attr_ok (fst p)) (ordered ByName Inc l)).
  { eapply Permutation_Forall; [apply ordered_perm|auto]. }
  clear F. induction G as [|[n v] t H _ IH]; [reflexivity|]. cbn [filter fst].
  assert (keep_name n = true) as ->.
  { destruct n as [|c s]; cbn in *; [tauto|]. destruct H as [A B]. destruct (Ascii.eqb_spec c DOT), (Ascii.eqb_spec c SLASH); try congruence; auto. }
  now constructor.
Qed.
Lemma out_path_ordinary p : Forall ordinary p -> out_path p = p.
Proof.
  destruct p as [|c r]; auto. intros F. inversion F as [|x y _ F']; subst. cbn [out_path]. f_equal. clear F c.
  induction F' as [|n t H _ IH]; auto. cbn [map]. f_equal; auto. now apply ordinary_plain.
Qed.

Lemma copy_faithful dbi cs st rs fuel : supported_run lib0 cs -> vol_run dbi vol0 cs = Ok (st, rs) ->
  let os := l_objs (fst (lib_run lib0 cs)) in
  (List.length os <= fuel)%nat -> all_ordinary os ->
  exists a t, copy_file fuel (l_objs st) = Ok (a, t) /\ faithful os a t.
Proof.
  intros SR V os L A. pose proof (inv_run lib0 cs inv0) as I. pose proof (inr_run lib0 cs inr0) as IR.
  destruct (inv_root _ I) as [r R]. fold os in R. destruct I as [_ I]. fold os in I.
  assert (N : os <> []) by (intros E; rewrite E in R; discriminate).
  assert (F0 : (fuel <> 0)%nat) by (destruct os; [congruence|cbn in L; lia]).
  destruct (visit_complete os fuel N L) as [ND C].
  assert (VO : forall q i, In (q, i) (visit_file fuel os) -> Forall ordinary q /\ q <> []).
  { intros q i H. apply visited_hp in H. split; [eapply hp_names; eauto|]. inversion H; discriminate. }
  pose proof (copy_exact dbi cs st rs fuel r SR V F0 R) as E. fold os in E. cbn zeta in E. rewrite E.
  2:{ intros q i H. destruct (VO q i H) as [F Q]. destruct q; [congruence|]. cbn. inversion F; subst. now apply ordinary_plain. }
  assert (ON : forall q i, In (q, i) (visit_file fuel os) -> exists o, nth_error os i = Some o /\
             out os (q, i) = [(q, (ob_kind o, out_attrs (ob_attrs o)))] /\ In o os).
  { intros q i H. destruct (nth_error os i) as [o|] eqn:Eo.
    - exists o. split; auto. split; [|eapply nth_error_In; eauto]. destruct (VO q i H) as [F Q]. unfold out. cbn [fst snd].
      rewrite Eo, (out_path_ordinary q F). destruct q as [|c s]; [congruence|]. inversion F; subst.
      destruct (ordinary_plain c) as (_ & -> & _); auto.
    - exfalso. eapply hp_exists; eauto. eapply visited_hp; eauto. }
  assert (TI : forall p x, In (p, x) (flat_map (out os) (visit_file fuel os)) ->
             exists i o, In (p, i) (visit_file fuel os) /\ nth_error os i = Some o /\ x = (ob_kind o, out_attrs (ob_attrs o)) /\ In o os).
  { intros p x H. apply in_flat_map in H as ([q i] & Hq & H). destruct (ON q i Hq) as (o & Ho & E2 & Io). rewrite E2 in H.
    destruct H as [H|[]]. injection H as <- <-. eauto 6. }
  assert (NP : NoDup (map fst (visit_file fuel os))).
  { unfold visit_file. eapply g_nodup. apply good_visit; apply nd_links; auto. }
  exists (out_attrs (ob_attrs r)), (flat_map (out os) (visit_file fuel os)). split; auto.
  split; [|split; [|split]].
  - exists r. split; auto. apply attrs_perm. apply A. now apply nth_error_In in R.
  - intros p k b H. destruct (TI _ _ H) as (i & o & Hi & Ho & Ex & Io). injection Ex as -> ->.
    exists i, o. split; [eapply visited_hp; eauto|]. split; auto. split; auto. apply attrs_perm. now apply A.
  - now apply outs_nodup.
  - set (f := fun p => match find (fun x => path_eqb p (fst x)) (visit_file fuel os) with Some x => snd x | None => O end).
    assert (FF : forall q i, In (q, i) (visit_file fuel os) -> f q = i).
    { intros q i H. unfold f. clear - NP H. induction (visit_file fuel os) as [|[q' i'] t IH]; [destruct H|].
      cbn [map fst] in NP. inversion NP as [|u w N1 N2]; subst. cbn [find fst]. destruct (path_eqb q q') eqn:E.
      - apply path_eqb_spec in E. subst q'. destruct H as [H|H]; [now injection H|].
        exfalso. apply N1. apply in_map_iff. exists (q, i). auto.
      - destruct H as [H|H]; [|auto]. injection H as -> ->. assert (path_eqb q q = true) by (now apply path_eqb_spec). congruence. }
    clearbody f. exists f. split; [|split].
    + intros p x H. destruct (TI _ _ H) as (i & o & Hi & _). rewrite (FF _ _ Hi). eapply visited_hp; eauto.
    + assert (MM : map (fun x : list string * (kind * list (string * list Z)) => f (fst x)) (flat_map (out os) (visit_file fuel os)) =
                   map snd (visit_file fuel os)).
      { clear - FF ON. induction (visit_file fuel os) as [|[q i] t IH]; [reflexivity|]. cbn [flat_map]. rewrite map_app.
        destruct (ON q i (or_introl eq_refl)) as (o & _ & E & _). rewrite E. cbn [map fst snd app].
        rewrite (FF q i (or_introl eq_refl)). f_equal. apply IH; intros; [apply ON|apply FF]; now right. }
      rewrite MM. exact ND.
    + intros p i H I0. destruct (C p i H I0) as [q Hq]. destruct (ON q i Hq) as (o & Ho & E2 & _).
      exists q, (ob_kind o, out_attrs (ob_attrs o)). split; [|auto]. apply in_flat_map. exists (q, i). split; auto. rewrite E2. now left.
Qed.

(** * Reserved names *)

Lemma attrs_not_ub l acc : copy_attrs l acc <> UB.
Proof. revert acc. induction l as [|[n v] t IH]; intros acc; cbn; [discriminate|]. destruct (dset_visit n); auto. destruct (assoc s acc); auto. discriminate. Qed.
Lemma rcreate_not_ub t p k a : rcreate t p k a <> UB.
Proof. unfold rcreate. destruct (look p t); [discriminate|]. destruct (removelast p); [discriminate|]. destruct (look _ t) as [[[] ?]|]; discriminate. Qed.
Lemma copy_one_not_ub os t x : copy_one os t x <> UB.
Proof.
  unfold copy_one. destruct (fst x); [discriminate|]. destruct (dset_visit s); [|discriminate].
  destruct (nth_error os (snd x)) as [o|]; [|discriminate]. destruct (walk _ _ _); [|discriminate].
  destruct (nth_error os n) as [s1|]; [|discriminate]. destruct (is_kind _ _); [|discriminate].
  pose proof (attrs_not_ub (ordered ByName Inc (ob_attrs s1)) []) as A.
  destruct (ob_kind o).
  - destruct (copy_attrs _ _); cbn; try congruence. apply rcreate_not_ub.
  - destruct (has_attrs _ _); [|discriminate]. destruct (copy_attrs _ _); cbn; try congruence. apply rcreate_not_ub.
  - apply rcreate_not_ub.
Qed.
Lemma copy_each_fails os l : forall t x, In x l -> (forall t, copy_one os t x = Err) -> copy_each os t l = Err.
Proof.
  induction l as [|y u IH]; intros t x; [intros []|]. intros [H|H] F; cbn [copy_each].
  - subst y. now rewrite F.
  - pose proof (copy_one_not_ub os t y). destruct (copy_one os t y) as [t1| |]; cbn [bind]; try congruence. eauto.
Qed.
Lemma resolve_reserved f ls n : reserved n -> n <> LOG_GROUP -> resolve f ((LOG_GROUP, Hard 1) :: map elink ls) n = None.
Proof.
  intros Rn NL. assert (A : assoc n ((LOG_GROUP, Hard 1) :: map elink ls) = None).
  { cbn [assoc]. destruct (String.eqb_spec n LOG_GROUP); [congruence|]. apply assoc_none. rewrite map_map. cbn [elink fst].
    intros H. apply in_map_iff in H as ([m t] & E & _). cbn [fst] in E. destruct Rn as (s & -> & K). clear n0.
    destruct m as [|c m]; [discriminate|]. cbn [en] in E. destruct (Ascii.eqb_spec c US) as [->|].
    - inversion E as [E']. eapply K; [symmetry; exact E'|reflexivity].
    - inversion E. congruence. }
  destruct f; cbn [resolve]; now rewrite A.
Qed.
Lemma copy_fails dbi cs st rs fuel c r i : supported_run lib0 cs -> vol_run dbi vol0 cs = Ok (st, rs) ->
  In (c :: r, i) (visit_file fuel (l_objs (fst (lib_run lib0 cs)))) -> reserved c -> c <> LOG_GROUP ->
  copy_file fuel (l_objs st) = Err.
Proof.
  intros SR V H Rn NL. rewrite vol_run0 in V by auto. injection V as <- <-. cbn [enc l_objs].
  pose proof (inv_run lib0 cs inv0) as I. destruct (inv_root _ I) as [rt R]. destruct I as [_ I].
  set (os := l_objs (fst (lib_run lib0 cs))) in *.
  assert (N : os <> []) by (intros E; rewrite E in R; discriminate).
  destruct fuel as [|f]; [destruct H|].
  assert (E : eobjs os = eobj true rt :: tl (eobjs os)) by (destruct os; [congruence|]; cbn in R; injection R as ->; reflexivity).
  unfold copy_file. rewrite E at 1. rewrite copy_attrs_enc.
  2:{ rewrite Forall_forall in I. apply I. now apply nth_error_In in R. }
  cbn [bind]. rewrite (copy_each_fails _ _ _ (ev (c :: r, i))); [reflexivity| |].
  - rewrite visit_file_enc by auto. right. now apply in_map.
  - intros t. unfold copy_one. cbn [ev fst snd map]. rewrite visit_en.
    assert (keep_name c = true) as -> by (destruct Rn as (s & -> & _); reflexivity).
    destruct (nth_error (eobjs os) (up i)); [|reflexivity].
    assert (W : walk (eobjs os) (links_of (eobjs os) 0) (c :: map en r) = None); [|now rewrite W].
    cbn [walk]. destruct os as [|r0 t0]; [congruence|]. rewrite links_enc0, resolve_reserved by auto. reflexivity.
Qed.
