(** Lemmas for C69. *)
From Verif Require Import Base NameModel LibModel NsModel NsSpec NsProofs NsSim NsClaims CopyModel CopySpec.
From Coq Require Import Ascii String Lia ZifyNat Permutation.

(** * States of the library *)

Definition obj_inv (o : obj) : Prop :=
  NoDup (map fst (ob_links o)) /\ NoDup (map fst (ob_attrs o)) /\ (ob_kind o <> KGroup -> ob_links o = []) /\
  ob_kind o <> KType.
Definition inv (st : lib) : Prop := wf st /\ Forall obj_inv (l_objs st).

Lemma assoc_none {A} n (l : list (string * A)) : assoc n l = None <-> ~ In n (map fst l).
Proof.
  induction l as [|[m a] t IH]; cbn [assoc map fst In]; [tauto|]. destruct (String.eqb_spec n m).
  - split; [discriminate|]. intros H. exfalso. auto.
  - rewrite IH. split; [intros H [G|G]; auto|tauto].
Qed.
Lemma assoc_In {A} n (l : list (string * A)) a : NoDup (map fst l) -> In (n, a) l -> assoc n l = Some a.
Proof.
  induction l as [|[m b] t IH]; cbn [In assoc map fst]; [tauto|]. intros N [H|H].
  - injection H as -> ->. now rewrite String.eqb_refl.
  - inversion N as [|x y N1 N2]; subst. destruct (String.eqb_spec n m) as [->|]; auto.
    exfalso. apply N1. change m with (fst (m, a)). now apply in_map.
Qed.
Lemma nodup_drop {A} n (l : list (string * A)) : NoDup (map fst l) -> NoDup (map fst (drop n l)).
Proof.
  unfold drop. induction l as [|[m b] t IH]; cbn [filter map fst]; auto. intros N. inversion N as [|x y N1 N2]; subst.
  destruct (negb (String.eqb n m)); auto. cbn [map fst]. constructor; auto. intros H. apply N1.
  apply in_map_iff in H as ([x a] & <- & H). apply filter_In in H as [H _]. apply in_map_iff. eauto.
Qed.
Lemma nodup_snoc {A} n (a : A) (l : list (string * A)) : NoDup (map fst l) -> assoc n l = None -> NoDup (map fst (l ++ [(n, a)])).
Proof.
  intros N H. apply assoc_none in H. rewrite map_app. cbn [map fst].
  apply (Permutation_NoDup (Permutation_cons_append (map fst l) n)). now constructor.
Qed.
Lemma setv_names {A} n (a : A) l : map fst (setv n a l) = map fst l.
Proof. unfold setv. rewrite map_map. apply map_ext. intros [m b]. cbn. now destruct (String.eqb n m). Qed.
Lemma nodup_rename {A} old new (l : list (string * A)) :
  NoDup (map fst l) -> assoc new l = None -> NoDup (map fst (rename old new l)).
Proof.
  unfold rename. induction l as [|[m b] t IH]; cbn [map fst assoc]; auto. intros N H. inversion N as [|x y N1 N2]; subst.
  destruct (String.eqb_spec new m); [discriminate|]. specialize (IH N2 H).
  cbn [snd]. assert (K : forall z, In z (map fst (map (fun p : string * A => if String.eqb old (fst p) then (new, snd p) else p) t)) ->
    In z (map fst t) \/ (z = new /\ In old (map fst t))).
  { intros z Hz. apply in_map_iff in Hz as ([z' a] & <- & Hz). apply in_map_iff in Hz as ([y' a'] & Q & Hz).
    cbn [fst snd] in *. destruct (String.eqb_spec old y') as [<-|].
    - injection Q as <- <-. right. split; auto. apply in_map_iff. exists (old, a'). auto.
    - injection Q as <- <-. left. apply in_map_iff. exists (y', a'). auto. }
  destruct (String.eqb_spec old m) as [->|]; cbn [fst]; constructor; auto; intros Hz; apply K in Hz as [Hz|[Q Hz]]; auto.
  apply assoc_none in H. auto.
Qed.

Lemma inv_set st i o o' : inv st -> nth_error (l_objs st) i = Some o -> ob_kind o' = ob_kind o ->
  obj_inv o' -> inv (set_obj st i o').
Proof.
  intros [W F] N K O. split; [eapply wf_set; eauto|]. unfold set_obj. cbn [l_objs]. clear - F O.
  revert i. induction F as [|x t Hx Ht IH]; intros [|i]; cbn; constructor; auto.
Qed.
Lemma inv_nth st i o : inv st -> nth_error (l_objs st) i = Some o -> obj_inv o.
Proof. intros [_ F] N. rewrite Forall_forall in F. apply F. eapply nth_error_In; eauto. Qed.
Lemma inv_add st h n t st' : inv st -> add_link st h n t = Some st' -> inv st'.
Proof.
  unfold add_link. intros I. destruct (obj_of st h) as [[i g]|] eqn:O; [|discriminate]. apply obj_of_nth in O.
  destruct (ob_kind g) eqn:K; try discriminate. destruct (assoc n (ob_links g)) eqn:A; try discriminate. intros [= <-].
  destruct (inv_nth _ _ _ I O) as (A1 & A2 & A3 & A4).
  eapply inv_set; eauto. repeat split; cbn [set_links ob_kind ob_attrs ob_links]; auto.
  - now apply nodup_snoc.
  - congruence.
Qed.
Lemma inv_del st h n : inv st -> inv (del_link st h n).
Proof.
  unfold del_link. intros I. destruct (obj_of st h) as [[i g]|] eqn:O; auto. apply obj_of_nth in O.
  destruct (inv_nth _ _ _ I O) as (A1 & A2 & A3 & A4).
  eapply inv_set; eauto. repeat split; cbn [set_links ob_kind ob_attrs ob_links]; auto using nodup_drop.
  intros K. now rewrite (A3 K).
Qed.
Lemma inv_put st h n t : inv st -> inv (fst (put_link st h n t)).
Proof. unfold put_link. intros W. destruct (add_link st h n t) eqn:A; cbn; eauto using inv_add. Qed.
Lemma inv_new st h n k : k <> KType -> inv st -> inv (fst (new_obj st h n k)).
Proof.
  intros K I. split; [apply wf_new, I|]. unfold new_obj. destruct (add_link st h n _) eqn:A; [|apply I]. cbn [fst l_objs].
  apply Forall_app. split; [eapply inv_add; eauto|]. repeat constructor; auto.
Qed.
Lemma inv_attrs st l i o a : inv st -> loc_of st l = Some (i, o) -> NoDup (map fst a) -> inv (set_obj st i (set_attrs o a)).
Proof.
  intros I L N. apply loc_of_nth in L. destruct (inv_nth _ _ _ I L) as (A1 & A2 & A3 & A4).
  eapply inv_set; eauto. repeat split; auto.
Qed.
Ltac inv_attr :=
  match goal with
  | |- inv (fst (or_fail ?st (loc_of ?st ?l) _)) =>
      let i := fresh "i" in let o := fresh "o" in let L := fresh "L" in
      destruct (loc_of st l) as [[i o]|] eqn:L; cbn [or_fail fst snd]; auto
  end.
Lemma inv_step st c : inv st -> inv (fst (lib_step st c)).
Proof.
  intros W. assert (NA : forall l i o, loc_of st l = Some (i, o) -> NoDup (map fst (ob_attrs o))).
  { intros l i o L. apply loc_of_nth in L. now destruct (inv_nth _ _ _ W L) as (_ & A & _). }
  destruct c; cbn [lib_step]; auto.
  - apply inv_new; auto. discriminate.
  - apply inv_new; auto. discriminate.
  - destruct (loc_of st (Named h n)); cbn; auto.
  - destruct (obj_of st h) as [[i g]|]; cbn [or_fail fst snd]; auto.
    destruct (nth_error (ordered it io (ob_links g)) k) as [q|]; cbn [or_fail fst snd]; auto.
    destruct (loc_of st (Named h (fst q))); cbn; auto.
  - destruct (obj_of st h); cbn; auto.
  - destruct (get_link st h n); cbn [or_fail fst]; auto using inv_del.
  - destruct (same_loc h1 h2) as [hh|]; cbn [or_fail fst]; auto.
    destruct (get_link st (fst hh) n1) as [t|]; cbn [or_fail fst]; auto.
    destruct (add_link st (snd hh) n2 t); cbn [or_fail fst]; auto. apply inv_put. now apply inv_del.
  - destruct (get_link st h1 n1); cbn [or_fail fst]; auto using inv_put.
  - destruct (loc_of st (Named h1 n1)); cbn [or_fail fst]; auto using inv_put.
  - auto using inv_put.
  - destruct (obj_of st h); cbn; auto.
  - destruct (obj_of st h); cbn; auto.
  - destruct (obj_of st h) as [[i g]|]; cbn [or_fail fst snd]; auto.
    destruct (nth_error (ordered it io (ob_links g)) k); cbn; auto.
  - inv_attr. destruct (assoc n (ob_attrs o)) eqn:A; cbn [fst]; auto. eapply inv_attrs; eauto. eapply nodup_snoc; eauto.
  - inv_attr. destruct (assoc n (ob_attrs o)); cbn [or_fail fst]; auto.
  - inv_attr. destruct (assoc n (ob_attrs o)); cbn [or_fail fst]; auto. eapply inv_attrs; eauto. rewrite setv_names. eauto.
  - inv_attr.
  - inv_attr. destruct (assoc n (ob_attrs o)); cbn [or_fail fst]; auto. eapply inv_attrs; eauto using nodup_drop.
  - inv_attr. destruct (assoc old (ob_attrs o)); cbn [or_fail fst]; auto.
    destruct (assoc new (ob_attrs o)) eqn:A; cbn [fst]; auto. eapply inv_attrs; eauto using nodup_rename.
  - inv_attr. destruct (assoc n (ob_attrs o)); cbn [or_fail fst]; auto.
  - inv_attr. destruct (nth_error _ k); cbn [or_fail fst]; auto.
  - inv_attr. destruct (nth_error _ k); cbn [or_fail fst]; auto.
  - inv_attr. destruct (nth_error _ k); cbn [or_fail fst]; auto.
  - inv_attr. destruct (nth_error _ k); cbn [or_fail fst]; auto. eapply inv_attrs; eauto using nodup_drop.
  - inv_attr.
  - inv_attr.
Qed.
Lemma inv0 : inv lib0.
Proof. split; [apply wf0|]. repeat constructor; discriminate. Qed.
Lemma inv_run st cs : inv st -> inv (fst (lib_run st cs)).
Proof. revert st. induction cs as [|c t IH]; intros st W; [exact W|]. cbn. apply IH. now apply inv_step. Qed.

(** * Attributes *)

Lemma visit_en n : dset_visit (en n) = if keep_name n then Some n else None.
Proof.
  destruct n as [|c r]; [reflexivity|]. cbn [en keep_name]. destruct (Ascii.eqb_spec c US) as [->|N]; [reflexivity|].
  cbn [dset_visit]. rewrite (proj2 (Ascii.eqb_neq c US)) by auto. rewrite orb_comm.
  now destruct (Ascii.eqb c DOT || Ascii.eqb c SLASH).
Qed.
Fixpoint strip (l : list (string * list Z)) : list (string * list Z) :=
  match l with [] => [] | (n, v) :: t => match dset_visit n with Some m => (m, v) :: strip t | None => strip t end end.
Lemma copy_strip l acc : NoDup (map fst (acc ++ strip l)) -> copy_attrs l acc = Ok (acc ++ strip l).
Proof.
  revert acc. induction l as [|[n v] t IH]; intros acc N; cbn [copy_attrs strip]; [now rewrite app_nil_r|].
  cbn [strip] in N. destruct (dset_visit n) as [m|]; auto.
  replace (acc ++ (m, v) :: strip t) with ((acc ++ [(m, v)]) ++ strip t) in * by (now rewrite <- app_assoc).
  assert (A : assoc m acc = None).
  { apply assoc_none. intros H. rewrite <- app_assoc, map_app in N. cbn [map app fst] in N.
    apply NoDup_remove_2 in N. apply N. apply in_or_app. auto. }
  rewrite A. now apply IH.
Qed.
Lemma strip_filter l : strip l = strip (filter (fun p => match dset_visit (fst p) with Some _ => true | None => false end) l).
Proof.
  induction l as [|[n v] t IH]; [reflexivity|]. cbn [strip filter fst]. destruct (dset_visit n) eqn:D; auto.
  cbn [strip]. now rewrite D, IH.
Qed.
Lemma strip_en l : Forall (fun p => keep_name (fst p) = true) l -> strip (map epair l) = l.
Proof.
  induction 1 as [|[n v] t H _ IH]; [reflexivity|]. cbn [map strip epair fst snd] in *. rewrite visit_en, H. now f_equal.
Qed.
Lemma own_skipped b k : filter (fun p : string * list Z => match dset_visit (fst p) with Some _ => true | None => false end) (own b k) = [].
Proof. destruct b, k; reflexivity. Qed.
Lemma filter_epair (l : list (string * list Z)) :
  filter (fun p => match dset_visit (fst p) with Some _ => true | None => false end) (map epair l) =
  map epair (filter (fun p => keep_name (fst p)) l).
Proof.
  induction l as [|[n v] t IH]; [reflexivity|]. cbn [map filter epair fst snd]. rewrite visit_en, IH.
  now destruct (keep_name n).
Qed.
Lemma ordered_epair it io (l : list (string * list Z)) : ordered it io (map epair l) = map epair (ordered it io l).
Proof. exact (ordered_map (fun x => x) it io l). Qed.
Lemma strip_attrs b k l : strip (ordered ByName Inc (own b k ++ map epair l)) = out_attrs l.
Proof.
  rewrite strip_filter, filter_ordered, filter_app, own_skipped. cbn [app]. rewrite filter_epair, ordered_epair.
  unfold out_attrs. rewrite filter_ordered. apply strip_en. apply Forall_forall. intros p H.
  apply ordered_In in H. now apply filter_In in H.
Qed.
Lemma insert_perm {A} (p : string * A) l : Permutation (p :: l) (insert p l).
Proof.
  induction l as [|q t IH]; [reflexivity|]. cbn. destruct (sleb (fst p) (fst q)); [reflexivity|].
  rewrite perm_swap. now constructor.
Qed.
Lemma ordered_perm {A} it io (l : list (string * A)) : Permutation l (ordered it io l).
Proof.
  assert (H : Permutation l (fold_right insert [] l)).
  { induction l as [|p t IH]; [reflexivity|]. cbn. rewrite <- insert_perm. now constructor. }
  destruct it, io; cbn [ordered]; auto.
  - now rewrite <- Permutation_rev.
  - apply Permutation_rev.
Qed.
Lemma nodup_filter_names {A} (f : string * A -> bool) l : NoDup (map fst l) -> NoDup (map fst (filter f l)).
Proof.
  induction l as [|[m b] t IH]; cbn [filter map fst]; auto. intros N. inversion N as [|x y N1 N2]; subst.
  destruct (f (m, b)); auto. cbn [map fst]. constructor; auto. intros H. apply N1.
  apply in_map_iff in H as ([x a] & <- & H). apply filter_In in H as [H _]. apply in_map_iff. eauto.
Qed.
Lemma copy_attrs_enc b o : NoDup (map fst (ob_attrs o)) ->
  copy_attrs (ordered ByName Inc (ob_attrs (eobj b o))) [] = Ok (out_attrs (ob_attrs o)).
Proof.
  intros N. cbn [eobj ob_attrs]. rewrite copy_strip; [now rewrite strip_attrs|]. cbn [app]. rewrite strip_attrs.
  apply nodup_filter_names. eapply Permutation_NoDup; [|exact N]. apply Permutation_map. apply ordered_perm.
Qed.

(** * The visit *)

Lemma nodup_apart {A} (a b : list A) : NoDup a -> NoDup b -> (forall x, In x a -> ~ In x b) -> NoDup (a ++ b).
Proof.
  induction a as [|x a IHa]; intros Na Nb F; auto. inversion Na as [|u w Na1 Na2]; subst. cbn. constructor.
  - intros Hx. apply in_app_or in Hx as [Hx|Hx]; auto. apply (F x); auto. now left.
  - apply IHa; auto. intros y Hy. apply F. now right.
Qed.
Lemma app_split {A} (a b v1 v2 : list A) x : a ++ b = v1 ++ x :: v2 ->
  (exists w, a = v1 ++ x :: w) \/ (exists w, v1 = a ++ w /\ b = w ++ x :: v2).
Proof.
  revert v1. induction a as [|y a IHa]; intros v1 E.
  - right. exists v1. auto.
  - destruct v1 as [|z v1]; cbn [app] in E; injection E as Ez E.
    + left. subst. exists a. reflexivity.
    + destruct (IHa v1 E) as [[w Hw]|(w & Hw & Hw')].
      * left. exists w. cbn. now f_equal.
      * right. exists w. split; auto. cbn. now f_equal.
Qed.

Fixpoint go (os : list obj) (f : nat) (p : list string) (seen : list nat) (ls : list (string * target)) : list (list string * nat) * list nat :=
  match ls with
  | [] => ([], seen)
  | (_, Soft _) :: t => go os f p seen t
  | (n, Hard i) :: t =>
      if existsb (Nat.eqb i) seen then go os f p seen t
      else
        let r := visit f os (i :: seen) (p ++ [n]) (links_of os i) in
        let q := go os f p (snd r) t in
        ((p ++ [n], i) :: fst r ++ fst q, snd q)
  end.
Lemma visit_S os f seen p ls : visit (S f) os seen p ls = go os f p seen ls.
Proof.
  cbn [visit]. revert seen. induction ls as [|[n [i|t']] t IH]; intros seen; cbn [go]; auto.
  destruct (existsb (Nat.eqb i) seen); auto. now rewrite IH.
Qed.
Lemma visit_nil os f seen p : visit f os seen p [] = ([], seen).
Proof. destruct f; reflexivity. Qed.

Section Visit.
  Context (os : list obj).
  Hypothesis ND : forall i, NoDup (map fst (links_of os i)).

  Lemma walk_one ls n i : NoDup (map fst ls) -> In (n, Hard i) ls -> walk os ls [n] = Some i.
  Proof. intros N H. cbn [walk resolve]. now rewrite (assoc_In _ _ _ N H). Qed.
  Lemma walk_cons ls n i r j : NoDup (map fst ls) -> In (n, Hard i) ls -> walk os (links_of os i) r = Some j ->
    walk os ls (n :: r) = Some j.
  Proof.
    intros N H W. cbn [walk resolve]. rewrite (assoc_In _ _ _ N H). destruct r; [discriminate W|]. exact W.
  Qed.

  Record good (p : list string) (ls : list (string * target)) (seen : list nat) (v : list (list string * nat)) : Prop := {
    g_walk : forall q i, In (q, i) v -> exists r, q = p ++ r /\ walk os ls r = Some i;
    g_new : forall q i, In (q, i) v -> ~ In i seen;
    g_nodup : NoDup (map fst v);
    g_parent : forall v1 q i v2, v = v1 ++ (q, i) :: v2 ->
      removelast q = p \/ exists j, In (removelast q, j) v1 /\ links_of os j <> [] }.

  Lemma good_nil p ls seen : good p ls seen [].
  Proof.
    split; [intros q i []|intros q i []|constructor|]. intros v1 q i v2 H. destruct v1; discriminate.
  Qed.
  Lemma seen_go f p ls : (forall seen q l, incl seen (snd (visit f os seen q l))) ->
    forall seen, incl seen (snd (go os f p seen ls)).
  Proof.
    intros H. induction ls as [|[n [i|t']] t IH]; intros seen; cbn [go]; auto using incl_refl.
    destruct (existsb (Nat.eqb i) seen); auto. cbn [snd]. eapply incl_tran; [|apply IH].
    eapply incl_tran; [|apply H]. intros x Hx. now right.
  Qed.
  Lemma seen_visit f : forall seen p ls, incl seen (snd (visit f os seen p ls)).
  Proof.
    induction f as [|f IH]; intros seen p ls; [apply incl_refl|]. rewrite visit_S. now apply seen_go.
  Qed.
  Lemma not_seen i seen : existsb (Nat.eqb i) seen = false -> ~ In i seen.
  Proof. intros H N. assert (existsb (Nat.eqb i) seen = true); [|congruence]. apply existsb_exists. exists i. split; auto. apply Nat.eqb_refl. Qed.

  Lemma good_go f p ls0 :
    (forall seen q ls, NoDup (map fst ls) -> good q ls seen (fst (visit f os seen q ls))) ->
    NoDup (map fst ls0) ->
    forall ls seen, NoDup (map fst ls) -> (forall x, In x ls -> In x ls0) ->
    good p ls0 seen (fst (go os f p seen ls)) /\
    (forall q i, In (q, i) (fst (go os f p seen ls)) -> exists n r, q = p ++ n :: r /\ In n (map fst ls)).
  Proof.
    intros IHf N0. induction ls as [|[n [i|t']] t IH]; intros seen N Sub.
    - split; [apply good_nil|]. intros q i [].
    - cbn [go]. inversion N as [|x y N1 N2]; subst.
      assert (Sub' : forall x, In x t -> In x ls0) by (intros x Hx; apply Sub; now right).
      destruct (existsb (Nat.eqb i) seen) eqn:Sn.
      { destruct (IH seen N2 Sub') as [G H]. split; auto. intros q j Hq. destruct (H q j Hq) as (m & r & -> & Hm).
        exists m, r. split; auto. now right. }
      specialize (IHf (i :: seen) (p ++ [n]) (links_of os i) (ND i)).
      pose proof (seen_visit f (i :: seen) (p ++ [n]) (links_of os i)) as SV.
      set (R := visit f os (i :: seen) (p ++ [n]) (links_of os i)) in *.
      destruct (IH (snd R) N2 Sub') as [G H]. set (Q := go os f p (snd R) t) in *. cbn [fst].
      assert (Hin : In (n, Hard i) ls0) by (apply Sub; now left).
      assert (NoR : forall q j, In (q, j) (fst R) -> exists m r, q = (p ++ [n]) ++ m :: r).
      { intros q j Hq. destruct (g_walk _ _ _ _ IHf q j Hq) as (r & -> & W). destruct r as [|m r]; [discriminate|eauto]. }
      split; [split|].
      + intros q j [E|Hq].
        * injection E as <- <-. exists [n]. split; auto. now apply walk_one.
        * apply in_app_or in Hq as [Hq|Hq].
          -- destruct (g_walk _ _ _ _ IHf q j Hq) as (r & -> & W). exists (n :: r). split; [now rewrite <- app_assoc|].
             eapply walk_cons; eauto.
          -- apply (g_walk _ _ _ _ G q j Hq).
      + intros q j [E|Hq].
        * injection E as <- <-. now apply not_seen.
        * apply in_app_or in Hq as [Hq|Hq].
          -- intros K. apply (g_new _ _ _ _ IHf q j Hq). now right.
          -- intros K. apply (g_new _ _ _ _ G q j Hq). apply SV. now right.
      + cbn [map fst]. rewrite map_app.
        assert (D : forall q, In q (map fst (fst Q)) -> exists m r, q = p ++ m :: r /\ m <> n).
        { intros q Hq. apply in_map_iff in Hq as ([q' j] & <- & Hq). destruct (H q' j Hq) as (m & r & -> & Hm).
          exists m, r. split; auto. intros ->. auto. }
        constructor.
        * intros Hq. apply in_app_or in Hq as [Hq|Hq].
          -- apply in_map_iff in Hq as ([q' j] & E & Hq). destruct (NoR q' j Hq) as (m & r & ->). cbn [fst] in E.
             apply (f_equal (@List.length string)) in E. rewrite !app_length in E. cbn in E. lia.
          -- destruct (D _ Hq) as (m & r & E & Hm). apply app_inv_head in E. congruence.
        * apply nodup_apart; [exact (g_nodup _ _ _ _ IHf)|exact (g_nodup _ _ _ _ G)|].
          intros q Hq Hq'. apply in_map_iff in Hq as ([q' j] & E & Hq). cbn [fst] in E. subst q'.
          destruct (NoR q j Hq) as (m & r & ->). destruct (D _ Hq') as (m' & r' & E & Hm).
          rewrite <- app_assoc in E. apply app_inv_head in E. cbn in E. congruence.
      + intros v1 q j v2 E. destruct v1 as [|x v1]; cbn [app] in E.
        * injection E as <- <- _. left. now rewrite removelast_last.
        * injection E as Ex E. subst x. destruct (app_split _ _ _ _ _ E) as [[w Hw]|(w & Hw & Hw')].
          -- right. destruct (g_parent _ _ _ _ IHf v1 q j w Hw) as [P|(k & Hk & L)].
             ++ exists i. split; [left; now rewrite P|].
                intros L. assert (J : In (q, j) (fst R)) by (rewrite Hw; apply in_or_app; right; now left).
                destruct (g_walk _ _ _ _ IHf q j J) as (r & -> & W). rewrite L in W. destruct r; discriminate W.
             ++ exists k. split; auto. now right.
          -- destruct (g_parent _ _ _ _ G w q j v2 Hw') as [P|(k & Hk & L)]; [now left|right].
             exists k. split; auto. right. subst v1. apply in_or_app. auto.
      + intros q j [E|Hq].
        * injection E as <- <-. exists n, []. split; auto. now left.
        * apply in_app_or in Hq as [Hq|Hq].
          -- destruct (NoR q j Hq) as (m & r & ->). exists n, (m :: r). split; [now rewrite <- app_assoc|now left].
          -- destruct (H q j Hq) as (m & r & -> & Hm). exists m, r. split; auto. now right.
    - cbn [go]. inversion N as [|x y N1 N2]; subst.
      destruct (IH seen N2) as [G H]; [intros x Hx; apply Sub; now right|]. split; auto.
      intros q j Hq. destruct (H q j Hq) as (m & r & -> & Hm). exists m, r. split; auto. now right.
  Qed.
  Lemma good_visit f : forall seen p ls, NoDup (map fst ls) -> good p ls seen (fst (visit f os seen p ls)).
  Proof.
    induction f as [|f IH]; intros seen p ls N; [apply good_nil|]. rewrite visit_S. apply good_go; auto.
  Qed.
End Visit.

(** * The visit of the stored file *)

Definition ev (x : list string * nat) : list string * nat := (map en (fst x), up (snd x)).
Definition sim (seen seen' : list nat) : Prop := forall i, In (up i) seen' <-> In i seen.
Lemma sim_b seen seen' i : sim seen seen' -> existsb (Nat.eqb (up i)) seen' = existsb (Nat.eqb i) seen.
Proof.
  intros S. apply eq_true_iff_eq. rewrite !existsb_exists. specialize (S i). split; intros (x & Hx & E); apply Nat.eqb_eq in E; subst x.
  - exists i. split; [tauto|apply Nat.eqb_refl].
  - exists (up i). split; [tauto|apply Nat.eqb_refl].
Qed.
Lemma up_inj i j : up i = up j -> i = j.
Proof. destruct i, j; cbn; lia. Qed.
Lemma sim_cons seen seen' i : sim seen seen' -> sim (i :: seen) (up i :: seen').
Proof.
  intros S j. cbn [In]. rewrite (S j). split; intros [H|H]; [left; now apply up_inj|now right|left; now subst|now right].
Qed.
Lemma links_enc os i : os <> [] -> i <> O -> links_of (eobjs os) (up i) = map elink (links_of os i).
Proof.
  intros N I. destruct os as [|r t]; [congruence|]. destruct i as [|i]; [congruence|].
  unfold links_of. cbn [eobjs up nth_error]. rewrite nth_error_map. destruct (nth_error t i); reflexivity.
Qed.
Lemma links_enc0 r t : links_of (eobjs (r :: t)) 0 = (LOG_GROUP, Hard 1) :: map elink (ob_links r).
Proof. reflexivity. Qed.
Lemma go_enc os f (N : os <> []) :
  (forall seen seen' p ls, sim seen seen' -> In O seen ->
     exists s', visit f (eobjs os) seen' (map en p) (map elink ls) = (map ev (fst (visit f os seen p ls)), s') /\
       sim (snd (visit f os seen p ls)) s') ->
  forall ls seen seen' p, sim seen seen' -> In O seen ->
     exists s', go (eobjs os) f (map en p) seen' (map elink ls) = (map ev (fst (go os f p seen ls)), s') /\
       sim (snd (go os f p seen ls)) s'.
Proof.
  intros IHf. induction ls as [|[n [i|t']] t IH]; intros seen seen' p S Z; cbn [map elink fst snd et go]; eauto.
  rewrite (sim_b _ _ _ S). destruct (existsb (Nat.eqb i) seen) eqn:B; eauto.
  assert (I : i <> O). { intros ->. apply not_seen in B. auto. }
  rewrite links_enc by auto. assert (MA : map en p ++ [en n] = map en (p ++ [n])) by (rewrite map_app; reflexivity). rewrite MA.
  destruct (IHf (i :: seen) (up i :: seen') (p ++ [n]) (links_of os i)) as (s1 & E1 & S1); [now apply sim_cons|now right|].
  rewrite E1. cbn [fst snd].
  destruct (IH (snd (visit f os (i :: seen) (p ++ [n]) (links_of os i))) s1 p) as (s2 & E2 & S2); auto.
  { apply seen_visit. now right. }
  rewrite E2. cbn [fst snd]. exists s2. split; auto. f_equal. cbn [map fst snd].
  change (ev (p ++ [n], i)) with (map en (p ++ [n]), up i). f_equal. symmetry. apply map_app.
Qed.
Lemma visit_enc os f (N : os <> []) : forall seen seen' p ls, sim seen seen' -> In O seen ->
  exists s', visit f (eobjs os) seen' (map en p) (map elink ls) = (map ev (fst (visit f os seen p ls)), s') /\
    sim (snd (visit f os seen p ls)) s'.
Proof.
  induction f as [|f IH]; intros seen seen' p ls S Z; [cbn; eauto|]. rewrite !visit_S. now apply go_enc.
Qed.
Lemma visit_file_enc os f : os <> [] ->
  visit_file (S f) (eobjs os) = ([LOG_GROUP], 1%nat) :: map ev (visit_file (S f) os).
Proof.
  intros N. destruct os as [|r t]; [congruence|]. unfold visit_file. rewrite links_enc0, !visit_S. cbn [go existsb Nat.eqb orb].
  change (links_of (eobjs (r :: t)) 1) with (@nil (string * target)). rewrite visit_nil. cbn [fst snd app].
  destruct (go_enc (r :: t) f N (visit_enc (r :: t) f N) (ob_links r) [0%nat] [1%nat; 0%nat] []) as (s' & E & _).
  - intros i. cbn. destruct i; cbn; lia.
  - now left.
  - cbn [map] in E. rewrite E. reflexivity.
Qed.

Lemma nth_eobjs os i : os <> [] -> nth_error (eobjs os) (up i) = option_map (eobj (isr i)) (nth_error os i).
Proof.
  intros N. destruct os as [|r t]; [congruence|]. destruct i as [|i]; [reflexivity|].
  cbn [eobjs up nth_error isr Nat.eqb]. now rewrite nth_error_map.
Qed.
Lemma walk_enc os : os <> [] -> forall p b o,
  walk (eobjs os) (ob_links (eobj b o)) (map en p) = option_map up (walk os (ob_links o) p).
Proof.
  intros N. induction p as [|n r IH]; intros b o; [reflexivity|]. cbn [map walk]. rewrite resolve_enc.
  destruct (resolve 16 (ob_links o) n) as [i|] eqn:Rn; cbn [option_map]; [|reflexivity].
  destruct r as [|m r]; [reflexivity|]. cbn [map]. change (en m :: map en r) with (map en (m :: r)).
  unfold links_of at 1 2. rewrite nth_eobjs by auto. destruct (nth_error os i) as [o'|] eqn:Ei; cbn [option_map].
  - apply IH.
  - reflexivity.
Qed.
Lemma walk_root os r p : os <> [] -> nth_error os 0 = Some r ->
  walk (eobjs os) (links_of (eobjs os) 0) (map en p) = option_map up (walk os (ob_links r) p).
Proof. intros N H. rewrite <- (walk_enc os N p true r). destruct os; [congruence|]. cbn in H. injection H as ->. reflexivity. Qed.

(** * The copy *)

Lemma en_doubled n : en n = doubled n.
Proof. reflexivity. Qed.
Lemma path_eqb_spec p q : path_eqb p q = true <-> p = q.
Proof. unfold path_eqb. destruct (list_eq_dec string_dec p q); split; congruence. Qed.
Lemma look_none p t : look p t = None <-> ~ In p (map fst t).
Proof.
  induction t as [|[q x] u IH]; cbn [look map fst In]; [tauto|]. destruct (path_eqb p q) eqn:E.
  - apply path_eqb_spec in E. split; [discriminate|]. intros H. exfalso. auto.
  - rewrite IH. split; [intros H [G|G]; auto|tauto]. subst q. assert (path_eqb p p = true) by (now apply path_eqb_spec). congruence.
Qed.
Lemma look_in p x t : NoDup (map fst t) -> In (p, x) t -> look p t = Some x.
Proof.
  induction t as [|[q y] u IH]; cbn [look map fst In]; [tauto|]. intros N [H|H].
  - injection H as -> ->. assert (path_eqb p p = true) as -> by (now apply path_eqb_spec). reflexivity.
  - inversion N as [|a b N1 N2]; subst. destruct (path_eqb p q) eqn:E; auto. apply path_eqb_spec in E. subst q.
    exfalso. apply N1. apply in_map_iff. exists (p, x). auto.
Qed.
Lemma out_path_inj p q : out_path p = out_path q -> p = q.
Proof.
  destruct p as [|a p], q as [|b q]; cbn; try discriminate; auto. intros [= -> H]. f_equal. revert q H.
  induction p as [|x p IH]; intros [|y q] H; try discriminate; auto. injection H as H1 H2. f_equal; auto. now apply en_inj.
Qed.
Lemma removelast_map {A B} (f : A -> B) l : removelast (map f l) = map f (removelast l).
Proof. induction l as [|x [|y t] IH]; auto. cbn [map removelast] in *. now f_equal. Qed.
Lemma out_path_removelast c m r : removelast (out_path (c :: m :: r)) = out_path (removelast (c :: m :: r)).
Proof. cbn [out_path map]. change (removelast (c :: doubled m :: map doubled r)) with (c :: removelast (map doubled (m :: r))).
  rewrite removelast_map. reflexivity. Qed.

Definition outs (os : list obj) (v : list (list string * nat)) : rtree := flat_map (out os) v.
Lemma outs_names os v p : In p (map fst (outs os v)) -> exists q i, In (q, i) v /\ p = out_path q.
Proof.
  unfold outs. intros H. apply in_map_iff in H as ([p' y] & <- & H). apply in_flat_map in H as ([q i] & Hq & H).
  exists q, i. split; auto. unfold out in H. cbn [fst snd] in *. destruct q as [|c r]; [destruct H|].
  destruct (nth_error os i); [|destruct H]. destruct (keep_name c); [|destruct H]. destruct H as [H|[]]. congruence.
Qed.
Lemma outs_nodup os v : NoDup (map fst v) -> NoDup (map fst (outs os v)).
Proof.
  induction v as [|[q i] t IH]; [constructor|]. cbn [map fst]. intros N. inversion N as [|a b N1 N2]; subst.
  unfold outs in *. cbn [flat_map]. rewrite map_app. apply nodup_apart; auto.
  - unfold out. cbn [fst snd]. destruct q as [|c r]; [constructor|]. destruct (nth_error os i); [|constructor].
    destruct (keep_name c); repeat constructor. intros [].
  - intros p Hp Hp'. apply (outs_names os t) in Hp' as (q' & i' & Hq & ->).
    assert (out_path q' = out_path q).
    { unfold out in Hp. cbn [fst snd] in Hp. destruct q as [|c r]; [destruct Hp|]. destruct (nth_error os i); [|destruct Hp].
      destruct (keep_name c); [|destruct Hp]. destruct Hp as [Hp|[]]. cbn [fst] in Hp. congruence. }
    apply out_path_inj in H. subst q'. apply N1. apply in_map_iff. exists (q, i'). auto.
Qed.

Definition starts (P : string -> Prop) (q : list string) : Prop := match q with c :: _ => P c | [] => False end.

Section Copy.
  Context (os : list obj) (r : obj).
  Hypothesis R : nth_error os 0 = Some r.
  Hypothesis I : Forall obj_inv os.
  Lemma os_ne : os <> []. Proof. intros ->. discriminate. Qed.
  Lemma nd_links i : NoDup (map fst (links_of os i)).
  Proof.
    unfold links_of. destruct (nth_error os i) as [o|] eqn:E; [|constructor]. apply nth_error_In in E.
    rewrite Forall_forall in I. now apply I.
  Qed.
  Lemma copy_step v1 q i v2 :
    good os [] (ob_links r) [0%nat] (v1 ++ (q, i) :: v2) -> starts plain q -> nth_error os i <> None ->
    copy_one (eobjs os) (outs os v1) (ev (q, i)) = Ok (outs os (v1 ++ [(q, i)])).
  Proof.
    intros G SP Hi. destruct q as [|c s]; [destruct SP|]. cbn [starts] in SP.
    assert (Hin : In (c :: s, i) (v1 ++ (c :: s, i) :: v2)) by (apply in_or_app; right; now left).
    destruct (g_walk _ _ _ _ _ G _ _ Hin) as (q & E & W). cbn [app] in E. subst q.
    assert (I0 : i <> O). { intros ->. apply (g_new _ _ _ _ _ G _ _ Hin). now left. }
    destruct (nth_error os i) as [o|] eqn:Eo; [clear Hi|congruence].
    assert (Io : obj_inv o) by (rewrite Forall_forall in I; apply I; eapply nth_error_In; eauto).
    unfold copy_one. cbn [ev fst snd map]. rewrite visit_en.
    assert (OE : outs os (v1 ++ [(c :: s, i)]) = outs os v1 ++ out os (c :: s, i)).
    { unfold outs. rewrite flat_map_app. cbn [flat_map]. now rewrite app_nil_r. }
    rewrite OE. clear OE. assert (OE : out os (c :: s, i) = if keep_name c then [(out_path (c :: s), (ob_kind o, out_attrs (ob_attrs o)))] else []).
    { unfold out. cbn [fst snd]. now rewrite Eo. }
    rewrite OE. clear OE.
    destruct (keep_name c) eqn:K; [|now rewrite app_nil_r].
    rewrite nth_eobjs by apply os_ne. rewrite Eo. cbn [option_map].
    pose proof (walk_root os r (c :: s) os_ne R) as WR. rewrite W in WR. cbn [map option_map] in WR. rewrite (en_plain c SP) in WR.
    rewrite WR. rewrite nth_eobjs by apply os_ne. rewrite Eo. cbn [option_map].
    assert (isr i = false) as -> by (unfold isr; apply Nat.eqb_neq; auto).
    destruct Io as (_ & NA & _ & KT).
    assert (IK : is_kind (ob_kind (eobj false o)) (eobj false o) = true) by (unfold is_kind; cbn [eobj ob_kind]; now destruct (ob_kind o)).
    rewrite IK.
    assert (RC : rcreate (outs os v1) (c :: map en s) (ob_kind o) (out_attrs (ob_attrs o)) =
                 Ok (outs os v1 ++ [(out_path (c :: s), (ob_kind o, out_attrs (ob_attrs o)))])).
    { unfold rcreate. change (c :: map en s) with (out_path (c :: s)).
      assert (N1 : look (out_path (c :: s)) (outs os v1) = None).
      { apply look_none. intros H. apply outs_names in H as (q & j & Hq & E). apply out_path_inj in E. subst q.
        pose proof (g_nodup _ _ _ _ _ G) as ND. rewrite map_app in ND. cbn [map fst] in ND. apply NoDup_remove_2 in ND.
        apply ND. apply in_or_app. left. apply in_map_iff. exists (c :: s, j). auto. }
      rewrite N1. destruct s as [|m s]; [reflexivity|]. rewrite out_path_removelast.
      destruct (g_parent _ _ _ _ _ G v1 _ i v2 eq_refl) as [P|(j & Hj & L)].
      { exfalso. cbn in P. destruct s; discriminate P. }
      assert (E : exists z, removelast (c :: m :: s) = c :: z) by (cbn; destruct s; eauto). destruct E as [z E]. rewrite E in *.
      cbn [out_path]. change (c :: map doubled z) with (out_path (c :: z)).
      unfold links_of in L. destruct (nth_error os j) as [oj|] eqn:Ej; [|congruence].
      assert (Ij : obj_inv oj) by (rewrite Forall_forall in I; apply I; eapply nth_error_In; eauto).
      assert (KG : ob_kind oj = KGroup). { destruct Ij as (_ & _ & KL & _). destruct (ob_kind oj); auto; exfalso; apply L, KL; discriminate. }
      rewrite (look_in _ (KGroup, out_attrs (ob_attrs oj))); auto.
      - apply outs_nodup. pose proof (g_nodup _ _ _ _ _ G) as ND. rewrite map_app in ND. clear - ND.
        induction (map fst v1) as [|a l IHl]; [constructor|]. cbn in ND. inversion ND as [|x y H1 H2]; subst. constructor; auto.
        intros H. apply H1. apply in_or_app. auto.
      - unfold outs. apply in_flat_map. exists (c :: z, j). split; auto. unfold out. cbn [fst snd]. rewrite Ej, K, KG. now left. }
    destruct (ob_kind o) eqn:Ko; cbn [eobj ob_kind]; rewrite ?Ko.
    - rewrite copy_attrs_enc by auto. cbn [bind]. exact RC.
    - assert (HA : has_attrs ["_dims"; "_ID"]%string (eobj false o) = true) by (unfold has_attrs; cbn [eobj ob_attrs]; rewrite Ko; reflexivity).
      rewrite HA, copy_attrs_enc by auto. cbn [bind]. exact RC.
    - congruence.
  Qed.
  Lemma copy_all v2 : forall v1, good os [] (ob_links r) [0%nat] (v1 ++ v2) ->
    Forall (fun x => starts plain (fst x) /\ nth_error os (snd x) <> None) v2 ->
    copy_each (eobjs os) (outs os v1) (map ev v2) = Ok (outs os (v1 ++ v2)).
  Proof.
    induction v2 as [|[q i] t IH]; intros v1 G F; cbn [map copy_each]; [now rewrite app_nil_r|].
    inversion F as [|x y [F1 F2] F3]; subst. rewrite (copy_step v1 q i t) by auto. cbn [bind].
    rewrite IH; auto; rewrite <- app_assoc; auto.
  Qed.
End Copy.
