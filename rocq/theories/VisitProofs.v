(** Lemmas for VisitClaims.v. *)
From Verif Require Import Base NameModel LibModel NsModel NsSpec NsProofs NsSim CopyModel CopySpec CopyProofs CopyReach VisitModel VisitSpec.
From Coq Require Import Ascii String Lia ZifyNat.

Section Tour.
  Context (lk : bool) (it : itype) (io : iorder).
  Notation T := (tour lk it io).

  Fixpoint tgo (os : list obj) (f : nat) (p : list string) (seen : list nat) (ls : list (string * target))
    : list (list string * target) * list nat :=
    match ls with
    | [] => ([], seen)
    | (n, Soft s) :: t =>
        let q := tgo os f p seen t in ((if lk then [(p ++ [n], Soft s)] else []) ++ fst q, snd q)
    | (n, Hard i) :: t =>
        if existsb (Nat.eqb i) seen
        then let q := tgo os f p seen t in ((if lk then [(p ++ [n], Hard i)] else []) ++ fst q, snd q)
        else
          let r := T f os (i :: seen) (p ++ [n]) (ordered it io (links_of os i)) in
          let q := tgo os f p (snd r) t in
          ((p ++ [n], Hard i) :: fst r ++ fst q, snd q)
    end.
  Lemma tour_S os f seen p ls : T (S f) os seen p ls = tgo os f p seen ls.
  Proof.
    cbn [tour]. revert seen. induction ls as [|[n [i|t']] t IH]; intros seen; cbn [tgo]; auto; rewrite IH; auto.
    destruct (existsb (Nat.eqb i) seen); auto. now rewrite IH.
  Qed.
  Lemma tour_nil os f seen p : T f os seen p [] = ([], seen).
  Proof. destruct f; reflexivity. Qed.

  Lemma seen_tgo os f p ls : (forall seen q l, incl seen (snd (T f os seen q l))) ->
    forall seen, incl seen (snd (tgo os f p seen ls)).
  Proof.
    intros H. induction ls as [|[n [i|t']] t IH]; intros seen; cbn [tgo]; auto using incl_refl; cbn [snd]; auto.
    destruct (existsb (Nat.eqb i) seen); cbn [snd]; auto. eapply incl_tran; [|apply IH].
    eapply incl_tran; [|apply H]. intros x Hx. now right.
  Qed.
  Lemma seen_tour os f : forall seen p ls, incl seen (snd (T f os seen p ls)).
  Proof. induction f as [|f IH]; intros seen p ls; [apply incl_refl|]. rewrite tour_S. now apply seen_tgo. Qed.

  Lemma ordered_nil : ordered it io (@nil (string * target)) = [].
  Proof. destruct it, io; reflexivity. Qed.

  (** More fuel changes nothing. *)
  Lemma tour_more os f : forall seen p ls, ls = [] \/ (left os seen < f)%nat -> T (S f) os seen p ls = T f os seen p ls.
  Proof.
    induction f as [|f IH]; intros seen p ls H.
    - destruct H as [->|H]; [reflexivity|lia].
    - destruct H as [->|H]; [reflexivity|]. rewrite !tour_S. revert seen H.
      induction ls as [|[n [i|t']] t IHl]; intros seen H; cbn [tgo]; auto.
      + destruct (existsb (Nat.eqb i) seen) eqn:B; [now rewrite IHl|]. apply not_seen in B.
        rewrite IH.
        * rewrite IHl; auto. eapply Nat.le_lt_trans; [|exact H]. apply left_incl.
          eapply incl_tran; [|apply seen_tour]. intros x Hx. now right.
        * destruct (Nat.lt_ge_cases i (List.length os)) as [L|L].
          -- right. pose proof (left_cons os i seen L B). lia.
          -- left. unfold links_of. apply nth_error_None in L. now rewrite L, ordered_nil.
      + now rewrite IHl.
  Qed.
  Lemma left_le os seen : (left os seen <= List.length os)%nat.
  Proof. unfold left. etransitivity; [apply filter_length_le'|]. now rewrite seq_length. Qed.
  Lemma tour_fuel os f k seen p ls : (List.length os < f)%nat -> T (k + f) os seen p ls = T f os seen p ls.
  Proof.
    intros H. induction k as [|k IH]; [reflexivity|]. cbn [plus]. rewrite tour_more; auto. right.
    pose proof (left_le os seen). lia.
  Qed.

  (** * The stored file *)

  Definition ev2 (x : list string * target) : list string * target := (map en (fst x), et (snd x)).
  Definition nz (ls : list (string * target)) : Prop := forall n, ~ In (n, Hard 0) ls.
  Lemma nz_ordered ls : nz ls -> nz (ordered it io ls).
  Proof. intros H n K. apply ordered_In in K. exact (H n K). Qed.
  Lemma nz_tl x ls : nz (x :: ls) -> nz ls.
  Proof. intros H n K. apply (H n). now right. Qed.
  Lemma ordered_elink ls : ordered it io (map elink ls) = map elink (ordered it io ls).
  Proof. unfold elink. apply (ordered_map et). Qed.
  Lemma show_if (b : bool) x : (if b then [ev2 x] else []) = map ev2 (if b then [x] else []).
  Proof. now destruct b. Qed.

  Section Enc.
    Context (os : list obj) (N : os <> []) (NZ : forall j, nz (links_of os j)).

    Lemma tgo_enc f :
      (forall seen seen' p ls, sim seen seen' -> nz ls ->
         exists s', T f (eobjs os) seen' (map en p) (map elink ls) = (map ev2 (fst (T f os seen p ls)), s') /\
           sim (snd (T f os seen p ls)) s') ->
      forall ls seen seen' p, sim seen seen' -> nz ls ->
         exists s', tgo (eobjs os) f (map en p) seen' (map elink ls) = (map ev2 (fst (tgo os f p seen ls)), s') /\
           sim (snd (tgo os f p seen ls)) s'.
    Proof.
      intros IHf. induction ls as [|[n [i|t']] t IH]; intros seen seen' p Sm Z; cbn [map elink fst snd et tgo]; eauto;
        assert (MA : map en p ++ [en n] = map en (p ++ [n])) by (rewrite map_app; reflexivity); rewrite ?MA;
        pose proof (nz_tl _ _ Z) as Zt.
      - rewrite (sim_b _ _ _ Sm). destruct (existsb (Nat.eqb i) seen) eqn:B.
        + destruct (IH seen seen' p Sm Zt) as (s' & E & S'). rewrite E. cbn [fst snd]. exists s'. split; auto.
          f_equal. destruct lk; reflexivity.
        + assert (I : i <> O). { intros ->. apply (Z n). now left. }
          rewrite links_enc, ordered_elink by auto.
          destruct (IHf (i :: seen) (up i :: seen') (p ++ [n]) (ordered it io (links_of os i))) as (s1 & E1 & S1);
            [now apply sim_cons|now apply nz_ordered|].
          rewrite E1. cbn [fst snd].
          destruct (IH (snd (T f os (i :: seen) (p ++ [n]) (ordered it io (links_of os i)))) s1 p) as (s2 & E2 & S2); auto.
          rewrite E2. cbn [fst snd]. exists s2. split; auto. f_equal. cbn [map]. unfold ev2 at 2. cbn [fst snd et].
          f_equal. symmetry. apply map_app.
      - destruct (IH seen seen' p Sm Zt) as (s' & E & S'). rewrite E. cbn [fst snd]. exists s'. split; auto.
        f_equal. destruct lk; reflexivity.
    Qed.
    Lemma tour_enc f : forall seen seen' p ls, sim seen seen' -> nz ls ->
      exists s', T f (eobjs os) seen' (map en p) (map elink ls) = (map ev2 (fst (T f os seen p ls)), s') /\
        sim (snd (T f os seen p ls)) s'.
    Proof.
      induction f as [|f IH]; intros seen seen' p ls Sm Z; [cbn; eauto|]. rewrite !tour_S. now apply tgo_enc.
    Qed.

    Definition vis (x : list string * target) : bool := match fst x with c :: _ => visible c | [] => true end.
    Lemma vis_ev x : vis (ev2 x) = true.
    Proof. unfold vis, ev2, visible. cbn [fst]. destruct (fst x); [reflexivity|]. cbn [map]. now rewrite en_shown. Qed.
    Lemma vis_map v : filter vis (map ev2 v) = map ev2 v.
    Proof. induction v as [|x t IH]; [reflexivity|]. cbn [map filter]. now rewrite vis_ev, IH. Qed.
    Lemma sim_skip seen seen' : sim seen seen' -> sim seen (1%nat :: seen').
    Proof. intros Sm i. specialize (Sm i). cbn [In]. rewrite <- Sm. split; [intros [H|H]; auto; destruct i; discriminate H|auto]. Qed.

    Lemma tgo_top f : forall ls' ls seen seen', sim seen seen' -> nz ls ->
      filter (fun p => visible (fst p)) ls' = map elink ls ->
      (forall x, In x ls' -> visible (fst x) = false -> x = (LOG_GROUP, Hard 1)) ->
      filter vis (fst (tgo (eobjs os) f [] seen' ls')) = map ev2 (fst (tgo os f [] seen ls)).
    Proof.
      induction ls' as [|x ls' IH]; intros ls seen seen' Sm Z F H.
      - destruct ls; [reflexivity|discriminate F].
      - cbn [filter] in F. destruct (visible (fst x)) eqn:V.
        + destruct ls as [|l ls]; [discriminate F|]. cbn [map] in F. injection F as Fx F. subst x.
          pose proof (nz_tl _ _ Z) as Zt.
          assert (H' : forall x, In x ls' -> visible (fst x) = false -> x = (LOG_GROUP, Hard 1)) by (intros y Hy; apply H; now right).
          destruct l as [n [i|t']]; cbn [elink fst snd et tgo].
          * rewrite (sim_b _ _ _ Sm). destruct (existsb (Nat.eqb i) seen) eqn:B.
            -- cbn [fst snd]. rewrite filter_app, map_app, (IH ls seen seen') by auto. f_equal.
               destruct lk; [|reflexivity]. exact (vis_map [([n], Hard i)]).
            -- assert (I : i <> O). { intros ->. apply (Z n). now left. }
               rewrite links_enc, ordered_elink by auto.
               destruct (tour_enc f (i :: seen) (up i :: seen') [n] (ordered it io (links_of os i))) as (s1 & E1 & S1);
                 [now apply sim_cons|now apply nz_ordered|].
               cbn [map] in E1. cbn [app]. rewrite E1. cbn [fst snd map].
               change ([en n], Hard (up i)) with (ev2 ([n], Hard i)).
               cbn [filter]. rewrite vis_ev, filter_app, vis_map, map_app. f_equal. f_equal. now apply IH.
          * cbn [fst snd]. rewrite filter_app, map_app, (IH ls seen seen') by auto. f_equal.
            destruct lk; [|reflexivity]. exact (vis_map [([n], Soft t')]).
        + pose proof (H x (or_introl eq_refl) V). subst x. cbn [tgo].
          assert (H' : forall x, In x ls' -> visible (fst x) = false -> x = (LOG_GROUP, Hard 1)) by (intros y Hy; apply H; now right).
          destruct (existsb (Nat.eqb 1) seen').
          * cbn [fst]. rewrite filter_app, (IH ls seen seen') by auto. destruct lk; reflexivity.
          * assert (L1 : links_of (eobjs os) 1 = []) by (destruct os; reflexivity).
            rewrite L1, ordered_nil, tour_nil. cbn [fst snd app filter].
            replace (vis ([LOG_GROUP], Hard 1)) with false by reflexivity.
            apply IH; auto. now apply sim_skip.
    Qed.

    Lemma tour_enc_fuel i o : nth_error os i = Some o ->
      filter vis (fst (T (S (List.length (eobjs os))) (eobjs os) [up i] [] (ordered it io (ob_links (eobj (isr i) o))))) =
      map ev2 (fst (T (S (List.length os)) os [i] [] (ordered it io (ob_links o)))).
    Proof.
      intros Ho.
      assert (Len : List.length (eobjs os) = S (List.length os)).
      { destruct os; [congruence|]. cbn [eobjs List.length]. now rewrite map_length. }
      rewrite Len. rewrite <- (tour_fuel os (S (List.length os)) 1) by lia. cbn [plus]. rewrite !tour_S.
      assert (Sm : sim [i] [up i]).
      { intros j. cbn [In]. split; intros [H|[]]; left; [now apply up_inj|now subst]. }
      assert (Zo : nz (ob_links o)). { specialize (NZ i). unfold links_of in NZ. now rewrite Ho in NZ. }
      apply tgo_top; auto.
      - now apply nz_ordered.
      - rewrite filter_ordered, <- ordered_elink. f_equal. cbn [eobj ob_links]. rewrite filter_app.
        replace (filter _ (own_links (isr i))) with (@nil (string * target)) by (unfold isr; destruct i; reflexivity).
        cbn [app]. induction (ob_links o) as [|x t IH]; [reflexivity|]. cbn [map filter elink fst]. unfold visible at 1.
        rewrite en_shown. f_equal. apply IH. intros n Hn. apply (Zo n). now right.
      - intros x Hx V. apply ordered_In in Hx. cbn [eobj ob_links] in Hx. apply in_app_or in Hx as [Hx|Hx].
        + unfold isr in Hx. destruct i; [|destruct Hx]. destruct Hx as [<-|[]]. reflexivity.
        + apply in_map_iff in Hx as (y & <- & _). unfold visible in V. cbn [elink fst] in V. now rewrite en_shown in V.
    Qed.
  End Enc.
End Tour.
