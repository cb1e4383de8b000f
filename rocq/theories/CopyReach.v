(** The visit reaches everything, once; links lead to objects. *)
From Verif Require Import Base NameModel LibModel NsModel NsSpec NsProofs NsSim NsClaims CopyModel CopySpec CopyProofs.
From Coq Require Import Ascii String Lia ZifyNat Permutation.

Definition inr (st : lib) : Prop :=
  forall i o n j, nth_error (l_objs st) i = Some o -> In (n, Hard j) (ob_links o) -> (j < List.length (l_objs st))%nat.

Lemma upd_len {A} i (x : A) l : List.length (upd_nth i x l) = List.length l.
Proof. revert i. induction l as [|y t IH]; intros [|i]; cbn; auto. Qed.
Lemma nth_upd {A} i (x : A) l k y : nth_error (upd_nth i x l) k = Some y -> y = x \/ nth_error l k = Some y.
Proof.
  revert i k. induction l as [|z t IH]; intros [|i] [|k]; cbn; auto; try discriminate.
  - intros [= <-]. auto.
  - apply IH.
Qed.
Lemma inr_set st i o : inr st -> (forall n j, In (n, Hard j) (ob_links o) -> (j < List.length (l_objs st))%nat) ->
  inr (set_obj st i o).
Proof.
  intros I H k o' n j. unfold set_obj. cbn [l_objs]. rewrite upd_len. intros N L. apply nth_upd in N as [->|N]; eauto.
Qed.
Definition tgt_ok (st : lib) (t : target) : Prop := match t with Hard j => (j < List.length (l_objs st))%nat | Soft _ => True end.
Lemma inr_add st h n t st' : inr st -> tgt_ok st t -> add_link st h n t = Some st' -> inr st' /\ List.length (l_objs st') = List.length (l_objs st).
Proof.
  unfold add_link. intros I T. destruct (obj_of st h) as [[i g]|] eqn:O; [|discriminate]. apply obj_of_nth in O.
  destruct (ob_kind g) eqn:K; try discriminate. destruct (assoc n (ob_links g)) eqn:A; try discriminate. intros [= <-].
  split; [|unfold set_obj; cbn [l_objs]; apply upd_len].
  apply inr_set; auto. cbn [set_links ob_links]. intros m j H. apply in_app_or in H as [H|[H|[]]]; eauto.
  injection H as -> ->. exact T.
Qed.
Lemma inr_del st h n : inr st -> inr (del_link st h n).
Proof.
  unfold del_link. intros I. destruct (obj_of st h) as [[i g]|] eqn:O; auto. apply obj_of_nth in O.
  apply inr_set; auto. cbn [set_links ob_links]. intros m j H. unfold drop in H. apply filter_In in H as [H _]. eauto.
Qed.
Lemma len_del st h n : List.length (l_objs (del_link st h n)) = List.length (l_objs st).
Proof. unfold del_link. destruct (obj_of st h) as [[i g]|]; auto. unfold set_obj. cbn [l_objs]. apply upd_len. Qed.
Lemma inr_put st h n t : inr st -> tgt_ok st t -> inr (fst (put_link st h n t)).
Proof. unfold put_link. intros I T. destruct (add_link st h n t) eqn:A; cbn [or_fail fst]; auto. eapply inr_add; eauto. Qed.
Lemma assoc_some {A} n (l : list (string * A)) a : assoc n l = Some a -> In (n, a) l.
Proof.
  induction l as [|[m b] t IH]; [discriminate|]. cbn [assoc]. destruct (String.eqb_spec n m) as [->|].
  - intros [= ->]. now left.
  - intros H. right. auto.
Qed.
Lemma get_ok st h n t : inr st -> get_link st h n = Some t -> tgt_ok st t.
Proof.
  unfold get_link. intros I. destruct (obj_of st h) as [[i g]|] eqn:O; [|discriminate]. apply obj_of_nth in O.
  intros A. apply assoc_some in A. destruct t; cbn; eauto.
Qed.
Lemma inr_new st h n k : inr st -> inr (fst (new_obj st h n k)).
Proof.
  intros I. unfold new_obj. unfold add_link. destruct (obj_of st h) as [[i g]|] eqn:O; [|exact I]. apply obj_of_nth in O.
  destruct (ob_kind g); try exact I. destruct (assoc n (ob_links g)); [exact I|]. cbn [fst].
  intros z o m j. cbn [l_objs set_obj]. rewrite app_length, upd_len. cbn [List.length]. intros N L.
  destruct (Nat.lt_ge_cases z (List.length (upd_nth i (set_links g (ob_links g ++ [(n, Hard (List.length (l_objs st)))])) (l_objs st)))).
  - rewrite nth_error_app1 in N by auto. apply nth_upd in N as [->|N].
    + cbn [set_links ob_links] in L. apply in_app_or in L as [L|[L|[]]].
      * specialize (I _ _ _ _ O L). lia.
      * injection L as <- <-. lia.
    + specialize (I _ _ _ _ N L). lia.
  - rewrite nth_error_app2 in N by auto. apply nth_error_In in N. cbn [In] in N. destruct N as [<-|[]]. destruct L.
Qed.
Lemma inr_attrs st l i o a : inr st -> loc_of st l = Some (i, o) -> inr (set_obj st i (set_attrs o a)).
Proof. intros I L. apply loc_of_nth in L. apply inr_set; auto. cbn [set_attrs ob_links]. eauto. Qed.
Ltac inr_attr :=
  match goal with
  | |- inr (fst (or_fail ?st (loc_of ?st ?l) _)) =>
      let i := fresh "i" in let o := fresh "o" in let L := fresh "L" in
      destruct (loc_of st l) as [[i o]|] eqn:L; cbn [or_fail fst snd]; auto
  end.
Lemma inr_step st c : inr st -> inr (fst (lib_step st c)).
Proof.
  intros W. destruct c; cbn [lib_step]; auto using inr_new.
  - destruct (loc_of st (Named h n)); cbn; auto.
  - destruct (obj_of st h) as [[i g]|]; cbn [or_fail fst snd]; auto.
    destruct (nth_error (ordered it io (ob_links g)) k) as [q|]; cbn [or_fail fst snd]; auto.
    destruct (loc_of st (Named h (fst q))); cbn; auto.
  - destruct (obj_of st h); cbn; auto.
  - destruct (get_link st h n); cbn [or_fail fst]; auto using inr_del.
  - destruct (same_loc h1 h2) as [hh|]; cbn [or_fail fst]; auto.
    destruct (get_link st (fst hh) n1) as [t|] eqn:G; cbn [or_fail fst]; auto.
    destruct (add_link st (snd hh) n2 t); cbn [or_fail fst]; auto. apply inr_put; [now apply inr_del|].
    eapply get_ok in G; eauto. destruct t; cbn in *; auto. now rewrite len_del.
  - destruct (get_link st h1 n1) eqn:G; cbn [or_fail fst]; auto. apply inr_put; eauto using get_ok.
  - destruct (loc_of st (Named h1 n1)) as [[i o]|] eqn:L; cbn [or_fail fst]; auto. apply loc_of_nth in L.
    apply inr_put; auto. cbn. apply nth_error_Some. congruence.
  - apply inr_put; auto. exact Logic.I.
  - destruct (obj_of st h); cbn; auto.
  - destruct (obj_of st h); cbn; auto.
  - destruct (obj_of st h) as [[i g]|]; cbn [or_fail fst snd]; auto.
    destruct (nth_error (ordered it io (ob_links g)) k); cbn; auto.
  - inr_attr. destruct (assoc n (ob_attrs o)) eqn:A; cbn [fst]; auto. eapply inr_attrs; eauto.
  - inr_attr. destruct (assoc n (ob_attrs o)); cbn [or_fail fst]; auto.
  - inr_attr. destruct (assoc n (ob_attrs o)); cbn [or_fail fst]; auto. eapply inr_attrs; eauto.
  - inr_attr.
  - inr_attr. destruct (assoc n (ob_attrs o)); cbn [or_fail fst]; auto. eapply inr_attrs; eauto.
  - inr_attr. destruct (assoc old (ob_attrs o)); cbn [or_fail fst]; auto.
    destruct (assoc new (ob_attrs o)) eqn:A; cbn [fst]; auto. eapply inr_attrs; eauto.
  - inr_attr. destruct (assoc n (ob_attrs o)); cbn [or_fail fst]; auto.
  - inr_attr. destruct (nth_error _ k); cbn [or_fail fst]; auto.
  - inr_attr. destruct (nth_error _ k); cbn [or_fail fst]; auto.
  - inr_attr. destruct (nth_error _ k); cbn [or_fail fst]; auto.
  - inr_attr. destruct (nth_error _ k); cbn [or_fail fst]; auto. eapply inr_attrs; eauto.
  - inr_attr.
  - inr_attr.
Qed.
Lemma inr0 : inr lib0.
Proof. intros [|[|i]] o n j H L; try discriminate H. injection H as <-. destruct L. Qed.
Lemma inr_run st cs : inr st -> inr (fst (lib_run st cs)).
Proof. revert st. induction cs as [|c t IH]; intros st W; [exact W|]. cbn. apply IH. now apply inr_step. Qed.

(** * Completeness of the visit *)

Lemma hp_links os j n i : In (n, Hard i) (links_of os j) -> hard_path os j [n] i.
Proof. unfold links_of. destruct (nth_error os j) eqn:E; [|intros []]. intros H. eapply hp_one; eauto. Qed.
Lemma hp_links' os j n i r k : In (n, Hard i) (links_of os j) -> hard_path os i r k -> hard_path os j (n :: r) k.
Proof. unfold links_of. destruct (nth_error os j) eqn:E; [|intros []]. intros H. eapply hp_more; eauto. Qed.

Lemma filter_length_le' {A} (f : A -> bool) l : (List.length (filter f l) <= List.length l)%nat.
Proof. induction l as [|x t IH]; auto. cbn [filter]. destruct (f x); cbn [List.length]; lia. Qed.
Section Dfs.
  Context (os : list obj).
  (** Objects not seen yet. *)
  Definition left (seen : list nat) : nat :=
    List.length (filter (fun i => negb (existsb (Nat.eqb i) seen)) (seq 0 (List.length os))).
  Lemma left_incl a b : incl a b -> (left b <= left a)%nat.
  Proof.
    intros H. unfold left. induction (seq 0 (List.length os)) as [|x t IH]; [auto|]. cbn [filter].
    destruct (existsb (Nat.eqb x) a) eqn:A; cbn [negb].
    - assert (existsb (Nat.eqb x) b = true) as ->. { apply existsb_exists in A as (y & Hy & E). apply existsb_exists. eauto. }
      cbn [negb]. exact IH.
    - destruct (existsb (Nat.eqb x) b); cbn [negb List.length]; lia.
  Qed.
  Lemma left_cons i seen : (i < List.length os)%nat -> ~ In i seen -> (S (left (i :: seen)) <= left seen)%nat.
  Proof.
    intros L N. unfold left. assert (IN : In i (seq 0 (List.length os))) by (apply in_seq; lia).
    assert (forall l, (List.length (filter (fun x => negb (existsb (Nat.eqb x) (i :: seen))) l) <=
                       List.length (filter (fun x => negb (existsb (Nat.eqb x) seen)) l))%nat) as LE.
    { induction l as [|x t IH]; auto. cbn [filter existsb]. cbn [existsb] in IH. destruct (x =? i)%nat; cbn [orb negb];
        destruct (existsb (Nat.eqb x) seen); cbn [negb List.length]; lia. }
    assert (B : existsb (Nat.eqb i) seen = false).
    { destruct (existsb (Nat.eqb i) seen) eqn:B; auto. apply existsb_exists in B as (y & Hy & E). apply Nat.eqb_eq in E. subst. tauto. }
    induction (seq 0 (List.length os)) as [|x t IH]; [destruct IN|]. cbn [filter existsb].
    destruct IN as [->|IN].
    - rewrite Nat.eqb_refl, B. cbn [orb negb List.length]. specialize (LE t). cbn [existsb] in LE. lia.
    - specialize (IH IN). cbn [existsb] in IH. destruct (x =? i)%nat; cbn [orb negb];
        destruct (existsb (Nat.eqb x) seen); cbn [negb List.length]; lia.
  Qed.

  Record full (ls : list (string * target)) (seen : list nat) (v : list (list string * nat) * list nat) : Prop := {
    f_links : forall n i, In (n, Hard i) ls -> In i (snd v);
    f_incl : incl seen (snd v);
    f_new : forall i, In i (snd v) -> In i seen \/ In i (map snd (fst v));
    f_closed : forall j n i, In j (map snd (fst v)) -> In (n, Hard i) (links_of os j) -> In i (snd v);
    f_seen : forall j, In j (map snd (fst v)) -> In j (snd v) /\ ~ In j seen;
    f_once : NoDup (map snd (fst v)) }.

  Lemma full_go f p :
    (forall seen q ls, ls = [] \/ (left seen < f)%nat -> full ls seen (visit f os seen q ls)) ->
    forall ls seen, (left seen < S f)%nat -> full ls seen (go os f p seen ls).
  Proof.
    intros IHf. induction ls as [|[n [i|t']] t IH]; intros seen L; cbn [go].
    - split; cbn [fst snd map]; auto using incl_refl; try (intros; contradiction). constructor.
    - destruct (existsb (Nat.eqb i) seen) eqn:B.
      { specialize (IH seen L). destruct IH as [A1 A2 A3 A4 A5 A6]. split; auto.
        intros m j [H|H]; eauto. injection H as _ <-. apply A2. apply existsb_exists in B as (y & Hy & E).
        apply Nat.eqb_eq in E. now subst. }
      apply not_seen in B.
      assert (F1 : full (links_of os i) (i :: seen) (visit f os (i :: seen) (p ++ [n]) (links_of os i))).
      { apply IHf. destruct (Nat.lt_ge_cases i (List.length os)) as [H|H].
        - right. pose proof (left_cons i seen H B). lia.
        - left. unfold links_of. apply nth_error_None in H. now rewrite H. }
      set (R := visit f os (i :: seen) (p ++ [n]) (links_of os i)) in *.
      assert (L2 : (left (snd R) < S f)%nat).
      { destruct F1 as [_ A2 _ _ _ _]. assert (incl seen (snd R)) by (intros x Hx; apply A2; now right).
        pose proof (left_incl _ _ H). lia. }
      specialize (IH (snd R) L2). set (Q := go os f p (snd R) t) in *. cbn [fst snd].
      destruct F1 as [A1 A2 A3 A4 A5 A6], IH as [B1 B2 B3 B4 B5 B6]. split; cbn [fst snd map].
      + intros m j [H|H]; eauto. injection H as _ <-. apply B2, A2. now left.
      + intros x Hx. apply B2, A2. now right.
      + intros j Hj. apply B3 in Hj as [Hj|Hj].
        * apply A3 in Hj as [[Hj|Hj]|Hj]; auto.
          -- right. left. auto.
          -- right. right. rewrite map_app. apply in_or_app. auto.
        * right. right. rewrite map_app. apply in_or_app. auto.
      + intros j m k [Hj|Hj] H.
        * subst j. apply B2. eauto.
        * rewrite map_app in Hj. apply in_app_or in Hj as [Hj|Hj]; eauto.
      + intros j [Hj|Hj].
        * subst j. split; [apply B2, A2; now left|auto].
        * rewrite map_app in Hj. apply in_app_or in Hj as [Hj|Hj].
          -- destruct (A5 _ Hj) as [H1 H2]. split; [now apply B2|]. intros K. apply H2. now right.
          -- destruct (B5 _ Hj) as [H1 H2]. split; auto. intros K. apply H2, A2. now right.
      + rewrite map_app. constructor.
        * intros H. apply in_app_or in H as [H|H].
          -- apply A5 in H as [_ H]. apply H. now left.
          -- apply B5 in H as [_ H]. apply H, A2. now left.
        * apply nodup_apart; auto. intros x H1 H2. apply A5 in H1 as [H1 _]. apply B5 in H2 as [_ H2]. auto.
    - specialize (IH seen L). destruct IH as [A1 A2 A3 A4 A5 A6]. split; auto.
      intros m j [H|H]; eauto. discriminate.
  Qed.
  Lemma full_visit f : forall seen p ls, ls = [] \/ (left seen < f)%nat -> full ls seen (visit f os seen p ls).
  Proof.
    induction f as [|f IH]; intros seen p ls [->|L].
    - split; cbn [visit fst snd map]; auto using incl_refl; try (intros; contradiction). constructor.
    - lia.
    - rewrite visit_nil. split; cbn [visit fst snd map]; auto using incl_refl; try (intros; contradiction). constructor.
    - rewrite visit_S. now apply full_go.
  Qed.
  Lemma visit_complete f : os <> [] -> (List.length os <= f)%nat ->
    NoDup (map snd (visit_file f os)) /\
    forall p i, hard_path os 0 p i -> i <> O -> exists q, In (q, i) (visit_file f os).
  Proof.
    intros N L. unfold visit_file.
    assert (F : full (links_of os 0) [0%nat] (visit f os [0%nat] [] (links_of os 0))).
    { apply full_visit. right. assert (0 < List.length os)%nat by (destruct os; [congruence|cbn; lia]).
      pose proof (left_cons 0 [] H ltac:(intros [])). assert (left [] <= List.length os)%nat; [|lia].
      unfold left. etransitivity; [apply filter_length_le'|]. now rewrite seq_length. }
    destruct F as [A1 A2 A3 A4 A5 A6]. split; auto.
    set (V := visit f os [0%nat] [] (links_of os 0)) in *.
    assert (K : forall p j i, hard_path os j p i -> In j (snd V) -> In i (snd V)).
    { induction 1 as [j o n i Hj Hn|j o n i r k Hj Hn _ IH]; intros IN.
      - apply A3 in IN as [[<-|[]]|IN].
        + apply (A1 n). unfold links_of. now rewrite Hj.
        + apply (A4 j n i IN). unfold links_of. now rewrite Hj.
      - apply IH. apply A3 in IN as [[<-|[]]|IN].
        + apply (A1 n). unfold links_of. now rewrite Hj.
        + apply (A4 j n i IN). unfold links_of. now rewrite Hj. }
    intros p i H I0. assert (In i (snd V)) by (eapply K; eauto; apply A2; now left).
    apply A3 in H0 as [[H0|[]]|H0]; [congruence|]. apply in_map_iff in H0 as ([q i'] & <- & H0). eauto.
  Qed.
End Dfs.
