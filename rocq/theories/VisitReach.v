(** No link leads to the root group. *)
From Verif Require Import Base NameModel LibModel NsModel NsSpec NsProofs NsSim NsClaims CopyModel CopySpec CopyProofs CopyReach VisitModel VisitSpec VisitProofs.
From Coq Require Import Ascii String Lia ZifyNat.

Definition nzs (st : lib) : Prop := forall i o, nth_error (l_objs st) i = Some o -> nz (ob_links o).
Definition tnz (t : target) : Prop := t <> Hard 0.

Lemma nzs_set st i o : nzs st -> nz (ob_links o) -> nzs (set_obj st i o).
Proof. intros I H k o'. unfold set_obj. cbn [l_objs]. intros N. apply nth_upd in N as [->|N]; eauto. Qed.
Lemma nz_snoc ls n t : nz ls -> tnz t -> nz (ls ++ [(n, t)]).
Proof. intros H T m K. apply in_app_or in K as [K|[K|[]]]; [exact (H m K)|]. injection K as _ K. now apply T. Qed.
Lemma nzs_add st h n t st' : nzs st -> tnz t -> add_link st h n t = Some st' -> nzs st'.
Proof.
  unfold add_link. intros I T. destruct (obj_of st h) as [[i g]|] eqn:O; [|discriminate]. apply obj_of_nth in O.
  destruct (ob_kind g) eqn:K; try discriminate. destruct (assoc n (ob_links g)) eqn:A; try discriminate. intros [= <-].
  apply nzs_set; auto. cbn [set_links ob_links]. apply nz_snoc; eauto.
Qed.
Lemma nzs_del st h n : nzs st -> nzs (del_link st h n).
Proof.
  unfold del_link. intros I. destruct (obj_of st h) as [[i g]|] eqn:O; auto. apply obj_of_nth in O.
  apply nzs_set; auto. cbn [set_links ob_links]. intros m H. unfold drop in H. apply filter_In in H as [H _].
  exact (I _ _ O m H).
Qed.
Lemma nzs_put st h n t : nzs st -> tnz t -> nzs (fst (put_link st h n t)).
Proof. unfold put_link. intros I T. destruct (add_link st h n t) eqn:A; cbn [or_fail fst]; auto. eapply nzs_add; eauto. Qed.
Lemma get_nz st h n t : nzs st -> get_link st h n = Some t -> tnz t.
Proof.
  unfold get_link. intros I. destruct (obj_of st h) as [[i g]|] eqn:O; [|discriminate]. apply obj_of_nth in O.
  intros A. apply assoc_some in A. intros ->. exact (I _ _ O n A).
Qed.
Lemma nzs_new st h n k : wf st -> nzs st -> nzs (fst (new_obj st h n k)).
Proof.
  intros (r0 & t0 & W & _) I. unfold new_obj. destruct (add_link st h n (Hard (List.length (l_objs st)))) as [st1|] eqn:A; [|exact I].
  apply nzs_add in A; auto.
  - cbn [fst]. intros z o. cbn [l_objs]. intros N. destruct (Nat.lt_ge_cases z (List.length (l_objs st1))).
    + rewrite nth_error_app1 in N by auto. eauto.
    + rewrite nth_error_app2 in N by auto. apply nth_error_In in N. destruct N as [<-|[]]. intros m [].
  - rewrite W. discriminate.
Qed.
Lemma nzs_attrs st l i o a : nzs st -> loc_of st l = Some (i, o) -> nzs (set_obj st i (set_attrs o a)).
Proof. intros I L. apply loc_of_nth in L. apply nzs_set; auto. cbn [set_attrs ob_links]. eauto. Qed.
Lemma resolve_nz f ls n i : nz ls -> resolve f ls n = Some i -> i <> O.
Proof.
  intros Z. revert n. induction f as [|f IH]; intros n; cbn [resolve]; destruct (assoc n ls) as [[j|t]|] eqn:A; try discriminate;
    try (intros [= <-] ->; apply assoc_some in A; exact (Z n A)).
  apply IH.
Qed.
Lemma named_nz st h n i o : nzs st -> loc_of st (Named h n) = Some (i, o) -> i <> O.
Proof.
  intros I. cbn [loc_of]. destruct (obj_of st h) as [[j g]|] eqn:O; [|discriminate]. apply obj_of_nth in O.
  destruct (resolve 16 (ob_links g) n) as [k|] eqn:R; [|discriminate]. destruct (nth_error (l_objs st) k); [|discriminate].
  intros [= <- <-]. eapply resolve_nz; eauto.
Qed.
Ltac nzs_attr :=
  match goal with
  | |- nzs (fst (or_fail ?st (loc_of ?st ?l) _)) =>
      let i := fresh "i" in let o := fresh "o" in let L := fresh "L" in
      destruct (loc_of st l) as [[i o]|] eqn:L; cbn [or_fail fst snd]; auto
  end.
Lemma nzs_step st c : wf st -> nzs st -> nzs (fst (lib_step st c)).
Proof.
  intros WF W. destruct c; cbn [lib_step]; auto using nzs_new.
  - destruct (loc_of st (Named h n)); cbn; auto.
  - destruct (obj_of st h) as [[i g]|]; cbn [or_fail fst snd]; auto.
    destruct (nth_error (ordered it io (ob_links g)) k) as [q|]; cbn [or_fail fst snd]; auto.
    destruct (loc_of st (Named h (fst q))); cbn; auto.
  - destruct (obj_of st h); cbn; auto.
  - destruct (get_link st h n); cbn [or_fail fst]; auto using nzs_del.
  - destruct (same_loc h1 h2) as [hh|]; cbn [or_fail fst]; auto.
    destruct (get_link st (fst hh) n1) as [t|] eqn:G; cbn [or_fail fst]; auto.
    destruct (add_link st (snd hh) n2 t); cbn [or_fail fst]; auto. apply nzs_put; [now apply nzs_del|].
    eapply get_nz in G; eauto.
  - destruct (get_link st h1 n1) eqn:G; cbn [or_fail fst]; auto. apply nzs_put; eauto using get_nz.
  - destruct (loc_of st (Named h1 n1)) as [[i o]|] eqn:L; cbn [or_fail fst]; auto. apply named_nz in L; auto.
    apply nzs_put; auto. intros [= H]. auto.
  - apply nzs_put; auto. discriminate.
  - destruct (obj_of st h); cbn; auto.
  - destruct (obj_of st h); cbn; auto.
  - destruct (obj_of st h) as [[i g]|]; cbn [or_fail fst snd]; auto.
    destruct (nth_error (ordered it io (ob_links g)) k); cbn; auto.
  - nzs_attr. destruct (assoc n (ob_attrs o)) eqn:A; cbn [fst]; auto. eapply nzs_attrs; eauto.
  - nzs_attr. destruct (assoc n (ob_attrs o)); cbn [or_fail fst]; auto.
  - nzs_attr. destruct (assoc n (ob_attrs o)); cbn [or_fail fst]; auto. eapply nzs_attrs; eauto.
  - nzs_attr.
  - nzs_attr. destruct (assoc n (ob_attrs o)); cbn [or_fail fst]; auto. eapply nzs_attrs; eauto.
  - nzs_attr. destruct (assoc old (ob_attrs o)); cbn [or_fail fst]; auto.
    destruct (assoc new (ob_attrs o)) eqn:A; cbn [fst]; auto. eapply nzs_attrs; eauto.
  - nzs_attr. destruct (assoc n (ob_attrs o)); cbn [or_fail fst]; auto.
  - nzs_attr. destruct (nth_error _ k); cbn [or_fail fst]; auto.
  - nzs_attr. destruct (nth_error _ k); cbn [or_fail fst]; auto.
  - nzs_attr. destruct (nth_error _ k); cbn [or_fail fst]; auto.
  - nzs_attr. destruct (nth_error _ k); cbn [or_fail fst]; auto. eapply nzs_attrs; eauto.
  - nzs_attr.
  - nzs_attr.
Qed.
Lemma nzs0 : nzs lib0.
Proof. intros [|[|i]] o H; try discriminate H. injection H as <-. intros n []. Qed.
Lemma nzs_run st cs : wf st -> nzs st -> nzs (fst (lib_run st cs)).
Proof.
  revert st. induction cs as [|c t IH]; intros st WF W; [exact W|]. cbn. apply IH; [now apply wf_step|now apply nzs_step].
Qed.
