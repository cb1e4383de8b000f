(** The in-place reordering loop of sortblocks applies the permutation it is given. *)
From Verif Require Import Base BaseProofs SelModel.
From Coq Require Import ZifyNat.

Section Reorder.
Context {A : Type} (dflt : A) (idx0 : list nat) (v0 : list A).
Let n := length v0.
Hypothesis Hperm : Permutation (seq 0 n) idx0.

Lemma idx0_len : length idx0 = n.
Proof. rewrite <- (Permutation_length Hperm), seq_length. reflexivity. Qed.
Lemma idx0_lt : forall p, (p < n)%nat -> (nth p idx0 O < n)%nat.
Proof.
  intros p Hp. assert (In (nth p idx0 O) idx0) by (apply nth_In; rewrite idx0_len; auto).
  apply (Permutation_in _ (Permutation_sym Hperm)) in H. apply in_seq in H. lia.
Qed.
Lemma idx0_inj : forall p q, (p < n)%nat -> (q < n)%nat -> nth p idx0 O = nth q idx0 O -> p = q.
Proof.
  intros p q Hp Hq H. assert (ND : NoDup idx0) by (apply (Permutation_NoDup Hperm), seq_NoDup).
  apply (proj1 (NoDup_nth idx0 O) ND); rewrite ?idx0_len; auto.
Qed.

(** Positions in [D] are final, the others untouched. *)
Definition good (D : list nat) (idx : list nat) (v : list A) : Prop :=
  length idx = n /\ length v = n /\
  (forall p, (p < n)%nat -> In p D -> nth p idx O = p /\ nth p v dflt = nth (nth p idx0 O) v0 dflt) /\
  (forall p, (p < n)%nat -> ~ In p D -> nth p idx O = nth p idx0 O /\ nth p v dflt = nth p v0 dflt).
Definition closed (D : list nat) : Prop := forall q, In q D -> (q < n)%nat /\ exists p, In p D /\ nth p idx0 O = q.

Lemma nth_upd : forall B (l : list B) i j (a d : B), (i < length l)%nat ->
  nth j (upd_nth i a l) d = if Nat.eqb i j then a else nth j l d.
Proof.
  induction l as [|x l IH]; intros i j a d Hi; cbn in Hi; [lia|].
  destruct i, j; cbn; auto. rewrite IH by lia. reflexivity.
Qed.
Lemma upd_len : forall B i (a : B) l, length (upd_nth i a l) = length l.
Proof. intros B i a l. revert i. induction l; destruct i; cbn; auto. Qed.

Lemma good_upd : forall D idx v j x, good D idx v -> (j < n)%nat -> ~ In j D ->
  x = nth (nth j idx0 O) v0 dflt -> good (j :: D) (upd_nth j j idx) (upd_nth j x v).
Proof.
  intros D idx v j x (L1 & L2 & G1 & G2) Hj HD ->. split; [|split; [|split]]; rewrite ?upd_len; auto.
  - intros p Hp HI. rewrite !nth_upd by lia. destruct (Nat.eqb_spec j p); [subst; auto|].
    apply G1; auto. destruct HI; [congruence|auto].
  - intros p Hp HI. rewrite !nth_upd by lia. destruct (Nat.eqb_spec j p); [subst; cbn in HI; tauto|].
    apply G2; auto. cbn in HI. tauto.
Qed.

Definition path (i : nat) (D : list nat) (j : nat) : Prop :=
  (j = i \/ exists p, In p D /\ (p < n)%nat /\ nth p idx0 O = j) /\
  (forall q, In q D -> (q < n)%nat /\ (q = i \/ exists p, In p D /\ (p < n)%nat /\ nth p idx0 O = q)).

Lemma cycle_ok : forall fuel i j D idx v, good D idx v -> NoDup D -> path i D j -> (i < n)%nat -> (j < n)%nat -> ~ In j D ->
  (In i D \/ i = j) -> (n - length D <= fuel)%nat -> (length D <= n)%nat ->
  exists D' idx' j' v', cycle dflt fuel i j (nth j idx O) idx v = (idx', j', v') /\ good D' idx' v' /\ NoDup D' /\
    path i D' j' /\ (j' < n)%nat /\ ~ In j' D' /\ nth j' idx0 O = i /\ (In i D' \/ i = j') /\ incl D D'.
Proof.
  induction fuel as [|f IH]; intros i j D idx v HG HN HP Hi Hj HD HiD Hf Hle.
  - exfalso. assert (length (j :: D) <= length (seq 0 n))%nat.
    { apply NoDup_incl_length; [constructor; auto|]. intros q [<-|Hq]; apply in_seq; [lia|]. apply HP in Hq. lia. }
    cbn in H. rewrite seq_length in H. lia.
  - pose proof HG as (L1 & L2 & G1 & G2).
    destruct (G2 j Hj HD) as [Ej _]. cbn [cycle]. rewrite Ej.
    destruct (Nat.eqb_spec (nth j idx0 O) i) as [E|E].
    + exists D, idx, j, v. exact (conj eq_refl (conj HG (conj HN (conj HP (conj Hj (conj HD (conj E (conj HiD (incl_refl D))))))))).
    + set (k := nth j idx0 O) in *. assert (Hk : (k < n)%nat) by (apply idx0_lt; auto).
      assert (HkD : ~ In k (j :: D)).
      { intros [Hkj|HkD].
        - (* a fixed point on the path *)
          destruct HP as [[->|(p & Hp & Hpn & Hpk)] _]; [congruence|].
          assert (Epj : p = j) by (apply idx0_inj; auto; unfold k in Hkj; congruence). apply HD. rewrite <- Epj. exact Hp.
        - destruct HP as [_ HP]. destruct (HP k HkD) as [_ [Hq2|(p & Hp & Hpn & Hpk)]]; [congruence|].
          assert (Epj : p = j) by (apply idx0_inj; auto). apply HD. rewrite <- Epj. exact Hp. }
      assert (Hvk : nth k v dflt = nth (nth j idx0 O) v0 dflt).
      { apply G2; auto. intros H; apply HkD; right; auto. }
      assert (HG' : good (j :: D) (upd_nth j j idx) (upd_nth j (nth k v dflt) v)) by (apply good_upd; auto).
      assert (NoDup (j :: D)) by (constructor; auto).
      assert (length (j :: D) <= n)%nat.
      { rewrite <- (seq_length n 0). apply NoDup_incl_length; auto. intros q [<-|Hq]; apply in_seq; [lia|]. apply HP in Hq. lia. }
      destruct (IH i k (j :: D) _ _ HG') as (D' & idx' & j' & v' & EC & C1 & C2 & C3 & C4 & C5 & C6 & C7 & C8); auto.
      * split; [right; exists j; repeat split; auto; left; auto|].
        intros q [<-|Hq]; [split; auto|].
        -- destruct HP as [[->|(p & Hp & Hpn & Hpk)] _]; [left; auto|right; exists p; repeat split; auto; right; auto].
        -- destruct HP as [_ HP]. destruct (HP q Hq) as [Hq1 [Hq2|(p & Hp & Hpn & Hpk)]]; split; auto. right; exists p; repeat split; auto; right; auto.
      * left. destruct HiD as [Hc7|Hc7]; [right; auto|left; auto].
      * cbn [length]. cbn [length] in H0. lia.
      * exists D', idx', j', v'. refine (conj EC (conj C1 (conj C2 (conj C3 (conj C4 (conj C5 (conj C6 (conj C7 _)))))))). intros q Hq. apply C8. right; auto.
Qed.

Lemma reorder_loop : forall m i D idx v, good D idx v -> NoDup D -> closed D -> (i + m = n)%nat ->
  (forall p, (p < i)%nat -> In p D) ->
  exists D' idx' v', fold_left (reorder_at dflt) (seq i m) (idx, v) = (idx', v') /\ good D' idx' v' /\
    (forall p, (p < n)%nat -> In p D').
Proof.
  induction m as [|m IH]; intros i D idx v HG HN HC Him HD.
  - exists D, idx, v. split; [reflexivity|]. split; [exact HG|]. intros; apply HD; lia.
  - cbn [seq fold_left]. assert (Hi : (i < n)%nat) by lia. pose proof HG as (L1 & L2 & G1 & G2).
    unfold reorder_at at 2. destruct (Nat.eqb_spec (nth i idx O) i) as [E|E].
    + destruct (in_dec Nat.eq_dec i D) as [HI|HI].
      * apply (IH (S i) D); auto; [lia|]. intros p Hp. destruct (Nat.eq_dec p i); [subst; auto|apply HD; lia].
      * destruct (G2 i Hi HI) as [E1 E2]. apply (IH (S i) (i :: D)).
        -- split; [auto|split; [auto|split]].
           ++ intros p Hp [<-|HpD]; [|auto]. split; auto. rewrite <- E1, E. auto.
           ++ intros p Hp Hn. apply G2; auto. cbn in Hn. tauto.
        -- constructor; auto.
        -- intros q [<-|Hq]; [split; [auto|exists i; split; [left; auto|congruence]]|].
           destruct (HC q Hq) as (? & p & ? & ?). split; auto. exists p; split; auto; right; auto.
        -- lia.
        -- intros p Hp. destruct (Nat.eq_dec p i); [subst; left; auto|right; apply HD; lia].
    + assert (HI : ~ In i D) by (intros HI; apply E; apply G1; auto).
      assert (Hle : (length D <= n)%nat).
      { rewrite <- (seq_length n 0). apply NoDup_incl_length; auto. intros q Hq; apply in_seq. apply HC in Hq. lia. }
      destruct (cycle_ok (length v) i i D idx v HG HN) as (D' & idx' & j' & v' & EC & C1 & C2 & C3 & C4 & C5 & C6 & C7 & C8); auto; try lia.
      { split; [left; auto|]. intros q Hq. destruct (HC q Hq) as (? & p & Hp & ?). split; auto. right. exists p. repeat split; auto. apply HC; auto. }
      rewrite EC. cbv beta iota. apply (IH (S i) (j' :: D')).
      * apply good_upd; auto. rewrite C6. apply G2; auto.
      * constructor; auto.
      * intros q Hq. assert (q = i \/ q <> i) as [->|Hqi] by lia.
        -- split; auto. exists j'. split; [left; auto|auto].
        -- destruct Hq as [<-|Hq].
           ++ split; auto. destruct C3 as [[->|(p & Hp & Hpn & Hpk)] _]; [congruence|]. exists p. split; auto; right; auto.
           ++ destruct C3 as [_ C3]. destruct (C3 q Hq) as [Hq1 [Hq2|(p & Hp & Hpn & Hpk)]]; [congruence|]. split; auto. exists p. split; auto; right; auto.
      * lia.
      * intros p Hp. destruct (Nat.eq_dec p i) as [->|]; [|right; apply C8, HD; lia].
        destruct C7 as [Hc7|<-]; [right; auto|left; auto].
Qed.

Lemma reorder_ok : reorder dflt idx0 v0 = map (fun i => nth i v0 dflt) idx0.
Proof.
  unfold reorder. destruct (reorder_loop n O [] idx0 v0) as (D & idx & v & E & (L1 & L2 & G1 & _) & HD).
  - split; [apply idx0_len|split; [reflexivity|split]]; [intros p Hp []|auto].
  - constructor.
  - intros q [].
  - lia.
  - intros; lia.
  - fold n. rewrite E. cbn [snd]. apply (nth_ext _ _ dflt dflt); [rewrite map_length, idx0_len; auto|].
    intros p Hp. rewrite L2 in Hp. destruct (G1 p Hp (HD p Hp)) as [_ ->].
    rewrite (nth_indep (map _ _) dflt (nth O v0 dflt)) by (rewrite map_length, idx0_len; auto).
    rewrite (map_nth (fun i => nth i v0 dflt) idx0 O p). reflexivity.
Qed.
End Reorder.
