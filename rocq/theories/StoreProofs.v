(** The specification store in terms of the writes of a log. *)
From Verif Require Import Base BaseProofs Spec MetaModel QueueModel FlushModel IndexModel ReadModel SysModel
  SysSpec GeomProofs MetaProofs QueueProofs IndexProofs SearchProofs ReadProofs HitProofs MdProofs.
From Coq Require Import ZifyNat ZifyN Permutation.

Definition pw_of (a : awr) : pwrite := mkpw (a_did a) (a_sels a) (a_data a).

(** ** Elements of a byte string *)
Lemma chunk_spec : forall n m fuel l, (0 < m)%nat -> length l = (m * n)%nat -> (n <= fuel)%nat ->
  length (chunk fuel m l) = n /\
  forall k, (k < n)%nat -> nth_error (chunk fuel m l) k = Some (firstn m (skipn (m * k) l)).
Proof.
  induction n as [|n IH]; intros m fuel l Hm Hl Hf.
  - rewrite Nat.mul_0_r in Hl. destruct l; [|discriminate]. destruct fuel; cbn; split; auto; intros; lia.
  - destruct fuel as [|fuel]; [lia|]. destruct l as [|x l]; [cbn in Hl; lia|].
    cbn [chunk]. destruct (IH m fuel (skipn m (x :: l)) Hm) as [I1 I2].
    { rewrite skipn_length. nia. } { lia. }
    split; [cbn [length]; lia|]. intros [|k] Hk.
    + rewrite Nat.mul_0_r. reflexivity.
    + cbn [nth_error]. rewrite I2 by lia. rewrite skipn_add. do 3 f_equal. lia.
Qed.

Lemma elems_spec : forall es l n, 0 < es -> 0 <= n -> Zlen l = es * n ->
  length (elems es l) = Z.to_nat n /\
  forall k, (k < Z.to_nat n)%nat ->
    nth_error (elems es l) k = Some (firstn (Z.to_nat es) (skipn (Z.to_nat (es * Z.of_nat k)) l)).
Proof.
  intros es l n He Hn Hl. unfold elems.
  destruct (chunk_spec (Z.to_nat n) (Z.to_nat es) (length l) l) as [C1 C2]; try lia.
  { unfold Zlen in Hl. rewrite <- Z2Nat.inj_mul by lia. lia. }
  { unfold Zlen in Hl. nia. }
  split; auto. intros k Hk. rewrite C2 by auto. do 3 f_equal. rewrite Z2Nat.inj_mul by lia. lia.
Qed.

Lemma nth_error_combine : forall A B k (a : list A) (b : list B) x y,
  nth_error (combine a b) k = Some (x, y) <-> nth_error a k = Some x /\ nth_error b k = Some y.
Proof.
  assert (N : forall T k, nth_error (@nil T) k = None) by (destruct k; reflexivity).
  induction k as [|k IH]; intros [|x0 a] [|y0 b] x y; cbn [combine nth_error]; rewrite ?N; try apply IH;
    try (split; [intros H; discriminate H|intros [H1 H2]; try discriminate H1; discriminate H2]).
  split; [intros H; injection H as -> ->; auto|intros [H1 H2]; congruence].
Qed.

(** ** Writing elements *)
Lemma coord_eqb_eq : forall a b, coord_eqb a b = true <-> a = b.
Proof. intros. unfold coord_eqb. destruct (list_eq_dec Z.eq_dec a b); split; congruence. Qed.

Lemma write_elems_spec : forall cvs st did d c,
  (write_elems st did cvs d c = st d c /\ (d = did -> forall k v, nth_error cvs k <> Some (c, v))) \/
  (d = did /\ exists k v, nth_error cvs k = Some (c, v) /\
     (forall k' v', nth_error cvs k' = Some (c, v') -> (k' <= k)%nat) /\
     write_elems st did cvs d c = Some v).
Proof.
  intros cvs st did d c. induction cvs as [|[c1 v1] cvs IH] using rev_ind.
  - left. split; auto. intros _ [|k] v; discriminate.
  - unfold write_elems in *. rewrite fold_left_app. cbn [fold_left fst snd]. unfold set_elem at 1 3.
    destruct (Z.eqb_spec d did) as [E|E]; cbn [andb].
    + subst d. destruct (coord_eqb c1 c) eqn:Ec.
      * right. apply coord_eqb_eq in Ec. subst c1. split; auto. exists (length cvs), v1. split.
        { rewrite nth_error_app2, Nat.sub_diag by lia. reflexivity. }
        split; auto. intros k' v' H. assert (k' < length (cvs ++ [(c, v1)]))%nat by (apply nth_error_Some; congruence).
        rewrite app_length in *. cbn in *. lia.
      * assert (Hc : c1 <> c) by (intros ->; rewrite (proj2 (coord_eqb_eq c c) eq_refl) in Ec; discriminate).
        assert (Hl : forall k v, nth_error (cvs ++ [(c1, v1)]) k = Some (c, v) -> nth_error cvs k = Some (c, v)).
        { intros k v H. destruct (Nat.lt_ge_cases k (length cvs)) as [L|L]; [rewrite nth_error_app1 in H; auto|].
          rewrite nth_error_app2 in H by lia. destruct (k - length cvs)%nat as [|[|?]]; cbn in H; try discriminate. congruence. }
        destruct IH as [[I1 I2]|[_ (k & v & I1 & I2 & I3)]].
        -- left. split; auto. intros _ k v H. apply Hl in H. eapply I2; eauto.
        -- right. split; auto. exists k, v. split; [rewrite nth_error_app1; auto; apply nth_error_Some; congruence|].
           split; auto. intros k' v' H. apply Hl in H. eapply I2; eauto.
    + destruct IH as [[I1 I2]|[I1 _]]; [|congruence]. left. split; auto.
Qed.

(** ** The store of a log *)
Record clog (G : Z -> option (nat * Z * bool)) (l : list pwr) : Prop := {
  cl_small : Forall (wsmall G) l;
  cl_ne : Forall (fun p => a_sels (snd p) <> []) l;
  cl_len : Forall (fun p => Zlen (a_data (snd p)) = wbytes G p) l;
  cl_ord : ForallOrdPairs (wbefore G) l }.

Lemma clog_log : forall G l l', clog G l -> Permutation l l' -> log_ok G l'.
Proof.
  intros G l l' [H1 H2 H3 H4] HP. constructor; try (eapply Permutation_Forall; eauto; fail).
  eapply FOP_perm; [| exact HP|].
  - intros a b [X|X]; auto.
  - eapply FOP_impl_In; [|exact H4]. auto.
Qed.

Lemma clog_app : forall G l p, clog G (l ++ [p]) -> clog G l /\ wsmall G p /\ a_sels (snd p) <> [] /\
  Zlen (a_data (snd p)) = wbytes G p /\ (forall q, In q l -> wbefore G q p).
Proof.
  intros G l p [H1 H2 H3 H4]. apply Forall_app in H1, H2, H3. destruct H1 as [H1 P1], H2 as [H2 P2], H3 as [H3 P3].
  apply ForallOrdPairs_app in H4. destruct H4 as (H4 & _ & H5).
  split; [constructor; auto|]. split; [exact (Forall_inv P1)|]. split; [exact (Forall_inv P2)|].
  split; [exact (Forall_inv P3)|]. intros q Hq. apply H5; auto. left. auto.
Qed.

Lemma elem_at_lt : forall G p k c, wsmall G p -> elem_at p k c -> Z.of_nat k < sel_size (a_sels (snd p)).
Proof.
  intros G p k c [W _] H. rewrite <- (sel_coords_length _ _ W).
  assert (k < length (sel_coords (a_sels (snd p))))%nat by (apply nth_error_Some; unfold elem_at in H; congruence). lia.
Qed.

Definition store_of (sets : list dinfo) (l : list awr) : store :=
  fold_left (apply_write sets) (map pw_of l) empty_store.

Lemma store_spec : forall G sets l did c, clog G l ->
  (forall p, In p l -> esize_in sets (a_did (snd p)) = esize_of G (a_did (snd p))) ->
  match store_of sets (map snd l) did c with
  | None => forall p k, In p l -> a_did (snd p) = did -> ~ elem_at p k c
  | Some v => exists p k, In p l /\ a_did (snd p) = did /\ elem_at p k c /\
      (forall p' k', In p' l -> a_did (snd p') = did -> elem_at p' k' c ->
         fst p' + esize_of G did * Z.of_nat k' <= fst p + esize_of G did * Z.of_nat k) /\
      v = firstn (Z.to_nat (esize_of G did)) (skipn (Z.to_nat (esize_of G did * Z.of_nat k)) (a_data (snd p)))
  end.
Proof.
  intros G sets l did c. induction l as [|p l IH] using rev_ind; intros HC HE.
  { cbn. intros p k []. }
  destruct (clog_app _ _ _ HC) as (HC' & W & Wne & Wl & Wb).
  assert (HE' : forall p, In p l -> esize_in sets (a_did (snd p)) = esize_of G (a_did (snd p))) by (intros; apply HE; apply in_or_app; auto).
  specialize (IH HC' HE'). pose proof W as [W1 W2]. pose proof (sel_size_nonneg _ _ W1) as Hsz.
  assert (HS : store_of sets (map snd (l ++ [p])) = apply_write sets (store_of sets (map snd l)) (pw_of (snd p)))
    by (unfold store_of; rewrite !map_app, fold_left_app; reflexivity).
  rewrite HS. clear HS. set (st := store_of sets (map snd l)) in *.
  change (apply_write sets st (pw_of (snd p))) with (spec_write st (a_did (snd p)) (a_sels (snd p)) (elems (esize_in sets (a_did (snd p))) (a_data (snd p)))).
  rewrite HE by (apply in_or_app; right; left; auto). set (es := esize_of G (a_did (snd p))) in *.
  unfold spec_write. set (cvs := combine (sel_coords (a_sels (snd p))) (elems es (a_data (snd p)))).
  destruct (elems_spec es (a_data (snd p)) (sel_size (a_sels (snd p))) W2 Hsz Wl) as [E1 E2].
  pose proof (sel_coords_length _ _ W1) as SL.
  assert (Hcv : forall k v, nth_error cvs k = Some (c, v) <-> elem_at p k c /\ nth_error (elems es (a_data (snd p))) k = Some v).
  { intros k v. unfold cvs, elem_at. apply nth_error_combine. }
  destruct (write_elems_spec cvs st (a_did (snd p)) did c) as [[R1 R2]|[Rd (k & v & R1 & R2 & R3)]].
  - rewrite R1.
    assert (Hno : a_did (snd p) = did -> forall k, ~ elem_at p k c).
    { intros Ed k Hk. pose proof (elem_at_lt _ _ _ _ W Hk).
      apply (R2 (eq_sym Ed) k (firstn (Z.to_nat es) (skipn (Z.to_nat (es * Z.of_nat k)) (a_data (snd p))))).
      apply Hcv. split; auto. apply E2. lia. }
    destruct (st did c) as [v|].
    + destruct IH as (q & k & Q1 & Q2 & Q3 & Q4 & Q5). exists q, k. split; [apply in_or_app; auto|]. split; auto. split; auto.
      split; auto. intros p' k' Hp' Hd' He'. apply in_app_or in Hp'. destruct Hp' as [Hp'|[<-|[]]]; [auto|].
      exfalso. eapply Hno; eauto.
    + intros p' k' Hp' Hd' He'. apply in_app_or in Hp'. destruct Hp' as [Hp'|[<-|[]]]; [eapply IH; eauto|]. eapply Hno; eauto.
  - rewrite R3. subst did. apply Hcv in R1. destruct R1 as [R1 R1'].
    exists p, k. split; [apply in_or_app; right; left; auto|]. split; auto. split; auto. fold es. split.
    + intros p' k' Hp' Hd' He'. apply in_app_or in Hp'. destruct Hp' as [Hp'|[<-|[]]].
      * specialize (Wb p' Hp'). unfold wbefore, wbytes in Wb. rewrite Hd' in Wb. fold es in Wb.
        assert (Z.of_nat k' < sel_size (a_sels (snd p'))).
        { eapply elem_at_lt; [|exact He']. eapply Forall_forall; [apply HC'|exact Hp']. }
        nia.
      * pose proof (elem_at_lt _ _ _ _ W He').
        assert (k' <= k)%nat.
        { apply (R2 k' (firstn (Z.to_nat es) (skipn (Z.to_nat (es * Z.of_nat k')) (a_data (snd p))))). apply Hcv. split; auto. apply E2. lia. }
        nia.
    + pose proof (elem_at_lt _ _ _ _ W R1). rewrite E2 in R1' by lia. congruence.
Qed.
