(** Proofs about property lists and settings. *)
From Verif Require Import Base BaseProofs CfgModel CfgSpec.
From Coq Require Import ZifyNat.

Lemma find_upd_same : forall n v l, pl_find n l <> None -> pl_find n (pl_upd n v l) = Some v.
Proof. induction l as [|[m w] l IH]; intros H; [cbn in H; congruence|]. cbn in *. destruct (String.eqb n m) eqn:E; cbn; rewrite E; auto. Qed.
Lemma find_upd_other : forall n m v l, n <> m -> pl_find n (pl_upd m v l) = pl_find n l.
Proof.
  induction l as [|[k w] l IH]; intros H; [reflexivity|]. cbn. destruct (String.eqb_spec m k) as [->|Hm]; cbn.
  - destruct (String.eqb_spec n k); [congruence|reflexivity].
  - destruct (String.eqb n k); auto.
Qed.
Lemma class_eqb_spec : forall a b, class_eqb a b = true <-> a = b.
Proof. intros [] []; cbn; split; congruence. Qed.

Lemma working_facts : forall p, In p working -> p_noop p = false /\ p_ins p = p_obj p /\ (0 < p_obj p)%nat.
Proof. intros p H. unfold working in H. repeat destruct H as [<-|H]; try (cbn; auto; fail); try (repeat split; cbn; auto; lia). destruct H. Qed.
Lemma names_distinct : forall p q, In p working -> In q working -> p_name p = p_name q -> p = q.
Proof.
  intros p q Hp Hq. unfold working in *. repeat destruct Hp as [<-|Hp]; try destruct Hp; repeat destruct Hq as [<-|Hq]; try destruct Hq; cbn; intros H; try reflexivity; discriminate H.
Qed.
Lemma sle_le_obj : forall p v, (0 < p_obj p)%nat -> fits p v -> sle (le (p_obj p) v) = v.
Proof. intros p v H1 H2. apply sle_le; auto. Qed.

(** What is kept by setters: a property, if present, has the size of its C object. *)
Definition pl_ok (l : plist) : Prop := forall p, In p working -> forall w, pl_find (p_name p) (pl_vals l) = Some w -> List.length w = p_obj p.
Definition none_of_ours (l : plist) : Prop := forall p, In p all_props -> pl_find (p_name p) (pl_vals l) = None.
Lemma set_ok : forall p v l, In p working -> fits p v -> pl_ok l ->
  if class_eqb (pl_class l) (p_class p)
  then exists l1, set_prop p v l = Ok l1 /\ pl_ok l1 /\ pl_class l1 = pl_class l /\ pl_find (p_name p) (pl_vals l1) = Some (le (p_obj p) v) /\
         (forall n, n <> p_name p -> pl_find n (pl_vals l1) = pl_find n (pl_vals l))
  else set_prop p v l = Err.
Proof.
  intros p v l Hp Hv Hl. destruct (working_facts p Hp) as (F1 & F2 & F3). unfold set_prop. rewrite F1. destruct (class_eqb (pl_class l) (p_class p)) eqn:EC; [|reflexivity]. cbn [negb].
  set (l0 := if pexist (p_name p) l then l else mkpl (pl_class l) ((p_name p, le (p_obj p) (p_init p)) :: pl_vals l)).
  assert (E0 : (if pexist (p_name p) l then Ok l else pinsert (p_name p) (p_ins p) (le (p_obj p) (p_init p)) l) = Ok l0).
  { unfold l0. destruct (pexist (p_name p) l); [reflexivity|]. unfold pinsert. rewrite F2, le_length, Nat.leb_refl. rewrite firstn_all2 by (rewrite le_length; lia). reflexivity. }
  rewrite E0. cbn [bind]. unfold pset.
  assert (G : exists w, pl_find (p_name p) (pl_vals l0) = Some w /\ List.length w = p_obj p).
  { unfold l0, pexist. destruct (pl_find (p_name p) (pl_vals l)) as [w|] eqn:EF.
    - exists w. split; [auto|apply (Hl p Hp w EF)].
    - cbn. rewrite String.eqb_refl. eexists. split; [reflexivity|]. apply le_length. }
  destruct G as (w & G1 & G2). rewrite G1, G2, le_length, Nat.leb_refl. eexists. split; [reflexivity|]. cbn [pl_vals pl_class].
  rewrite firstn_all2 by (rewrite le_length; lia). 
  assert (S1 : pl_find (p_name p) (pl_upd (p_name p) (le (p_obj p) v) (pl_vals l0)) = Some (le (p_obj p) v)) by (apply find_upd_same; congruence).
  assert (S2 : forall n, n <> p_name p -> pl_find n (pl_upd (p_name p) (le (p_obj p) v) (pl_vals l0)) = pl_find n (pl_vals l)).
  { intros n Hn. rewrite find_upd_other by auto. unfold l0. destruct (pexist (p_name p) l); [reflexivity|]. cbn. destruct (String.eqb_spec n (p_name p)); [congruence|reflexivity]. }
  split; [|split; [unfold l0; destruct (pexist (p_name p) l); reflexivity|split; auto]].
  intros q Hq w' Hw. cbn [pl_vals] in Hw. destruct (String.string_dec (p_name q) (p_name p)) as [E|Hn].
  - apply names_distinct in E; auto. subst q. rewrite S1 in Hw. injection Hw as <-. apply le_length.
  - rewrite S2 in Hw by auto. exact (Hl q Hq w' Hw).
Qed.

Lemma run_sets_ok : forall ops l, sets_ok ops -> pl_ok l ->
  exists l1, run_sets ops l = Ok l1 /\ pl_ok l1 /\ pl_class l1 = pl_class l /\
    (forall p, In p working -> class_eqb (pl_class l) (p_class p) = true ->
       pl_find (p_name p) (pl_vals l1) = match last_set (p_name p) ops with Some v => Some (le (p_obj p) v) | None => pl_find (p_name p) (pl_vals l) end) /\
    (forall n, ~ In n (map p_name working) -> pl_find n (pl_vals l1) = pl_find n (pl_vals l)).
Proof.
  induction ops as [|[q v] ops IH]; intros l HO Hl.
  - exists l. cbn. repeat split; auto.
  - inversion HO; subst. cbn [fst snd] in H1. destruct H1 as [Hq Hv]. pose proof (set_ok q v l Hq Hv Hl) as ST. cbn [run_sets].
    destruct (class_eqb (pl_class l) (p_class q)) eqn:EC.
    + destruct ST as (l1 & E & S1 & S2 & S3 & S4). rewrite E. destruct (IH l1 H2 S1) as (l2 & R1 & R2 & R3 & R4 & R5).
      exists l2. split; auto. split; auto. split; [congruence|]. split.
      * intros p Hp Hc. rewrite R4 by (auto; congruence). cbn [last_set]. destruct (last_set (p_name p) ops); auto.
        destruct (String.eqb_spec (p_name p) (p_name q)) as [En|Hn]; [apply names_distinct in En; auto; subst; auto|auto].
      * intros n Hn. rewrite R5 by auto. apply S4. intros ->. apply Hn. apply in_map. auto.
    + rewrite ST. destruct (IH l H2 Hl) as (l2 & R1 & R2 & R3 & R4 & R5). exists l2. split; auto. split; auto. split; auto. split; auto.
      intros p Hp Hc. rewrite R4 by auto. cbn [last_set]. destruct (last_set (p_name p) ops); auto.
      destruct (String.eqb_spec (p_name p) (p_name q)) as [En|Hn]; auto. apply names_distinct in En; auto. subst. congruence.
Qed.
Lemma last_set_fits : forall p ops v, In p working -> sets_ok ops -> last_set (p_name p) ops = Some v -> fits p v.
Proof.
  induction ops as [|[q w] ops IH]; intros v Hp HO H; [discriminate|]. inversion HO; subst. cbn in H. destruct (last_set (p_name p) ops) as [u|] eqn:E.
  - injection H as <-. auto.
  - destruct (String.eqb_spec (p_name p) (p_name q)) as [En|]; [|discriminate]. injection H as <-. destruct H2 as [Hq Hf]. apply names_distinct in En; auto. subst. auto.
Qed.
Lemma in_working_all : forall p, In p working -> In p all_props.
Proof. intros p H. unfold working, all_props in *. cbn in *. tauto. Qed.
Lemma fresh_ok : forall l, none_of_ours l -> pl_ok l.
Proof. intros l H p Hp w Hw. rewrite (H p) in Hw by (apply in_working_all; auto). discriminate. Qed.

Lemma get_after_sets : forall l ops, none_of_ours l -> sets_ok ops ->
  exists l1, run_sets ops l = Ok l1 /\
    (forall p, In p working -> get_prop p l1 = if p_strict p && negb (class_eqb (pl_class l) (p_class p)) then Err else Ok (expected p (pl_class l) ops)) /\
    (forall p, In p all_props -> ~ In p working -> get_prop p l1 = Ok (p_default p)) /\ pl_class l1 = pl_class l.
Proof.
  intros l ops Hl HO. destruct (run_sets_ok ops l HO (fresh_ok l Hl)) as (l1 & R1 & R2 & R3 & R4 & R5). exists l1. split; auto. split; [|split; auto].
  - intros p Hp. destruct (working_facts p Hp) as (F1 & F2 & F3). unfold get_prop, expected. rewrite R3. destruct (class_eqb (pl_class l) (p_class p)) eqn:EC; cbn [negb].
    + rewrite andb_false_r. unfold pexist, pget. rewrite R4 by auto. rewrite (Hl p) by (apply in_working_all; auto). destruct (last_set (p_name p) ops) as [v|] eqn:EL; [|reflexivity].
      rewrite le_length, Nat.leb_refl. cbn [bind]. rewrite sle_le_obj; auto. eapply last_set_fits; eauto.
    + rewrite andb_true_r. destruct (p_strict p); reflexivity.
  - intros p Hp Hn. assert (N : p_strict p = false /\ ~ In (p_name p) (map p_name working)).
    { clear - Hp Hn. unfold all_props in Hp. unfold working in *. cbn [In map] in *. repeat destruct Hp as [<-|Hp]; try tauto; (split; [reflexivity|]); cbn; intros G; repeat destruct G as [G|G]; try discriminate G; auto. }
    destruct N as [N1 N2]. unfold get_prop, pexist. rewrite N1, R5, (Hl p) by auto. destruct (negb _); reflexivity.
Qed.

(** ** Bits *)
Lemma bit_set : forall j c k, 0 <= j -> 0 <= k -> Z.testbit (set_bit (2 ^ j) c) k = if k =? j then true else Z.testbit c k.
Proof. intros j c k Hj Hk. unfold set_bit. rewrite Z.lor_spec, Z.pow2_bits_eqb by auto. rewrite Z.eqb_sym. destruct (k =? j); [apply orb_true_r|apply orb_false_r]. Qed.
Lemma bit_clear : forall j c k, 0 <= j -> 0 <= k -> Z.testbit (clear_bit (2 ^ j) c) k = if k =? j then false else Z.testbit c k.
Proof. intros j c k Hj Hk. unfold clear_bit. rewrite Z.land_spec, Z.lnot_spec, Z.pow2_bits_eqb by auto. rewrite Z.eqb_sym. destruct (k =? j); cbn; [apply andb_false_r|apply andb_true_r]. Qed.
Lemma bit_by_bool : forall j v e c k, 0 <= j -> 0 <= k -> Z.testbit c j = false ->
  Z.testbit (by_bool (2 ^ j) v e c) k = if k =? j then asked e (is "1") v else Z.testbit c k.
Proof.
  intros j v e c k Hj Hk H0. unfold by_bool, by_env, asked, is. destruct e as [s|].
  - destruct (String.eqb s "1"); destruct (v =? 0); rewrite ?bit_set, ?bit_clear, ?bit_set by auto; destruct (k =? j); auto.
  - destruct (Z.eqb_spec v 0); rewrite ?bit_set by auto; destruct (Z.eqb_spec k j); subst; auto.
Qed.
