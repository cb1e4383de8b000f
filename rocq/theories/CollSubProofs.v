(** Writers with subfiling: everything up to the barrier of the metadata flush, for any groups. *)
From Verif Require Import Base BaseProofs CollModel CollSpec CollProofs.
From Coq Require Import Lia ZifyNat.

Lemma reaches_trans : forall grp a b c, reaches grp a b -> reaches grp b c -> reaches grp a c.
Proof. intros grp a b c H. induction H; intros; auto. eapply reaches_step; eauto. Qed.
Lemma reaches_completes : forall grp a b, reaches grp a b -> all_done b -> exists m, completes grp m a.
Proof.
  intros grp a b H. induction H; intros Hd.
  - exists 0%nat. now constructor.
  - destruct (IHreaches Hd) as (m & Hm). exists (S m). eapply completes_step; eauto.
Qed.

Section Groups.
Context (grp : nat -> nat) (n : nat).

Definition R (f g : nat -> prog) : Prop := reaches grp (map f (seq 0 n)) (map g (seq 0 n)).
Lemma R_refl : forall f, R f f.
Proof. intros. apply reaches_here. Qed.
Lemma R_trans : forall f g h, R f g -> R g h -> R f h.
Proof. intros f g h. apply reaches_trans. Qed.
Lemma R_ext : forall f f' g, (forall i, (i < n)%nat -> f i = f' i) -> R f' g -> R f g.
Proof.
  intros f f' g H. unfold R. replace (map f (seq 0 n)) with (map f' (seq 0 n)); auto.
  apply map_ext_in. intros i Hi. apply in_seq in Hi. symmetry. apply H. lia.
Qed.
Lemma R_ext_r : forall f g g', (forall i, (i < n)%nat -> g i = g' i) -> R f g' -> R f g.
Proof.
  intros f g g' H. unfold R. replace (map g (seq 0 n)) with (map g' (seq 0 n)); auto.
  apply map_ext_in. intros i Hi. apply in_seq in Hi. symmetry. apply H. lia.
Qed.

Definition mem (i : nat) : list nat := members grp n (Some (grp i)).
Definition pos (i : nat) : nat := position grp (Some (grp i)) i.

Lemma R_world : forall o v k, (0 < n)%nat ->
  R (fun i => Coll World o (v i) (k i)) (fun i => k i (result o (map v (seq 0 n)) i)).
Proof.
  intros o v k Hn. eapply reaches_step; [|apply reaches_here]. exists None, o.
  assert (Hm : members grp n None = seq 0 n) by (unfold members; apply filter_id; auto).
  split.
  - split; rewrite map_length, seq_length, Hm.
    + destruct n; [lia|discriminate].
    + intros i Hi. apply in_seq in Hi. rewrite nth_map_seq by lia. unfold at_op. cbn [cm]. eauto.
  - unfold advance. rewrite map_length, seq_length. apply map_ext_in. intros i Hi. apply in_seq in Hi.
    cbn [inc]. cbn zeta. rewrite nth_map_seq by lia. cbn [next]. f_equal. f_equal.
    + unfold vals. rewrite map_length, seq_length, Hm. apply map_ext_in. intros j Hj. apply in_seq in Hj.
      rewrite nth_map_seq by lia. reflexivity.
    + unfold position, members. rewrite filter_id by auto. now rewrite seq_length.
Qed.

Lemma R_group1 : forall g o v k f, (exists i, (i < n)%nat /\ grp i = g) ->
  (forall i, (i < n)%nat -> grp i = g -> f i = Coll Group o (v i) (k i)) ->
  R f (fun i => if (grp i =? g)%nat then k i (result o (map v (mem i)) (pos i)) else f i).
Proof.
  intros g o v k f (w & Hw & Hg) Hf. eapply reaches_step; [|apply reaches_here]. exists (Some g), o. split.
  - split; rewrite map_length, seq_length.
    + intros E. assert (H : In w (members grp n (Some g))) by (apply in_members; cbn; rewrite Hg, Nat.eqb_refl; auto).
      rewrite E in H. contradiction.
    + intros i Hi. apply in_members in Hi as [Hi Hgi]. cbn in Hgi. apply Nat.eqb_eq in Hgi.
      rewrite nth_map_seq by lia. unfold at_op. cbn [cm]. rewrite Hf by auto. eauto.
  - unfold advance. rewrite map_length, seq_length. apply map_ext_in. intros i Hi. apply in_seq in Hi.
    cbn [inc]. cbn zeta. rewrite nth_map_seq by lia. destruct (Nat.eqb_spec (grp i) g) as [E|E]; [|reflexivity].
    rewrite Hf by (auto; lia). cbn [next]. f_equal. unfold pos, mem. rewrite E. f_equal.
    unfold vals. rewrite map_length, seq_length. apply map_ext_in. intros j Hj. apply in_members in Hj as [Hj Hgj].
    cbn in Hgj. apply Nat.eqb_eq in Hgj. rewrite nth_map_seq by lia. now rewrite Hf.
Qed.

Lemma R_groups : forall (b : nat -> bool) o v k f,
  (forall i, (i < n)%nat -> b (grp i) = true -> f i = Coll Group o (v i) (k i)) ->
  R f (fun i => if b (grp i) then k i (result o (map v (mem i)) (pos i)) else f i).
Proof.
  intros b o v k f Hf.
  assert (H : forall gs, (forall g, In g gs -> exists i, (i < n)%nat /\ grp i = g) ->
    R f (fun i => if existsb (Nat.eqb (grp i)) gs && b (grp i) then k i (result o (map v (mem i)) (pos i)) else f i)).
  { induction gs as [|g gs IH]; intros Hgs; [apply R_refl|].
    eapply R_trans; [apply IH; intros; apply Hgs; now right|].
    destruct (existsb (Nat.eqb g) gs) eqn:Eg; [|destruct (b g) eqn:Eb].
    - eapply R_ext_r; [|apply R_refl]. intros i Hi. cbn [existsb].
      destruct (Nat.eqb_spec (grp i) g) as [E|E]; [|reflexivity]. rewrite E, Eg. reflexivity.
    - eapply R_ext_r; [|apply (R_group1 g o v k)].
      + intros i Hi. cbn [existsb]. destruct (Nat.eqb_spec (grp i) g) as [E|E]; [|reflexivity].
        rewrite E, Eb. reflexivity.
      + apply Hgs. now left.
      + intros i Hi E. rewrite E, Eg. cbn [andb]. apply Hf; [auto|congruence].
    - eapply R_ext_r; [|apply R_refl]. intros i Hi. cbn [existsb].
      destruct (Nat.eqb_spec (grp i) g) as [E|E]; [|reflexivity]. rewrite E, Eb, !andb_false_r. reflexivity. }
  eapply R_ext_r; [|apply (H (map grp (seq 0 n)))].
  - intros i Hi. cbn beta. replace (existsb (Nat.eqb (grp i)) (map grp (seq 0 n))) with true; [reflexivity|].
    symmetry. apply existsb_exists. exists (grp i). split; [|apply Nat.eqb_refl].
    apply in_map, in_seq. lia.
  - intros g Hg. apply in_map_iff in Hg as (i & E & Hi). apply in_seq in Hi. exists i. split; [lia|auto].
Qed.
Lemma R_all : forall o v k,
  R (fun i => Coll Group o (v i) (k i)) (fun i => k i (result o (map v (mem i)) (pos i))).
Proof. intros. apply (R_groups (fun _ => true)). auto. Qed.

(** ** The write path *)
Definition total (x : nat -> Z) (i : nat) : Z := Zsum (map x (mem i)).
Definition total_all (x : nat -> Z) : Z := Zsum (map x (seq 0 n)).
Lemma total_same : forall x i j, grp i = grp j -> total x i = total x j.
Proof. intros x i j H. unfold total, mem. now rewrite H. Qed.

Definition flushed (l : nat -> local) (i : nat) : local :=
  if total_all (fun i => l_bytes (l i)) =? 0 then l i
  else if total (fun i => l_bytes (l i)) i =? 0
  then mklocal (l_pending (l i)) (l_bytes (l i)) (l_meta (l i)) (l_reads (l i)) (l_hits (l i)) true
  else mklocal 0 0 (l_meta (l i)) (l_reads (l i)) (l_hits (l i)) true.

Lemma col1 : forall (x : nat -> Z) L, col (map (fun i => [x i]) L) 0 = map x L.
Proof. intros. unfold col. now rewrite map_map. Qed.

(* a predicate on processes that depends on the group only *)
Definition of_group (p : nat -> bool) (g : nat) : bool :=
  match find (fun i => (grp i =? g)%nat) (seq 0 n) with Some i => p i | None => false end.
Lemma of_group_eq : forall p i, (i < n)%nat -> (forall j k, grp j = grp k -> p j = p k) -> of_group p (grp i) = p i.
Proof.
  intros p i Hi Hp. unfold of_group. destruct (find _ _) as [j|] eqn:E.
  - apply find_some in E as [_ E]. apply Nat.eqb_eq in E. auto.
  - exfalso. assert (Hx : In i (seq 0 n)) by (apply in_seq; lia).
    apply (find_none _ _ E) in Hx. now rewrite Nat.eqb_refl in Hx.
Qed.

Lemma R_some : forall (p : nat -> bool) o v k f, (forall j k, grp j = grp k -> p j = p k) ->
  (forall i, (i < n)%nat -> p i = true -> f i = Coll Group o (v i) (k i)) ->
  R f (fun i => if p i then k i (result o (map v (mem i)) (pos i)) else f i).
Proof.
  intros p o v k f Hp Hf. eapply R_ext_r; [|apply (R_groups (of_group p) o v k)].
  - intros i Hi. cbn beta. now rewrite of_group_eq.
  - intros i Hi E. rewrite of_group_eq in E by auto. auto.
Qed.

Lemma R_flush : forall cf l k, (0 < n)%nat -> r_sub cf = true ->
  R (fun i => flush_writes cf (l i) (k i)) (fun i => k i (flushed l i)).
Proof.
  intros cf l k Hn Hs. unfold flush_writes, flushed. rewrite Hs.
  eapply R_trans; [apply R_world; exact Hn|]. eapply R_trans; [apply R_world; exact Hn|].
  eapply R_trans; [apply R_all|]. eapply R_trans; [apply R_all|].
  unfold total, total_all.
  eapply (R_ext _ (fun i => if Zsum (map (fun i => l_bytes (l i)) (seq 0 n)) =? 0 then k i (l i)
     else if Zsum (map (fun i => l_bytes (l i)) (mem i)) =? 0 then _ else _)).
  { intros i Hi. cbn [result seq map hd]. rewrite !col1. reflexivity. }
  set (all := Zsum (map _ (seq 0 n))). destruct (all =? 0); [apply R_refl|].
  set (p := fun i => negb (Zsum (map (fun i => l_bytes (l i)) (mem i)) =? 0)).
  assert (Hp : forall i j, grp i = grp j -> p i = p j).
  { intros i j H. unfold p. pose proof (total_same (fun i => l_bytes (l i)) i j H) as Ht. unfold total in Ht. now rewrite Ht. }
  eapply R_trans; [apply (R_some p Create (fun _ => []) (fun i _ => Coll Group WriteAll [] (fun _ => Coll Group CloseDset [] (fun _ =>
     k i (mklocal 0 0 (l_meta (l i)) (l_reads (l i)) (l_hits (l i)) true))))); [exact Hp|]|].
  { intros i Hi Ep. unfold p in Ep. destruct (_ =? 0); [discriminate|reflexivity]. }
  eapply R_trans; [apply (R_some p WriteAll (fun _ => []) (fun i _ => Coll Group CloseDset [] (fun _ =>
     k i (mklocal 0 0 (l_meta (l i)) (l_reads (l i)) (l_hits (l i)) true)))); [exact Hp|]|].
  { intros i Hi Ep. cbn beta. now rewrite Ep. }
  eapply R_trans; [apply (R_some p CloseDset (fun _ => []) (fun i _ =>
     k i (mklocal 0 0 (l_meta (l i)) (l_reads (l i)) (l_hits (l i)) true))); [exact Hp|]|].
  { intros i Hi Ep. cbn beta. now rewrite Ep. }
  eapply R_ext; [|apply R_refl]. intros i Hi. cbn beta. unfold p.
  destruct (_ =? 0); reflexivity.
Qed.

(** ** The metadata flush *)
Definition cleared (l : local) : local := mklocal 0 0 0 (l_reads l) (l_hits l) false.
Definition has_meta (l : nat -> local) (i : nat) : bool := 0 <? total (fun j => l_meta (l j)) i.

Lemma mem_in : forall i j, In j (mem i) <-> (j < n)%nat /\ grp j = grp i.
Proof. intros. unfold mem. rewrite in_members. cbn. now rewrite Nat.eqb_eq. Qed.
Lemma members_app : forall c a b, members grp (a + b) c = members grp a c ++ filter (inc grp c) (seq a b).
Proof. intros. unfold members. now rewrite seq_app, filter_app. Qed.
Lemma pos_lt : forall i, (i < n)%nat -> (pos i < length (mem i))%nat.
Proof.
  intros i Hi. unfold pos, position, mem.
  replace n with (i + (1 + (n - i - 1)))%nat by lia. rewrite members_app, app_length.
  cbn [seq Nat.add filter]. cbn [inc]. rewrite Nat.eqb_refl. cbn [length]. lia.
Qed.
Lemma mem_nth : forall i, (i < n)%nat -> nth (pos i) (mem i) 0%nat = i.
Proof.
  intros i Hi. unfold pos, position, mem.
  replace n with (i + (1 + (n - i - 1)))%nat at 1 by lia. rewrite members_app.
  rewrite app_nth2 by lia. rewrite Nat.sub_diag. cbn [seq Nat.add filter]. cbn [inc]. now rewrite Nat.eqb_refl.
Qed.
(* the first member of a group is at position 0, and no other is *)
Lemma mem_hd : forall i, (i < n)%nat -> exists r t, mem i = r :: t /\ pos r = 0%nat /\ (r < n)%nat /\ grp r = grp i /\
  forall j, In j t -> pos j <> 0%nat.
Proof.
  intros i Hi. destruct (mem i) as [|r t] eqn:E.
  - pose proof (pos_lt i Hi). rewrite E in H. cbn in H. lia.
  - assert (Hr : In r (mem i)) by (rewrite E; now left). apply mem_in in Hr as [Hr Hg].
    assert (Em : mem r = r :: t) by (unfold mem in *; rewrite Hg; exact E).
    assert (Hnd : NoDup (mem i)) by (unfold mem, members; apply NoDup_filter, seq_NoDup).
    rewrite E in Hnd. inversion Hnd as [|? ? Hnr Hnt]; subst.
    exists r, t. split; [reflexivity|]. split; [|split; [auto|split; [auto|]]].
    + pose proof (mem_nth r Hr) as Hx. pose proof (pos_lt r Hr) as Hl. rewrite Em in Hx, Hl. destruct (pos r); [auto|].
      cbn [nth length] in Hx, Hl. exfalso. apply Hnr. rewrite <- Hx at 1. apply nth_In. lia.
    + intros j Hj Hp. assert (Hjm : In j (mem i)) by (rewrite E; now right). apply mem_in in Hjm as [Hjn Hjg].
      pose proof (mem_nth j Hjn) as Hx. unfold mem in Hx, E. rewrite Hjg, E, Hp in Hx. cbn in Hx. subst. contradiction.
Qed.

Lemma Zsum_root : forall (x : nat -> Z) T r t, pos r = 0%nat -> (forall j, In j t -> pos j <> 0%nat) ->
  Zsum (map (fun j => (if (pos j =? 0)%nat then T else 0) + x j) (r :: t)) = T + Zsum (map x (r :: t)).
Proof.
  intros x T r t Hr Ht. cbn [map]. rewrite Hr. cbn [Nat.eqb]. cbn [Zsum fold_right].
  replace (map (fun j => (if (pos j =? 0)%nat then T else 0) + x j) t) with (map x t).
  - change (T + x r + Zsum (map x t) = T + (x r + Zsum (map x t))). lia.
  - apply map_ext_in. intros j Hj. specialize (Ht j Hj). destruct (Nat.eqb_spec (pos j) 0); [contradiction|lia].
Qed.

Definition np_of (i : nat) : Z := Z.of_nat (length (mem i)).
Lemma R_metaflush : forall l k,
  R (fun i => metaflush (np_of i) (pos i =? 0)%nat (l i) (k i))
    (fun i => if has_meta l i then Coll World Barrier [] (fun _ => k i (cleared (l i))) else k i (cleared (l i))).
Proof.
  intros l k. unfold metaflush.
  eapply R_trans; [apply R_all|]. eapply R_trans; [apply R_all|].
  set (p := has_meta l).
  assert (Hp : forall i j, grp i = grp j -> p i = p j).
  { intros i j H. unfold p, has_meta. now rewrite (total_same _ i j H). }
  eapply (R_ext _ (fun i => if p i then Coll Group Create [] (fun _ => Coll Group WriteAll [] (fun _ =>
       Coll Group CloseDset [] (fun _ => Coll World Barrier [] (fun _ => k i (cleared (l i)))))) else k i (cleared (l i)))).
  { intros i Hi. cbn [result]. cbn zeta.
    set (sz := fun j => (if (pos j =? 0)%nat then 8 * (np_of j + 1) else 0) + l_meta (l j)).
    destruct (mem_hd i Hi) as (r & t & Em & Hr & Hrn & Hrg & Ht).
    assert (Emr : mem r = r :: t) by (unfold mem in *; rewrite Hrg; exact Em).
    match goal with |- context [firstn 2 (skipn _ (hd [] ?m))] =>
      replace (hd [] m) with (flat_map (fun o => [o; Zsum (map sz (mem r))]) (running 0 (map sz (mem r)))) end.
    - rewrite scatter_total.
      + replace (8 * (np_of i + 1) <? Zsum (map sz (mem r))) with (p i); [reflexivity|].
        replace (Zsum (map sz (mem r))) with (8 * (np_of i + 1) + total (fun j => l_meta (l j)) i).
        * unfold p, has_meta. set (X := total _ i). destruct (Z.ltb_spec 0 X), (Z.ltb_spec (8 * (np_of i + 1)) (8 * (np_of i + 1) + X)); auto; lia.
        * unfold total. rewrite Emr, Em. unfold sz. rewrite <- (Zsum_root (fun j => l_meta (l j)) (8 * (np_of i + 1)) r t Hr Ht).
          f_equal. apply map_ext_in. intros j Hj. destruct (pos j =? 0)%nat; [|reflexivity].
          unfold np_of. assert (Hjm : In j (mem i)) by (rewrite Em; exact Hj). apply mem_in in Hjm as [_ Hjg].
          unfold mem. now rewrite Hjg.
      + rewrite running_length, map_length, Emr, <- Em. now apply pos_lt.
    - rewrite Em. cbn [map hd]. rewrite Hr. cbn [Nat.eqb]. rewrite col1. reflexivity. }
  eapply R_trans; [apply (R_some p Create (fun _ => []) (fun i _ => Coll Group WriteAll [] (fun _ => Coll Group CloseDset [] (fun _ =>
     Coll World Barrier [] (fun _ => k i (cleared (l i))))))); [exact Hp|]|].
  { intros i Hi Ep. now rewrite Ep. }
  eapply R_trans; [apply (R_some p WriteAll (fun _ => []) (fun i _ => Coll Group CloseDset [] (fun _ =>
     Coll World Barrier [] (fun _ => k i (cleared (l i)))))); [exact Hp|]|].
  { intros i Hi Ep. cbn beta. now rewrite Ep. }
  eapply R_trans; [apply (R_some p CloseDset (fun _ => []) (fun i _ =>
     Coll World Barrier [] (fun _ => k i (cleared (l i))))); [exact Hp|]|].
  { intros i Hi Ep. cbn beta. now rewrite Ep. }
  eapply R_ext; [|apply R_refl]. intros i Hi. cbn beta. now destruct (p i).
Qed.
End Groups.
