(** Proofs about CollModel: the order of the operations does not matter, and processes that agree
    run in lockstep. *)
From Verif Require Import Base BaseProofs CollModel CollSpec.
From Coq Require Import Lia ZifyNat.

Lemma nth_map_seq : forall {A} (f : nat -> A) n i d, (i < n)%nat -> nth i (map f (seq 0 n)) d = f i.
Proof.
  intros. rewrite (nth_indep _ d (f 0%nat)) by (rewrite map_length, seq_length; auto).
  rewrite (map_nth f). now rewrite seq_nth.
Qed.

Section Sched.
Context (grp : nat -> nat).

Inductive completes : nat -> list prog -> Prop :=
| completes_done : forall ps, all_done ps -> completes 0 ps
| completes_step : forall n ps ps', step grp ps ps' -> completes n ps' -> completes (S n) ps.

Lemma in_members : forall c n i, In i (members grp n c) <-> (i < n)%nat /\ inc grp c i = true.
Proof. intros. unfold members. rewrite filter_In, in_seq. intuition lia. Qed.

Lemma advance_length : forall c o ps, length (advance grp c o ps) = length ps.
Proof. intros. unfold advance. now rewrite map_length, seq_length. Qed.

Lemma nth_advance : forall c o ps i, (i < length ps)%nat ->
  nth i (advance grp c o ps) Ret =
    (let p := nth i ps Ret in
     if inc grp c i then next p (result o (vals grp ps c) (position grp c i)) else p).
Proof.
  intros. unfold advance. now rewrite nth_map_seq.
Qed.

Lemma done_no_step : forall ps ps', all_done ps -> ~ step grp ps ps'.
Proof.
  intros ps ps' Hd (c & o & (Hne & Hr) & _).
  destruct (members grp (length ps) c) as [|i m] eqn:E; [congruence|].
  assert (Hi : In i (members grp (length ps) c)) by (rewrite E; left; auto).
  destruct (Hr i (or_introl eq_refl)) as (v & k & Hp).
  apply in_members in Hi as [Hl _].
  unfold all_done in Hd. rewrite Forall_forall in Hd.
  specialize (Hd _ (nth_In ps Ret Hl)). rewrite Hp in Hd. discriminate.
Qed.

(** Two operations that can take place are the same or concern disjoint processes. *)
Lemma ready_apart : forall ps c o c' o', ready grp c o ps -> ready grp c' o' ps ->
  (c = c' /\ o = o') \/
  (c <> c' /\ forall i, (i < length ps)%nat -> inc grp c i = true -> inc grp c' i = false).
Proof.
  intros ps c o c' o' (Hne & Hr) (Hne' & Hr').
  assert (Hboth : forall i, (i < length ps)%nat -> inc grp c i = true -> inc grp c' i = true ->
            cm c = cm c' /\ o = o').
  { intros i Hi H1 H2.
    destruct (Hr i) as (v & k & Hp); [now apply in_members|].
    destruct (Hr' i) as (v' & k' & Hp'); [now apply in_members|].
    rewrite Hp in Hp'. injection Hp'; auto. }
  destruct (members grp (length ps) c) as [|i m] eqn:E; [congruence|].
  assert (Hi : In i (members grp (length ps) c)) by (rewrite E; left; auto).
  apply in_members in Hi as [Hl Hi].
  destruct (members grp (length ps) c') as [|i' m'] eqn:E'; [congruence|].
  assert (Hi' : In i' (members grp (length ps) c')) by (rewrite E'; left; auto).
  apply in_members in Hi' as [Hl' Hi'].
  destruct c as [g|], c' as [g'|]; cbn in *.
  - destruct (Nat.eq_dec g g') as [->|Hg].
    + left. split; [auto|]. apply (Hboth i); auto.
    + right. split; [congruence|]. intros j _ Hj. apply Nat.eqb_eq in Hj. apply Nat.eqb_neq. congruence.
  - destruct (Hboth i Hl Hi eq_refl) as [Hc _]. discriminate.
  - destruct (Hboth i' Hl' eq_refl Hi') as [Hc _]. discriminate.
  - left. split; auto. apply (Hboth i Hl eq_refl eq_refl).
Qed.

Lemma apart_vals : forall ps c o c', 
  (forall i, (i < length ps)%nat -> inc grp c i = true -> inc grp c' i = false) ->
  vals grp (advance grp c o ps) c' = vals grp ps c'.
Proof.
  intros ps c o c' Ha. unfold vals. rewrite advance_length.
  apply map_ext_in. intros i Hi. apply in_members in Hi as [Hl Hi].
  rewrite nth_advance by auto. cbn zeta.
  destruct (inc grp c i) eqn:E; [|reflexivity].
  rewrite (Ha i Hl E) in Hi. discriminate.
Qed.

Lemma apart_ready : forall ps c o c' o',
  (forall i, (i < length ps)%nat -> inc grp c i = true -> inc grp c' i = false) ->
  ready grp c' o' ps -> ready grp c' o' (advance grp c o ps).
Proof.
  intros ps c o c' o' Ha (Hne & Hr). split; rewrite advance_length; [auto|].
  intros i Hi. specialize (Hr i Hi). apply in_members in Hi as [Hl Hi].
  rewrite nth_advance by auto. cbn zeta.
  destruct (inc grp c i) eqn:E; [|exact Hr].
  rewrite (Ha i Hl E) in Hi. discriminate.
Qed.

Lemma apart_comm : forall ps c o c' o',
  (forall i, (i < length ps)%nat -> inc grp c i = true -> inc grp c' i = false) ->
  advance grp c' o' (advance grp c o ps) = advance grp c o (advance grp c' o' ps).
Proof.
  intros ps c o c' o' Ha.
  apply (nth_ext _ _ Ret Ret); [now rewrite !advance_length|].
  intros i Hi. rewrite !advance_length in Hi.
  assert (Ha' : forall i, (i < length ps)%nat -> inc grp c' i = true -> inc grp c i = false).
  { intros j Hj H. destruct (inc grp c j) eqn:E; [|auto]. rewrite (Ha j Hj E) in H. discriminate. }
  rewrite !nth_advance by (rewrite ?advance_length; auto). cbn zeta.
  rewrite apart_vals by auto. rewrite (apart_vals ps c' o' c) by auto.
  destruct (inc grp c i) eqn:E; [rewrite (Ha i Hi E); reflexivity|].
  destruct (inc grp c' i) eqn:E'; reflexivity.
Qed.

Lemma diamond : forall ps p1 p2, step grp ps p1 -> step grp ps p2 ->
  p1 = p2 \/ exists q, step grp p1 q /\ step grp p2 q.
Proof.
  intros ps p1 p2 (c & o & Hr & ->) (c' & o' & Hr' & ->).
  destruct (ready_apart _ _ _ _ _ Hr Hr') as [[-> ->]|[Hc Ha]]; [left; auto|right].
  assert (Ha' : forall i, (i < length ps)%nat -> inc grp c' i = true -> inc grp c i = false).
  { intros j Hj H. destruct (inc grp c j) eqn:E; [|auto]. rewrite (Ha j Hj E) in H. discriminate. }
  exists (advance grp c' o' (advance grp c o ps)). split.
  - exists c', o'. split; [|reflexivity]. apply apart_ready; auto.
  - exists c, o. split; [apply apart_ready; auto|]. apply apart_comm; auto.
Qed.

Lemma completes_any : forall n ps ps', completes n ps -> step grp ps ps' ->
  exists m, n = S m /\ completes m ps'.
Proof.
  induction n as [|n IH]; intros ps ps' Hc Hs.
  - exfalso. inversion Hc; subst. eapply done_no_step; eauto.
  - exists n. split; [auto|]. inversion Hc as [|n0 ps0 p1 Hs1 Hc1]; subst.
    destruct (diamond _ _ _ Hs1 Hs) as [->|(q & Hq1 & Hq2)]; [auto|].
    destruct (IH _ _ Hc1 Hq1) as (m & -> & Hm). eapply completes_step; eauto.
Qed.

Lemma completes_ends : forall n ps, completes n ps -> always_ends grp ps.
Proof.
  induction n as [|n IH]; intros ps Hc; constructor.
  - left. now inversion Hc.
  - intros ps' Hs. destruct (completes_any _ _ _ Hc Hs) as (m & Hm & _). discriminate.
  - right. inversion Hc; subst. eauto.
  - intros ps' Hs. destruct (completes_any _ _ _ Hc Hs) as (m & Hm & H). injection Hm as ->. eauto.
Qed.

Lemma ends_no_hang : forall ps, always_ends grp ps -> forall ps', reaches grp ps ps' -> ~ hangs grp ps'.
Proof.
  intros ps He ps' Hr. revert He. induction Hr; intros He.
  - intros [Hn Hs]. inversion He; subst. destruct H as [H|[q H]]; [auto|]. eapply Hs; eauto.
  - apply IHHr. inversion He; subst. auto.
Qed.
End Sched.

(** ** Lockstep without subfiling *)

Lemma filter_id : forall {A} (f : A -> bool) l, (forall x, In x l -> f x = true) -> filter f l = l.
Proof.
  induction l; cbn; intros; auto. rewrite H by auto. f_equal. apply IHl. intros; apply H; auto.
Qed.
Definition cid (c : comm) : comm_id := match c with World => None | Group => Some 0%nat end.
Lemma inc_one : forall c i, inc one (cid c) i = true.
Proof. intros [] i; reflexivity. Qed.
Lemma cm_cid : forall c, cm (cid c) = c.
Proof. intros []; reflexivity. Qed.
Lemma members_one : forall n c, members one n (cid c) = seq 0 n.
Proof. intros. unfold members. apply filter_id. intros. apply inc_one. Qed.
Lemma position_one : forall c i, position one (cid c) i = i.
Proof. intros. unfold position. now rewrite members_one, seq_length. Qed.

Inductive lock (n : nat) : (nat -> prog) -> Prop :=
| lock_ret : forall f, (forall i, (i < n)%nat -> f i = Ret) -> lock n f
| lock_op : forall f c o v k,
    (forall i, (i < n)%nat -> f i = Coll c o (v i) (k i)) ->
    lock n (fun i => k i (result o (map v (seq 0 n)) i)) -> lock n f.

Lemma lock_ext : forall n f g, (forall i, (i < n)%nat -> f i = g i) -> lock n g -> lock n f.
Proof.
  intros n f g Hfg Hl. destruct Hl as [g Hg|g c o v k Hg Hk].
  - apply lock_ret. intros i Hi. rewrite Hfg; auto.
  - eapply lock_op; [|exact Hk]. intros i Hi. rewrite Hfg; auto.
Qed.

Lemma lock_completes : forall n f, (0 < n)%nat -> lock n f -> exists m, completes one m (map f (seq 0 n)).
Proof.
  intros n f Hn Hl. induction Hl as [f Hf|f c o v k Hf Hk (m & IH)].
  - exists 0%nat. constructor. apply Forall_forall. intros p Hp.
    apply in_map_iff in Hp as (i & <- & Hi). apply in_seq in Hi. symmetry. apply Hf. lia.
  - exists (S m). eapply completes_step; [|exact IH].
    exists (cid c), o. split.
    + split; rewrite map_length, seq_length, members_one.
      * destruct n; [lia|discriminate].
      * intros i Hi. apply in_seq in Hi. rewrite nth_map_seq by lia. rewrite Hf by lia.
        rewrite cm_cid. exists (v i), (k i). reflexivity.
    + unfold advance. rewrite map_length, seq_length. apply map_ext_in. intros i Hi.
      apply in_seq in Hi. cbn zeta. rewrite inc_one, nth_map_seq, Hf by lia. cbn [next].
      rewrite position_one. f_equal. f_equal. unfold vals.
      rewrite map_length, seq_length, members_one. apply map_ext_in. intros j Hj.
      apply in_seq in Hj. rewrite nth_map_seq, Hf by lia. reflexivity.
Qed.

(** ** The operations of the library in lockstep *)
Lemma lock_coll : forall n c o v k,
  lock n (fun i => k i (result o (map v (seq 0 n)) i)) ->
  lock n (fun i => Coll c o (v i) (k i)).
Proof. intros. eapply lock_op; [|eassumption]. intros; reflexivity. Qed.

Lemma result_sum : forall vs i, result (Sum 1) vs i = [Zsum (col vs 0)].
Proof. reflexivity. Qed.

Definition kept (l l' : nat -> local) : Prop :=
  forall i, l_reads (l' i) = l_reads (l i) /\ l_hits (l' i) = l_hits (l i).
Definition agreed (n : nat) (l : nat -> local) : Prop :=
  exists b, forall i, (i < n)%nat -> l_dirty (l i) = b.

Lemma flush_lock : forall n cf l k, r_sub cf = false -> agreed n l ->
  (forall l', kept l l' -> agreed n l' -> lock n (fun i => k i (l' i))) ->
  lock n (fun i => flush_writes cf (l i) (k i)).
Proof.
  intros n cf l k Hs Ha Hk. unfold flush_writes. rewrite Hs.
  apply lock_coll. apply lock_coll. 
  eapply (lock_ext _ _ (fun i => if Zsum (col (map (fun i => [l_bytes (l i)]) (seq 0 n)) 0) =? 0 then k i (l i) else _));
    [intros i Hi; rewrite result_sum; cbn [hd]; reflexivity|].
  set (all := Zsum _).
  destruct (all =? 0).
  - apply Hk; [|auto]. intros i. auto.
  - apply lock_coll, lock_coll, lock_coll.
    apply (Hk (fun i => mklocal 0 0 (l_meta (l i)) (l_reads (l i)) (l_hits (l i)) true)).
    + intros i; auto.
    + exists true; auto.
Qed.

Lemma running_length : forall l acc, length (running acc l) = length l.
Proof. induction l; cbn; intros; auto. Qed.
Lemma scatter_total : forall T l i, (i < length l)%nat ->
  nth 1 (firstn 2 (skipn (2 * i) (flat_map (fun o => [o; T]) l))) 0 = T.
Proof.
  induction l as [|a l IH]; cbn [length]; intros i Hi; [lia|].
  destruct i as [|i]; [reflexivity|].
  replace (2 * S i)%nat with (S (S (2 * i))) by lia. cbn [flat_map app skipn]. apply IH. lia.
Qed.

Lemma metaflush_lock : forall n np l k, (0 < n)%nat ->
  (forall l', kept l l' -> agreed n l' -> lock n (fun i => k i (l' i))) ->
  lock n (fun i => metaflush np (i =? 0)%nat (l i) (k i)).
Proof.
  intros n np l k Hn Hk. unfold metaflush.
  apply lock_coll. apply lock_coll.
  set (sizes := col (map (fun i => [(if (i =? 0)%nat then 8 * (np + 1) else 0) + l_meta (l i)]) (seq 0 n)) 0).
  assert (Hlen : length sizes = n) by (unfold sizes, col; now rewrite !map_length, seq_length).
  eapply (lock_ext _ _ (fun i => let l' := mklocal 0 0 0 (l_reads (l i)) (l_hits (l i)) false in
      if 8 * (np + 1) <? Zsum sizes then _ else k i l')).
  - intros i Hi. cbn [result].
    match goal with |- context [firstn 2 (skipn _ (hd [] ?m))] =>
      replace (hd [] m) with (flat_map (fun o => [o; Zsum sizes]) (running 0 sizes)) end.
    + rewrite scatter_total by (rewrite running_length; lia). reflexivity.
    + subst sizes. destruct n; [lia|]. reflexivity.
  - cbn zeta. destruct (8 * (np + 1) <? Zsum sizes).
    + apply lock_coll, lock_coll, lock_coll, lock_coll.
      apply (Hk (fun i => mklocal 0 0 0 (l_reads (l i)) (l_hits (l i)) false)).
      * intros i; auto.
      * exists false; auto.
    + apply (Hk (fun i => mklocal 0 0 0 (l_reads (l i)) (l_hits (l i)) false)).
      * intros i; auto.
      * exists false; auto.
Qed.

Lemma perform_read_lock : forall n cf np hits l k, (0 < n)%nat -> agreed n l ->
  (r_pass cf = true \/ exists b, forall i, (i < n)%nat -> hits i = b) ->
  (forall l', kept l l' -> agreed n l' -> lock n (fun i => k i (l' i))) ->
  lock n (fun i => perform_read cf np (i =? 0)%nat (hits i) (l i) (k i)).
Proof.
  intros n cf np hits l k Hn (b & Hb) Hh Hk. unfold perform_read.
  assert (Hbody : forall l', kept l l' -> agreed n l' -> lock n (fun i =>
    if r_pass cf then k i (l' i) else if hits i
    then Coll Group SetView [] (fun _ => Coll Group ReadAll [] (fun _ => Coll Group SetView [] (fun _ => k i (l' i))))
    else Coll Group ReadAll [] (fun _ => k i (l' i)))).
  { intros l' Hl' Ha'. destruct (r_pass cf); [now apply Hk|].
    destruct Hh as [Hh|(h & Hh)]; [discriminate|].
    eapply (lock_ext _ _ (fun i => if h then _ else _)).
    - intros i Hi. rewrite (Hh i Hi). reflexivity.
    - destruct h; repeat apply lock_coll; now apply Hk. }
  eapply (lock_ext _ _ (fun i => if b then _ else _)).
  - intros i Hi. rewrite (Hb i Hi). reflexivity.
  - destruct b.
    + apply metaflush_lock; auto.
    + apply Hbody; [intros i; auto|]. exists false; auto.
Qed.

(** ** Sequences of calls *)
Fixpoint settle (cs : list call) (l : local) : list call * local :=
  match cs with
  | CWrite n b m :: t =>
      settle t (if n =? 0 then l
                else mklocal (l_pending l + 1) (l_bytes l + b) (l_meta l + m) (l_reads l) (l_hits l) (l_dirty l))
  | CReadLater n h :: t =>
      settle t (if n =? 0 then l
                else mklocal (l_pending l) (l_bytes l) (l_meta l) (l_reads l + 1) (l_hits l || h) (l_dirty l))
  | _ => (cs, l)
  end.
Definition fine (l : local) : Prop := 0 <= l_reads l /\ (l_hits l = true -> 0 < l_reads l).

Lemma settle_process : forall cf np root cs l,
  process cf np root cs l = process cf np root (fst (settle cs l)) (snd (settle cs l)).
Proof.
  induction cs as [|c cs IH]; intros l; [reflexivity|].
  destruct c; cbn [settle]; try reflexivity; rewrite <- IH; cbn [process exec]; now destruct (nsel =? 0).
Qed.
Lemma settle_outcomes : forall cs l,
  outcomes (l_hits l) cs = outcomes (l_hits (snd (settle cs l))) (fst (settle cs l)).
Proof.
  induction cs as [|c cs IH]; intros l; [reflexivity|].
  destruct c; cbn [settle]; try reflexivity; rewrite <- IH; cbn [outcomes]; destruct (nsel =? 0);
    cbn [l_hits negb andb]; rewrite ?orb_false_r; reflexivity.
Qed.
Lemma settle_fine : forall cs l, fine l -> fine (snd (settle cs l)).
Proof.
  induction cs as [|c cs IH]; intros l Hl; [exact Hl|].
  destruct c; cbn [settle]; try exact Hl; apply IH; destruct (nsel =? 0); auto.
  destruct Hl as [H1 H2]. split; cbn [l_reads l_hits]; lia.
Qed.
Lemma settle_dirty : forall cs l, l_dirty (snd (settle cs l)) = l_dirty l.
Proof.
  induction cs as [|c cs IH]; intros l; [reflexivity|].
  destruct c; cbn [settle]; try reflexivity; rewrite IH; now destruct (nsel =? 0).
Qed.
Lemma settle_head : forall cs l,
  match fst (settle cs l) with CWrite _ _ _ :: _ | CReadLater _ _ :: _ => False | _ => True end.
Proof. induction cs as [|c cs IH]; intros l; [exact I|]. destruct c; cbn [settle]; try exact I; apply IH. Qed.

Lemma max_ge : forall l x, In x l -> x <= fold_right Z.max 0 l.
Proof. induction l as [|a l IH]; cbn; intros x Hx; [contradiction|]. destruct Hx as [H|H]; [lia|]. specialize (IH x H). lia. Qed.

Definition masked (cf : rconf) (k : kind) : kind := if r_pass cf then emptiness k else k.
Lemma masked_read : forall cf e h k, masked cf k = KRead e h -> exists h', k = KRead e h' /\ (r_pass cf = true \/ h' = h).
Proof.
  intros cf e h k. unfold masked. destruct (r_pass cf).
  - destruct k; cbn; intros H; try discriminate. injection H as -> _. eauto.
  - intros ->. eauto.
Qed.
Lemma masked_flush : forall cf h k, masked cf k = KFlush h -> exists h', k = KFlush h' /\ (r_pass cf = true \/ h' = h).
Proof.
  intros cf h k. unfold masked. destruct (r_pass cf).
  - destruct k; cbn; intros H; try discriminate. eauto.
  - intros ->. eauto.
Qed.
Lemma masked_close : forall cf b k, masked cf k = KClose b -> k = KClose b.
Proof. intros cf b k. unfold masked. destruct (r_pass cf); auto. destruct k; cbn; congruence. Qed.

Definition arg_nsel (cs : list call) : Z := match cs with CRead n _ :: _ => n | _ => 0 end.
Definition arg_hits (cs : list call) : bool := match cs with CRead _ h :: _ => h | _ => false end.

Lemma kept_fine : forall n l l', (forall i, (i < n)%nat -> fine (l i)) -> kept l l' ->
  forall i, (i < n)%nat -> fine (l' i).
Proof. intros n l l' Hf Hk i Hi. destruct (Hk i) as [H1 H2]. unfold fine. rewrite H1, H2. now apply Hf. Qed.
Lemma kept_trans : forall a b c, kept a b -> kept b c -> kept a c.
Proof. intros a b c H1 H2 i. destruct (H1 i), (H2 i). split; congruence. Qed.

Definition lock_stmt (n : nat) (cf : rconf) (np : Z) (t : list kind) : Prop :=
  forall p l, agreed n l -> (forall i, (i < n)%nat -> fine (l i)) ->
  (forall i, (i < n)%nat -> map (masked cf) (outcomes (l_hits (l i)) (p i)) = t) ->
  lock n (fun i => process cf np (i =? 0)%nat (p i) (l i)).

Lemma head_lock : forall n cf np k t q s, (0 < n)%nat -> r_sub cf = false -> lock_stmt n cf np t ->
  agreed n s -> (forall i, (i < n)%nat -> fine (s i)) ->
  (forall i, (i < n)%nat -> map (masked cf) (outcomes (l_hits (s i)) (q i)) = k :: t) ->
  (forall i, match q i with CWrite _ _ _ :: _ | CReadLater _ _ :: _ => False | _ => True end) ->
  lock n (fun i => process cf np (i =? 0)%nat (q i) (s i)).
Proof.
  intros n cf np k t q s Hn Hs IH Ha Hf Ht Hh.
  set (r := fun i => tl (q i)).
  destruct k as [e h|h|b].
  - (* read *)
    assert (Hq : forall i, (i < n)%nat -> q i = CRead (arg_nsel (q i)) (arg_hits (q i)) :: r i /\
       (arg_nsel (q i) =? 0) = e /\ (e = false -> r_pass cf = true \/ arg_hits (q i) = h) /\
       map (masked cf) (outcomes (l_hits (s i)) (r i)) = t).
    { intros i Hi. specialize (Ht i Hi). specialize (Hh i). unfold r.
      destruct (q i) as [|c q']; [discriminate|].
      destruct c; cbn [outcomes map] in Ht; try contradiction; injection Ht as Hk Ht;
        try (apply masked_read in Hk as (h' & Hk & _); discriminate).
      apply masked_read in Hk as (h' & Hk & Hp). injection Hk as He Hk. cbn [arg_nsel arg_hits tl].
      split; [reflexivity|]. split; [exact He|]. split; [|exact Ht].
      intros Hfalse. rewrite He, Hfalse in Hk. cbn in Hk. destruct Hp as [Hp|Hp]; [now left|right; congruence]. }
    eapply (lock_ext _ _ (fun i => exec cf np (i =? 0)%nat (CRead (if e then 0 else 1) (arg_hits (q i))) (s i)
              (process cf np (i =? 0)%nat (r i)))).
    { intros i Hi. destruct (Hq i Hi) as (E & E' & _). rewrite E at 1. cbn [process exec]. rewrite E'.
      now destruct e. }
    cbn [exec]. destruct e; cbn [Z.eqb].
    + apply IH; auto. intros i Hi. apply (Hq i Hi).
    + assert (Hread : forall s', kept s s' -> agreed n s' ->
         lock n (fun i => perform_read cf np (i =? 0)%nat (arg_hits (q i)) (s' i) (process cf np (i =? 0)%nat (r i)))).
      { intros s' Hs' Ha'. apply (perform_read_lock n cf np (fun i => arg_hits (q i)) s' (fun i => process cf np (i =? 0)%nat (r i))); auto.
        - destruct (r_pass cf) eqn:Er; [now left|right]. exists h. intros i Hi.
          destruct (Hq i Hi) as (_ & _ & H & _). destruct (H eq_refl) as [H'|H']; [discriminate|auto].
        - intros s'' Hs'' Ha''. assert (Hk : kept s s'') by (eapply kept_trans; eauto). apply IH; auto.
          + eapply kept_fine; eauto.
          + intros i Hi. destruct (Hk i) as [_ ->]. apply (Hq i Hi). }
      destruct (r_coll cf).
      * apply lock_coll.
        eapply (lock_ext _ _ (fun i => if 0 <? fold_right Z.max 0 (col (map (fun i => [l_pending (s i)]) (seq 0 n)) 0) then _ else _));
          [intros i Hi; cbn [result seq map hd]; reflexivity|].
        destruct (0 <? _).
        -- apply (flush_lock n cf s (fun i l' => perform_read cf np (i =? 0)%nat (arg_hits (q i)) l' (process cf np (i =? 0)%nat (r i)))); auto.
        -- apply Hread; auto. intros i; auto.
      * apply Hread; auto. intros i; auto.
  - (* flush *)
    assert (Hq : forall i, (i < n)%nat -> q i = CFlush :: r i /\
       (r_pass cf = true \/ l_hits (s i) = h) /\ map (masked cf) (outcomes false (r i)) = t).
    { intros i Hi. specialize (Ht i Hi). specialize (Hh i). unfold r.
      destruct (q i) as [|c q']; [discriminate|].
      destruct c; cbn [outcomes map] in Ht; try contradiction; injection Ht as Hk Ht;
        apply masked_flush in Hk as (h' & Hk & Hp); try discriminate.
      injection Hk as Hk. cbn [tl]. split; [reflexivity|]. split; [|exact Ht].
      destruct Hp; [now left|right; congruence]. }
    eapply (lock_ext _ _ (fun i => exec cf np (i =? 0)%nat CFlush (s i) (process cf np (i =? 0)%nat (r i)))).
    { intros i Hi. destruct (Hq i Hi) as (E & _). now rewrite E at 1. }
    cbn [exec]. apply lock_coll.
    set (mw := fold_right Z.max 0 (col (map (fun i => [l_pending (s i); l_reads (s i)]) (seq 0 n)) 0)).
    set (mr := fold_right Z.max 0 (col (map (fun i => [l_pending (s i); l_reads (s i)]) (seq 0 n)) 1)).
    assert (Hmr : forall i, (i < n)%nat -> l_reads (s i) <= mr).
    { intros i Hi. apply max_ge. unfold col. rewrite map_map. cbn [nth].
      apply (in_map (fun x => l_reads (s x)) (seq 0 n) i). apply in_seq. lia. }
    eapply (lock_ext _ _ (fun i =>
      let reads l0 := if 0 <? mr
        then perform_read cf np (i =? 0)%nat (l_hits l0) l0
               (fun l1 => process cf np (i =? 0)%nat (r i) (mklocal (l_pending l1) (l_bytes l1) (l_meta l1) 0 false (l_dirty l1)))
        else process cf np (i =? 0)%nat (r i) l0 in
      if 0 <? mw then flush_writes cf (s i) reads else reads (s i))).
    { intros i Hi. reflexivity. }
    cbn zeta.
    assert (Hreads : forall s', kept s s' -> agreed n s' -> lock n (fun i =>
       if 0 <? mr
        then perform_read cf np (i =? 0)%nat (l_hits (s' i)) (s' i)
               (fun l1 => process cf np (i =? 0)%nat (r i) (mklocal (l_pending l1) (l_bytes l1) (l_meta l1) 0 false (l_dirty l1)))
        else process cf np (i =? 0)%nat (r i) (s' i))).
    { intros s' Hs' Ha'. destruct (Z.ltb_spec 0 mr) as [Hr|Hr].
      - apply (perform_read_lock n cf np (fun i => l_hits (s' i)) s'
          (fun i l1 => process cf np (i =? 0)%nat (r i) (mklocal (l_pending l1) (l_bytes l1) (l_meta l1) 0 false (l_dirty l1)))); auto.
        + destruct (r_pass cf) eqn:Er; [now left|right]. exists h. intros i Hi.
          destruct (Hs' i) as [_ ->]. destruct (Hq i Hi) as (_ & [H|H] & _); [discriminate|auto].
        + intros s'' Hs'' (b & Hb).
          apply (IH r (fun i => mklocal (l_pending (s'' i)) (l_bytes (s'' i)) (l_meta (s'' i)) 0 false (l_dirty (s'' i)))).
          * exists b; auto.
          * intros i Hi. split; cbn; [lia|discriminate].
          * intros i Hi. apply (Hq i Hi).
      - apply IH; auto.
        + eapply kept_fine; eauto.
        + intros i Hi. destruct (Hs' i) as [_ ->].
          replace (l_hits (s i)) with false; [apply (Hq i Hi)|].
          destruct (Hf i Hi) as [_ Hp]. specialize (Hmr i Hi).
          destruct (l_hits (s i)); [|reflexivity]. specialize (Hp eq_refl). lia. }
    destruct (0 <? mw).
    + apply (flush_lock n cf s (fun i l0 => if 0 <? mr
        then perform_read cf np (i =? 0)%nat (l_hits l0) l0
               (fun l1 => process cf np (i =? 0)%nat (r i) (mklocal (l_pending l1) (l_bytes l1) (l_meta l1) 0 false (l_dirty l1)))
        else process cf np (i =? 0)%nat (r i) l0)); auto.
    + apply Hreads; auto. intros i; auto.
  - (* close *)
    assert (Hq : forall i, (i < n)%nat -> q i = CClose b :: r i /\
       map (masked cf) (outcomes (l_hits (s i)) (r i)) = t).
    { intros i Hi. specialize (Ht i Hi). specialize (Hh i). unfold r.
      destruct (q i) as [|c q']; [discriminate|].
      destruct c; cbn [outcomes map] in Ht; try contradiction; injection Ht as Hk Ht;
        apply masked_close in Hk; try discriminate.
      injection Hk as ->. auto. }
    eapply (lock_ext _ _ (fun i => exec cf np (i =? 0)%nat (CClose b) (s i) (process cf np (i =? 0)%nat (r i)))).
    { intros i Hi. destruct (Hq i Hi) as (E & _). now rewrite E at 1. }
    assert (Hlast : forall s', kept s s' -> agreed n s' ->
       lock n (fun i => process cf np (i =? 0)%nat (r i) (s' i))).
    { intros s' Hs' Ha'. apply IH; auto.
      - eapply kept_fine; eauto.
      - intros i Hi. destruct (Hs' i) as [_ ->]. apply (Hq i Hi). }
    cbn [exec]. rewrite Hs. destruct b.
    + apply lock_coll, lock_coll. apply Hlast; auto. intros i; auto.
    + apply (flush_lock n cf s (fun i l0 => metaflush np (i =? 0)%nat l0 (fun l1 =>
         Coll World PutAttr [] (fun _ => Coll Group CloseFile [] (fun _ => Coll World CloseFile []
           (fun _ => process cf np (i =? 0)%nat (r i) l1)))))); auto.
      intros s' Hs' Ha'.
      apply (metaflush_lock n np s' (fun i l1 =>
         Coll World PutAttr [] (fun _ => Coll Group CloseFile [] (fun _ => Coll World CloseFile []
           (fun _ => process cf np (i =? 0)%nat (r i) l1))))); auto.
      intros s'' Hs'' Ha''. apply lock_coll, lock_coll, lock_coll. apply Hlast; auto.
      eapply kept_trans; eauto.
Qed.

Lemma process_lock : forall n cf np t, (0 < n)%nat -> r_sub cf = false -> lock_stmt n cf np t.
Proof.
  intros n cf np t Hn Hs. induction t as [|k t IH]; intros p l Ha Hf Ht.
  all: eapply (lock_ext _ _ (fun i => process cf np (i =? 0)%nat (fst (settle (p i) (l i))) (snd (settle (p i) (l i)))));
    [intros i _; apply settle_process|].
  - apply lock_ret. intros i Hi. specialize (Ht i Hi). rewrite settle_outcomes in Ht.
    pose proof (settle_head (p i) (l i)) as Hh.
    destruct (fst (settle (p i) (l i))) as [|c q']; [reflexivity|]. destruct c; cbn in Ht; try discriminate; contradiction.
  - apply (head_lock n cf np k t (fun i => fst (settle (p i) (l i))) (fun i => snd (settle (p i) (l i)))); auto.
    + destruct Ha as (b & Hb). exists b. intros i Hi. rewrite settle_dirty. auto.
    + intros i Hi. apply settle_fine; auto.
    + intros i Hi. rewrite <- settle_outcomes. auto.
    + intros i. apply settle_head.
Qed.

Lemma world_one : forall cf progs,
  world cf one progs =
  map (fun i => process cf (Z.of_nat (length progs)) (i =? 0)%nat (nth i progs []) local0) (seq 0 (length progs)).
Proof.
  intros. unfold world. apply map_ext_in. intros i Hi.
  change (Some (one i)) with (cid Group). rewrite members_one, seq_length, position_one. reflexivity.
Qed.

Lemma all_agree : forall cf progs, r_sub cf = false ->
  same (fun p => map (masked cf) (outcomes false p)) progs ->
  always_ends one (world cf one progs).
Proof.
  intros cf progs Hs Hsame. destruct progs as [|p0 ps].
  { constructor; [left; constructor|]. intros ps' H. exfalso. eapply done_no_step; [|exact H]. constructor. }
  rewrite world_one. remember (p0 :: ps) as progs eqn:E.
  assert (Hn : (0 < length progs)%nat) by (subst; cbn; lia).
  pose proof (process_lock (length progs) cf (Z.of_nat (length progs)) (map (masked cf) (outcomes false p0)) Hn Hs
    (fun i => nth i progs []) (fun _ => local0)) as H.
  destruct (lock_completes _ _ Hn (H ltac:(exists false; auto) ltac:(intros; split; cbn; [lia|discriminate])
    ltac:(intros i Hi; cbn [l_hits local0]; apply Hsame; [now apply nth_In|subst; now left]))) as (m & Hm).
  eapply completes_ends. exact Hm.
Qed.
