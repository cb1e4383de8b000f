(** Lemmas for NsClaims.v: the file underneath is the user's file with other names and the
    connector's own objects added, and every supported call keeps it so. *)
From Verif Require Import Base NameModel LibModel NsModel NsSpec.
From Coq Require Import Ascii String Lia ZifyNat.

Definition en (n : string) : string :=
  match n with String c _ => if Ascii.eqb c US then String US n else n | EmptyString => n end.
Definition up (i : nat) : nat := match i with O => O | S _ => S i end.
Definition et (t : target) : target := match t with Hard i => Hard (up i) | Soft n => Soft (en n) end.
Definition epair {A} (p : string * A) : string * A := (en (fst p), snd p).
Definition elink (p : string * target) : string * target := (en (fst p), et (snd p)).
Definition own (root : bool) (k : kind) : list (string * list Z) :=
  if root then map (fun n => (n, [])) FILE_ATTRS
  else match k with KDset => map (fun n => (n, [])) DSET_ATTRS | _ => [] end.
Definition own_links (root : bool) : list (string * target) := if root then [(LOG_GROUP, Hard 1)] else [].
Definition eobj (root : bool) (o : obj) : obj :=
  mkobj (ob_kind o) (own root (ob_kind o) ++ map epair (ob_attrs o)) (own_links root ++ map elink (ob_links o)).
Definition ehnd (h : hnd) : hnd := mkh (h_type h) (up (h_obj h)).
Definition eobjs (os : list obj) : list obj :=
  match os with [] => [] | r :: t => eobj true r :: mkobj KGroup [] [] :: map (eobj false) t end.
Definition enc (st : lib) : lib := mklib (eobjs (l_objs st)) (map ehnd (l_hnds st)).
Definition isr (i : nat) : bool := (i =? 0)%nat.
Definition eio (p : nat * obj) : nat * obj := (up (fst p), eobj (isr (fst p)) (snd p)).
Definition eloc (l : loc) : loc := match l with Self h => Self h | Named h n => Named h (en n) end.
Definition E (r : lib * result) : lib * result := (enc (fst r), snd r).

Definition hidden (n : string) : Prop := iterate_name n = None.

(** * Names *)

Lemma remap_en n : nonempty n -> name_remap n = Ok (en n).
Proof. destruct n as [|c r]; intros H; [congruence|]. cbn. destruct (Ascii.eqb c US); reflexivity. Qed.
Lemma en_plain n : plain n -> en n = n.
Proof. destruct n as [|c r]; cbn; [tauto|]. destruct (Ascii.eqb_spec c US); congruence. Qed.
Lemma en_inj a b : en a = en b -> a = b.
Proof.
  destruct a as [|c a], b as [|d b]; cbn; try congruence.
  - destruct (Ascii.eqb d US); congruence.
  - destruct (Ascii.eqb c US); congruence.
  - destruct (Ascii.eqb_spec c US), (Ascii.eqb_spec d US); try congruence.
Qed.
Lemma en_eqb a b : String.eqb (en a) (en b) = String.eqb a b.
Proof.
  destruct (String.eqb_spec a b) as [->|N]; [apply String.eqb_refl|].
  apply String.eqb_neq. intros H. apply N. now apply en_inj.
Qed.
Lemma en_shown n : iterate_name (en n) = Some n.
Proof.
  destruct n as [|c r]; cbn; [reflexivity|]. destruct (Ascii.eqb_spec c US); cbn.
  - subst. reflexivity.
  - now rewrite (proj2 (Ascii.eqb_neq c US) n).
Qed.
Lemma en_not_hidden n m : hidden m -> String.eqb (en n) m = false.
Proof. intros H. apply String.eqb_neq. intros <-. unfold hidden in H. rewrite en_shown in H. discriminate. Qed.
Lemma own_hidden b k : Forall (fun p => hidden (fst p)) (own b k).
Proof. destruct b, k; repeat constructor. Qed.
Lemma own_links_hidden b : Forall (fun p => hidden (fst p)) (own_links b).
Proof. destruct b; repeat constructor. Qed.

(** * Tables of names *)

Lemma assoc_hidden {A} (l1 l2 : list (string * A)) n :
  Forall (fun p => hidden (fst p)) l1 -> assoc (en n) (l1 ++ l2) = assoc (en n) l2.
Proof.
  induction 1 as [|[m a] t H _ IH]; [reflexivity|]. cbn [app assoc]. cbn in H. now rewrite en_not_hidden.
Qed.
Lemma assoc_map {A B} (f : A -> B) (l : list (string * A)) n :
  assoc (en n) (map (fun p => (en (fst p), f (snd p))) l) = option_map f (assoc n l).
Proof.
  induction l as [|[m a] t IH]; [reflexivity|]. cbn [map fst snd assoc]. rewrite en_eqb, IH.
  now destruct (String.eqb n m).
Qed.
Lemma assoc_attrs b o n : assoc (en n) (ob_attrs (eobj b o)) = assoc n (ob_attrs o).
Proof.
  cbn [eobj ob_attrs]. rewrite assoc_hidden by apply own_hidden.
  etransitivity; [exact (assoc_map (fun x => x) (ob_attrs o) n)|]. now destruct (assoc n (ob_attrs o)).
Qed.
Lemma assoc_links b o n : assoc (en n) (ob_links (eobj b o)) = option_map et (assoc n (ob_links o)).
Proof. cbn [eobj ob_links]. rewrite assoc_hidden by apply own_links_hidden. apply assoc_map. Qed.

Lemma drop_hidden {A} (l1 l2 : list (string * A)) n :
  Forall (fun p => hidden (fst p)) l1 -> drop (en n) (l1 ++ l2) = l1 ++ drop (en n) l2.
Proof.
  induction 1 as [|[m a] t H _ IH]; [reflexivity|]. cbn [app drop filter fst]. cbn in H.
  rewrite en_not_hidden by auto. cbn [negb]. unfold drop in IH. now rewrite IH.
Qed.
Lemma drop_map {A B} (f : A -> B) (l : list (string * A)) n :
  drop (en n) (map (fun p => (en (fst p), f (snd p))) l) = map (fun p => (en (fst p), f (snd p))) (drop n l).
Proof.
  unfold drop. induction l as [|[m a] t IH]; [reflexivity|]. cbn [map fst snd filter]. rewrite en_eqb, IH.
  now destruct (String.eqb n m).
Qed.
Lemma setv_hidden {A} (l1 l2 : list (string * A)) n a :
  Forall (fun p => hidden (fst p)) l1 -> setv (en n) a (l1 ++ l2) = l1 ++ setv (en n) a l2.
Proof.
  induction 1 as [|[m b] t H _ IH]; [reflexivity|]. cbn [app setv map fst]. cbn in H.
  rewrite en_not_hidden by auto. unfold setv in IH. now rewrite IH.
Qed.
Lemma setv_map {A} (l : list (string * A)) n a : setv (en n) a (map epair l) = map epair (setv n a l).
Proof.
  unfold setv. rewrite !map_map. apply map_ext. intros [m b]. cbn [epair fst snd]. rewrite en_eqb.
  now destruct (String.eqb n m).
Qed.
Lemma rename_hidden {A} (l1 l2 : list (string * A)) n m :
  Forall (fun p => hidden (fst p)) l1 -> rename (en n) m (l1 ++ l2) = l1 ++ rename (en n) m l2.
Proof.
  induction 1 as [|[x b] t H _ IH]; [reflexivity|]. cbn [app rename map fst]. cbn in H.
  rewrite en_not_hidden by auto. unfold rename in IH. now rewrite IH.
Qed.
Lemma rename_map {A} (l : list (string * A)) n m :
  rename (en n) (en m) (map epair l) = map epair (rename n m l).
Proof.
  unfold rename. rewrite !map_map. apply map_ext. intros [x b]. cbn [epair fst snd]. rewrite en_eqb.
  now destruct (String.eqb n x).
Qed.

(** * Sorting *)

Lemma sleb_refl a : sleb a a = true.
Proof. induction a as [|c a IH]; [reflexivity|]. cbn [sleb]. now rewrite Nat.ltb_irrefl. Qed.
Lemma sleb_trans a b c : sleb a b = true -> sleb b c = true -> sleb a c = true.
Proof.
  revert b c. induction a as [|x a IH]; intros [|y b] [|z c]; cbn [sleb]; try discriminate; auto.
  destruct (Nat.ltb_spec (nat_of_ascii x) (nat_of_ascii y)), (Nat.ltb_spec (nat_of_ascii y) (nat_of_ascii x)),
    (Nat.ltb_spec (nat_of_ascii y) (nat_of_ascii z)), (Nat.ltb_spec (nat_of_ascii z) (nat_of_ascii y)),
    (Nat.ltb_spec (nat_of_ascii x) (nat_of_ascii z)), (Nat.ltb_spec (nat_of_ascii z) (nat_of_ascii x));
    intros; try discriminate; try reflexivity; try lia. eauto.
Qed.
Lemma sleb_total a b : sleb a b = false -> sleb b a = true.
Proof.
  revert b. induction a as [|x a IH]; intros [|y b]; cbn [sleb]; try discriminate; auto.
  destruct (Nat.ltb_spec (nat_of_ascii x) (nat_of_ascii y)), (Nat.ltb_spec (nat_of_ascii y) (nat_of_ascii x));
    intros; try discriminate; try reflexivity; auto.
Qed.
Lemma sleb_en a b : sleb (en a) (en b) = sleb a b.
Proof.
  destruct a as [|c a], b as [|d b]; cbn [en]; auto.
  - destruct (Ascii.eqb c US); reflexivity.
  - destruct (Ascii.eqb_spec c US), (Ascii.eqb_spec d US); subst; auto.
    + cbn [sleb]. destruct (Nat.ltb_spec (nat_of_ascii US) (nat_of_ascii d)); auto.
      destruct (Nat.ltb_spec (nat_of_ascii d) (nat_of_ascii US)); auto.
      exfalso. apply n. rewrite <- (ascii_nat_embedding d), <- (ascii_nat_embedding US). f_equal. lia.
    + cbn [sleb]. destruct (Nat.ltb_spec (nat_of_ascii c) (nat_of_ascii US)); auto.
      destruct (Nat.ltb_spec (nat_of_ascii US) (nat_of_ascii c)); auto.
      exfalso. apply n. rewrite <- (ascii_nat_embedding c), <- (ascii_nat_embedding US). f_equal. lia.
Qed.
Section Sort.
  Context {A : Type}.
  Implicit Types l : list (string * A).
  Inductive sorted : list (string * A) -> Prop :=
  | sorted_nil : sorted []
  | sorted_cons p l : Forall (fun q => sleb (fst p) (fst q) = true) l -> sorted l -> sorted (p :: l).
  Lemma insert_forall (P : string * A -> Prop) p l : P p -> Forall P l -> Forall P (insert p l).
  Proof.
    intros Hp. induction 1 as [|q t Hq Ht IH]; [repeat constructor; auto|]. cbn.
    destruct (sleb (fst p) (fst q)); repeat constructor; auto.
  Qed.
  Lemma insert_sorted p l : sorted l -> sorted (insert p l).
  Proof.
    induction 1 as [|q t F S IH]; [repeat constructor|]. cbn. destruct (sleb (fst p) (fst q)) eqn:H.
    - constructor; [|now constructor]. constructor; auto.
      eapply Forall_impl; [|exact F]. intros r Hr. cbn in Hr. eapply sleb_trans; eauto.
    - constructor; auto. apply insert_forall; auto. now apply sleb_total.
  Qed.
  Lemma sort_sorted l : sorted (fold_right insert [] l).
  Proof. induction l; [constructor|]. cbn. now apply insert_sorted. Qed.
  Lemma filter_insert f p l : sorted l ->
    filter f (insert p l) = if f p then insert p (filter f l) else filter f l.
  Proof.
    induction 1 as [|q t F S IH]; [cbn; now destruct (f p)|]. cbn [insert].
    destruct (sleb (fst p) (fst q)) eqn:H.
    - cbn [filter]. destruct (f p) eqn:Hp; auto. destruct (f q) eqn:Hq.
      + cbn [insert]. now rewrite H.
      + clear - F H. assert (G : Forall (fun r => sleb (fst p) (fst r) = true) (filter f t)).
        { apply Forall_forall. intros r Hr. apply filter_In in Hr as [Hr _].
          rewrite Forall_forall in F. eapply sleb_trans; eauto. }
        destruct G as [|r u Hr]; cbn [insert]; [reflexivity|now rewrite Hr].
    - cbn [filter]. rewrite IH. destruct (f q) eqn:Hq, (f p) eqn:Hp; auto. cbn [insert]. now rewrite H.
  Qed.
  Lemma filter_sort f l : filter f (fold_right insert [] l) = fold_right insert [] (filter f l).
  Proof.
    induction l as [|p t IH]; [reflexivity|]. cbn [fold_right]. rewrite filter_insert by apply sort_sorted.
    cbn [filter]. rewrite IH. now destruct (f p).
  Qed.
  Lemma filter_rev' f l : filter f (rev l) = rev (filter f l).
  Proof.
    induction l as [|p t IH]; [reflexivity|]. cbn [rev]. rewrite filter_app, IH. cbn [filter].
    destruct (f p); cbn [rev]; [reflexivity|now rewrite app_nil_r].
  Qed.
  Lemma filter_ordered f it io l : filter f (ordered it io l) = ordered it io (filter f l).
  Proof.
    unfold ordered. destruct it, io; rewrite ?filter_sort; auto.
    - rewrite <- filter_sort, filter_rev'. reflexivity.
    - now rewrite filter_rev'.
  Qed.
End Sort.
Lemma insert_map {A B} (f : A -> B) (p : string * A) l :
  insert (en (fst p), f (snd p)) (map (fun q => (en (fst q), f (snd q))) l) =
  map (fun q => (en (fst q), f (snd q))) (insert p l).
Proof.
  induction l as [|q t IH]; [reflexivity|]. cbn [map insert fst snd]. rewrite sleb_en.
  destruct (sleb (fst p) (fst q)); [reflexivity|]. cbn [map fst snd]. now rewrite IH.
Qed.
Lemma ordered_map {A B} (f : A -> B) it io l :
  ordered it io (map (fun q => (en (fst q), f (snd q))) l) =
  map (fun q => (en (fst q), f (snd q))) (ordered it io l).
Proof.
  assert (H : fold_right insert [] (map (fun q => (en (fst q), f (snd q))) l) =
              map (fun q => (en (fst q), f (snd q))) (fold_right insert [] l)).
  { induction l as [|p t IH]; [reflexivity|]. cbn [map fold_right]. now rewrite IH, insert_map. }
  unfold ordered. destruct it, io; rewrite ?H, ?map_rev; reflexivity.
Qed.
Lemma ordered_length {A} it io (l : list (string * A)) : List.length (ordered it io l) = List.length l.
Proof.
  assert (H : forall p (m : list (string * A)), List.length (insert p m) = S (List.length m)).
  { intros p m. induction m as [|q t IH]; [reflexivity|]. cbn. destruct (sleb _ _); cbn; auto. }
  assert (G : List.length (fold_right insert [] l) = List.length l).
  { induction l as [|p t IH]; [reflexivity|]. cbn. now rewrite H, IH. }
  unfold ordered. destruct it, io; rewrite ?rev_length; auto.
Qed.

(** The filter of an iteration shows exactly the user's names. *)
Lemma shown_app a b : shown (a ++ b) = shown a ++ shown b.
Proof. induction a as [|n t IH]; [reflexivity|]. cbn. rewrite IH. now destruct (iterate_name n). Qed.
Lemma shown_en l : shown (map en l) = l.
Proof. induction l as [|n t IH]; [reflexivity|]. cbn. now rewrite en_shown, IH. Qed.
Definition visible (n : string) : bool := match iterate_name n with Some _ => true | None => false end.
Lemma shown_filter {A} (l : list (string * A)) :
  shown (map fst l) = shown (map fst (filter (fun p => visible (fst p)) l)).
Proof.
  induction l as [|[n a] t IH]; [reflexivity|]. cbn [map fst shown filter]. unfold visible at 1.
  cbn [fst]. destruct (iterate_name n) eqn:H; [|exact IH]. cbn [map fst shown]. now rewrite H, IH.
Qed.
Lemma shown_ordered {A B} (f : A -> B) it io (l1 : list (string * B)) (l2 : list (string * A)) :
  Forall (fun p => hidden (fst p)) l1 ->
  shown (map fst (ordered it io (l1 ++ map (fun q => (en (fst q), f (snd q))) l2))) = map fst (ordered it io l2).
Proof.
  intros H. rewrite shown_filter, filter_ordered, filter_app.
  replace (filter _ l1) with (@nil (string * B)).
  2:{ symmetry. induction H as [|p t Hp _ IH]; [reflexivity|]. cbn. unfold visible. now rewrite Hp. }
  cbn [app].
  replace (filter _ (map _ l2)) with (map (fun q => (en (fst q), f (snd q))) l2).
  2:{ symmetry. induction l2 as [|p t IH]; [reflexivity|]. cbn [map filter fst]. unfold visible at 1.
      now rewrite en_shown, IH. }
  rewrite ordered_map, map_map. cbn [fst].
  rewrite <- (map_map fst en). apply shown_en.
Qed.
