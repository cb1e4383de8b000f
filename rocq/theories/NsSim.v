(** Every supported call through the connector does what the library does to the user's file. *)
From Verif Require Import Base NameModel LibModel NsModel NsSpec NsProofs.
From Coq Require Import Ascii String Lia ZifyNat.

(** * Objects *)

Definition wf (st : lib) : Prop := exists r t, l_objs st = r :: t /\ ob_kind r = KGroup.

Lemma nth_enc st i : wf st ->
  nth_error (l_objs (enc st)) (up i) = option_map (eobj (isr i)) (nth_error (l_objs st) i).
Proof.
  intros (r & t & H & _). cbn [enc l_objs]. rewrite H. cbn [eobjs]. destruct i as [|i]; [reflexivity|].
  cbn [up nth_error isr Nat.eqb]. rewrite nth_error_map. reflexivity.
Qed.
Lemma upd_map {A B} (f : A -> B) i a l : upd_nth i (f a) (map f l) = map f (upd_nth i a l).
Proof. revert i. induction l as [|x t IH]; intros [|i]; cbn; auto. now rewrite IH. Qed.
Lemma set_enc st i o : wf st -> set_obj (enc st) (up i) (eobj (isr i) o) = enc (set_obj st i o).
Proof.
  intros (r & t & H & _). unfold set_obj, enc. cbn [l_objs l_hnds]. rewrite H. f_equal.
  destruct i as [|i]; [reflexivity|]. cbn [up upd_nth eobjs isr Nat.eqb]. now rewrite upd_map.
Qed.
Lemma obj_of_enc st h : wf st -> obj_of (enc st) h = option_map eio (obj_of st h).
Proof.
  intros W. unfold obj_of. cbn [enc l_hnds]. rewrite nth_error_map.
  destruct (nth_error (l_hnds st) h) as [hd|]; [|reflexivity]. cbn [option_map ehnd h_obj].
  change (eobjs (l_objs st)) with (l_objs (enc st)).
  rewrite nth_enc by auto. now destruct (nth_error (l_objs st) (h_obj hd)).
Qed.
Lemma resolve_enc b f o n :
  resolve f (ob_links (eobj b o)) (en n) = option_map up (resolve f (ob_links o) n).
Proof.
  revert n. induction f as [|f IH]; intros n; cbn [resolve]; rewrite assoc_links;
    destruct (assoc n (ob_links o)) as [[i|t]|]; cbn [option_map et]; auto.
Qed.
Lemma loc_of_enc st l : wf st -> loc_of (enc st) (eloc l) = option_map eio (loc_of st l).
Proof.
  intros W. destruct l as [h|h n]; cbn [eloc loc_of]; rewrite obj_of_enc by auto; [reflexivity|].
  destruct (obj_of st h) as [[i g]|]; [|reflexivity]. cbn [option_map eio fst snd].
  rewrite resolve_enc. destruct (resolve 16 (ob_links g) n) as [j|]; [|reflexivity]. cbn [option_map].
  rewrite nth_enc by auto. now destruct (nth_error (l_objs st) j).
Qed.
Lemma attrs_app b o l : set_attrs (eobj b o) (ob_attrs (eobj b o) ++ map epair l) = eobj b (set_attrs o (ob_attrs o ++ l)).
Proof. unfold set_attrs, eobj. cbn [ob_attrs ob_kind ob_links]. now rewrite map_app, app_assoc. Qed.
Lemma links_app b o l : set_links (eobj b o) (ob_links (eobj b o) ++ map elink l) = eobj b (set_links o (ob_links o ++ l)).
Proof. unfold set_links, eobj. cbn [ob_attrs ob_kind ob_links]. now rewrite map_app, app_assoc. Qed.
Lemma add_link_enc st h n t : wf st ->
  add_link (enc st) h (en n) (et t) = option_map enc (add_link st h n t).
Proof.
  intros W. unfold add_link. rewrite obj_of_enc by auto. destruct (obj_of st h) as [[i g]|]; [|reflexivity].
  cbn [option_map]. unfold eio. cbn [fst snd]. rewrite assoc_links. cbn [eobj ob_kind].
  destruct (ob_kind g); [|reflexivity..]. destruct (assoc n (ob_links g)); [reflexivity|]. cbn [option_map].
  fold (eobj (isr i) g). rewrite <- set_enc by auto. rewrite <- links_app. reflexivity.
Qed.
Lemma get_link_enc st h n : wf st -> get_link (enc st) h (en n) = option_map et (get_link st h n).
Proof.
  intros W. unfold get_link. rewrite obj_of_enc by auto. destruct (obj_of st h) as [[i g]|]; [|reflexivity].
  cbn [option_map eio fst snd]. apply assoc_links.
Qed.
Lemma del_link_enc st h n : wf st -> del_link (enc st) h (en n) = enc (del_link st h n).
Proof.
  intros W. unfold del_link. rewrite obj_of_enc by auto. destruct (obj_of st h) as [[i g]|]; [|reflexivity].
  cbn [option_map]. unfold eio. cbn [fst snd]. rewrite <- set_enc by auto. f_equal.
  unfold set_links, eobj. cbn [ob_kind ob_attrs ob_links]. f_equal.
  rewrite drop_hidden by apply own_links_hidden. f_equal. apply (drop_map et).
Qed.

(** * The library keeps a root group *)

Lemma wf_set st i o o' : wf st -> nth_error (l_objs st) i = Some o -> ob_kind o' = ob_kind o ->
  wf (set_obj st i o').
Proof.
  intros (r & t & H & K) N Q. unfold wf, set_obj. cbn [l_objs]. rewrite H in *. destruct i as [|i].
  - cbn in N. injection N as ->. exists o', t. split; [reflexivity|congruence].
  - exists r, (upd_nth i o' t). split; [reflexivity|auto].
Qed.
Lemma obj_of_nth st h i o : obj_of st h = Some (i, o) -> nth_error (l_objs st) i = Some o.
Proof.
  unfold obj_of. destruct (nth_error (l_hnds st) h) as [hd|]; [|discriminate].
  destruct (nth_error (l_objs st) (h_obj hd)) eqn:N; [|discriminate]. intros [= <- <-]. exact N.
Qed.
Lemma loc_of_nth st l i o : loc_of st l = Some (i, o) -> nth_error (l_objs st) i = Some o.
Proof.
  destruct l as [h|h n]; cbn [loc_of]; [apply obj_of_nth|].
  destruct (obj_of st h) as [[j g]|]; [|discriminate]. destruct (resolve 16 (ob_links g) n); [|discriminate].
  destruct (nth_error (l_objs st) n0) eqn:N; [|discriminate]. intros [= <- <-]. exact N.
Qed.
Lemma wf_add st h n t st' : wf st -> add_link st h n t = Some st' -> wf st'.
Proof.
  unfold add_link. intros W. destruct (obj_of st h) as [[i g]|] eqn:O; [|discriminate].
  destruct (ob_kind g), (assoc n (ob_links g)); try discriminate. intros [= <-].
  eapply wf_set; eauto using obj_of_nth.
Qed.
Lemma wf_del st h n : wf st -> wf (del_link st h n).
Proof.
  unfold del_link. intros W. destruct (obj_of st h) as [[i g]|] eqn:O; auto.
  eapply wf_set; eauto using obj_of_nth.
Qed.
Lemma wf_put st h n t : wf st -> wf (fst (put_link st h n t)).
Proof. unfold put_link. intros W. destruct (add_link st h n t) eqn:A; cbn; eauto using wf_add. Qed.
Lemma wf_new st h n k : wf st -> wf (fst (new_obj st h n k)).
Proof.
  unfold new_obj. intros W. destruct (add_link st h n _) eqn:A; auto. cbn [fst].
  destruct (wf_add _ _ _ _ _ W A) as (r & t & H & K). unfold wf. cbn [l_objs]. rewrite H. eexists _, _. split; eauto.
  reflexivity.
Qed.
Ltac wf_attr :=
  match goal with
  | |- wf (fst (or_fail ?st (loc_of ?st ?l) _)) =>
      let i := fresh "i" in let o := fresh "o" in let L := fresh "L" in
      destruct (loc_of st l) as [[i o]|] eqn:L; cbn [or_fail fst snd]; auto
  end.
Lemma wf_step st c : wf st -> wf (fst (lib_step st c)).
Proof.
  intros W. destruct c; cbn [lib_step]; auto using wf_new.
  - destruct (loc_of st (Named h n)); cbn; auto.
  - destruct (obj_of st h) as [[i g]|]; cbn [or_fail fst snd]; auto.
    destruct (nth_error (ordered it io (ob_links g)) k) as [q|]; cbn [or_fail fst snd]; auto.
    destruct (loc_of st (Named h (fst q))); cbn; auto.
  - destruct (obj_of st h); cbn; auto.
  - destruct (get_link st h n); cbn [or_fail fst]; auto using wf_del.
  - destruct (same_loc h1 h2) as [hh|]; cbn [or_fail fst]; auto.
    destruct (get_link st (fst hh) n1) as [t|]; cbn [or_fail fst]; auto.
    destruct (add_link st (snd hh) n2 t); cbn [or_fail fst]; auto. apply wf_put. now apply wf_del.
  - destruct (get_link st h1 n1); cbn [or_fail fst]; auto using wf_put.
  - destruct (loc_of st (Named h1 n1)); cbn [or_fail fst]; auto using wf_put.
  - auto using wf_put.
  - destruct (obj_of st h); cbn; auto.
  - destruct (obj_of st h); cbn; auto.
  - destruct (obj_of st h) as [[i g]|]; cbn [or_fail fst snd]; auto.
    destruct (nth_error (ordered it io (ob_links g)) k); cbn; auto.
  - wf_attr. destruct (assoc n (ob_attrs o)); cbn [fst]; auto. eapply wf_set; eauto using loc_of_nth.
  - wf_attr. destruct (assoc n (ob_attrs o)); cbn [or_fail fst]; auto.
  - wf_attr. destruct (assoc n (ob_attrs o)); cbn [or_fail fst]; auto. eapply wf_set; eauto using loc_of_nth.
  - wf_attr.
  - wf_attr. destruct (assoc n (ob_attrs o)); cbn [or_fail fst]; auto. eapply wf_set; eauto using loc_of_nth.
  - wf_attr. destruct (assoc old (ob_attrs o)); cbn [or_fail fst]; auto.
    destruct (assoc new (ob_attrs o)); cbn [fst]; auto. eapply wf_set; eauto using loc_of_nth.
  - wf_attr. destruct (assoc n (ob_attrs o)); cbn [or_fail fst]; auto.
  - wf_attr. destruct (nth_error _ k); cbn [or_fail fst]; auto.
  - wf_attr. destruct (nth_error _ k); cbn [or_fail fst]; auto.
  - wf_attr. destruct (nth_error _ k); cbn [or_fail fst]; auto.
  - wf_attr. destruct (nth_error _ k); cbn [or_fail fst]; auto. eapply wf_set; eauto using loc_of_nth.
  - wf_attr.
  - wf_attr.
Qed.

(** * Calls *)

Lemma or_fail_enc {A B} st (g : A -> B) (o : option A) f f' :
  (forall a, o = Some a -> f' (g a) = E (f a)) ->
  or_fail (enc st) (option_map g o) f' = E (or_fail st o f).
Proof. destruct o as [a|]; intros H; [apply H; reflexivity|reflexivity]. Qed.
Lemma put_enc st h n t : wf st -> put_link (enc st) h (en n) (et t) = E (put_link st h n t).
Proof.
  intros W. unfold put_link. rewrite add_link_enc by auto.
  apply or_fail_enc with (g := enc). reflexivity.
Qed.
Lemma len_enc st : wf st -> List.length (l_objs (enc st)) = up (List.length (l_objs st)).
Proof. intros (r & t & H & _). cbn [enc l_objs]. rewrite H. cbn. now rewrite map_length. Qed.
Lemma new_enc st h n : wf st -> lib_step (enc st) (CGroup h (en n)) = E (lib_step st (CGroup h n)).
Proof.
  intros W. cbn [lib_step]. unfold new_obj. rewrite len_enc by auto.
  change (Hard (up ?x)) with (et (Hard x)). rewrite add_link_enc by auto.
  destruct (add_link st h n _) as [st1|] eqn:A; [|reflexivity]. cbn [option_map]. unfold E, enc.
  cbn [fst snd l_objs l_hnds]. rewrite map_app. destruct (wf_add _ _ _ _ _ W A) as (r & t & H & K).
  rewrite H. cbn [eobjs app]. rewrite map_app. reflexivity.
Qed.
Lemma snoc_nth {A} (l : list A) a : nth_error (l ++ [a]) (List.length l) = Some a.
Proof. induction l; cbn; auto. Qed.
Lemma upd_snoc {A} (l : list A) a b : upd_nth (List.length l) b (l ++ [a]) = l ++ [b].
Proof. induction l; cbn; auto. now f_equal. Qed.
Lemma new_attr os hs i o n v :
  i = List.length os -> assoc n (ob_attrs o) = None ->
  fst (lib_step (mklib (os ++ [o]) (hs ++ [mkh (TObj KDset) i])) (AMake (Self (List.length hs)) n v)) =
  mklib (os ++ [set_attrs o (ob_attrs o ++ [(n, v)])]) (hs ++ [mkh (TObj KDset) i]).
Proof.
  intros -> A. cbn [lib_step loc_of]. unfold obj_of. cbn [l_hnds l_objs]. rewrite snoc_nth. cbn [h_obj].
  rewrite snoc_nth. cbn [or_fail fst snd]. rewrite A. cbn [fst]. unfold set_obj. cbn [l_objs l_hnds].
  now rewrite upd_snoc.
Qed.
Lemma add_link_shape st h n t st' : add_link st h n t = Some st' ->
  List.length (l_objs st') = List.length (l_objs st) /\ l_hnds st' = l_hnds st.
Proof.
  unfold add_link. destruct (obj_of st h) as [[i g]|]; [|discriminate].
  destruct (ob_kind g), (assoc n (ob_links g)); try discriminate. intros [= <-]. cbn. split; auto.
  generalize (l_objs st). intros l. revert i. induction l as [|x u IH]; intros [|i]; cbn; auto.
Qed.
Lemma dset_enc st h n : wf st -> dset_create (enc st) h (en n) = Ok (E (lib_step st (CDset h n))).
Proof.
  intros W. unfold dset_create. change (lib_step (enc st) (CDset h (en n))) with (new_obj (enc st) h (en n) KDset).
  change (lib_step st (CDset h n)) with (new_obj st h n KDset). unfold new_obj. rewrite len_enc by auto.
  change (Hard (up ?x)) with (et (Hard x)). rewrite add_link_enc by auto.
  destruct (add_link st h n _) as [st1|] eqn:A; [|reflexivity]. cbn [option_map fst snd].
  pose proof (wf_add _ _ _ _ _ W A) as W1. destruct (add_link_shape _ _ _ _ _ A) as [L1 H1].
  f_equal. unfold E. cbn [fst snd]. f_equal.
  assert (Lh : List.length (l_hnds (enc st)) = List.length (l_hnds (enc st1))).
  { cbn. rewrite !map_length. now rewrite H1. }
  rewrite Lh. rewrite <- L1, <- len_enc by auto.
  unfold DSET_ATTRS. cbn [fold_left].
  rewrite new_attr by reflexivity. rewrite new_attr by reflexivity. rewrite new_attr by reflexivity.
  cbn [set_attrs ob_attrs ob_kind ob_links app]. unfold enc. cbn [l_objs l_hnds]. rewrite map_app.
  destruct W1 as (r & t & H & K). rewrite H. cbn [eobjs app]. rewrite map_app. cbn [map app].
  f_equal. f_equal. unfold ehnd. cbn [h_type h_obj]. rewrite <- H in *. cbn [List.length up].
  rewrite H. cbn [List.length up]. rewrite map_length. reflexivity.
Qed.

Lemma has_enc o : ob_kind o = KDset ->
  has_attrs DSET_ATTRS (eobj false o) = true /\ has_attrs ["_ID"%string] (eobj false o) = true.
Proof. intros K. unfold eobj. rewrite K. split; reflexivity. Qed.
Lemma can_open_enc st i o b : wf st -> nth_error (l_objs (enc st)) i = Some o -> can_open b o = true.
Proof.
  intros (r & t & H & K). cbn [enc l_objs]. rewrite H. cbn [eobjs].
  destruct i as [|[|i]]; cbn [nth_error].
  - intros [= <-]. unfold can_open. cbn [eobj ob_kind]. now rewrite K.
  - now intros [= <-].
  - rewrite nth_error_map. destruct (nth_error t i) as [x|]; [|discriminate]. intros [= <-].
    unfold can_open. cbn [eobj ob_kind]. destruct (ob_kind x) eqn:Kx; auto.
    fold (eobj false x). destruct (has_enc x Kx). destruct b; auto.
Qed.
Lemma open_enc st c c' :
  wf st -> lib_step (enc st) c' = E (lib_step st c) ->
  (forall st' , lib_step st c = (st', ROk) -> exists k i o,
      st' = push st k i /\ nth_error (l_objs st) i = Some o) ->
  (forall st' r, lib_step st c = (st', r) -> r = ROk \/ (st' = st /\ r = RFail)) ->
  open_under (enc st) c' = Ok (E (lib_step st c)).
Proof.
  intros W S HP HF. unfold open_under. rewrite S. destruct (lib_step st c) as [st' r].
  destruct (HF _ _ eq_refl) as [->|[-> ->]]; [|reflexivity].
  destruct (HP _ eq_refl) as (k & i & o & -> & N). cbn [E fst snd].
  assert (Hl : List.last (l_hnds (enc (push st k i))) (mkh TFile 0) = mkh (TObj k) (up i)).
  { cbn [push enc l_hnds]. rewrite map_app. cbn. apply last_last. }
  rewrite Hl. cbn [h_obj]. change (l_objs (enc (push st k i))) with (l_objs (enc st)).
  rewrite nth_enc by auto. rewrite N. cbn [option_map].
  rewrite (can_open_enc st (up i)); auto. rewrite nth_enc by auto. now rewrite N.
Qed.
Lemma push_enc st k i : enc (push st k i) = push (enc st) k (up i).
Proof. unfold push, enc. cbn. now rewrite map_app. Qed.
Lemma copen_enc st h n : wf st -> lib_step (enc st) (COpen h (en n)) = E (lib_step st (COpen h n)).
Proof.
  intros W. cbn [lib_step]. change (Named h (en n)) with (eloc (Named h n)). rewrite loc_of_enc by auto.
  apply or_fail_enc. intros [i o] _. unfold E. cbn [eio fst snd eobj ob_kind]. now rewrite push_enc.
Qed.

Lemma reopen_enc st : wf st -> reopen (enc st) = Ok (E (lib_step st CReopen)).
Proof.
  intros W. unfold reopen. replace (root_ok (l_objs (enc st))) with true.
  2:{ destruct W as (r & t & H & K). cbn [enc l_objs]. rewrite H. reflexivity. }
  rewrite (proj2 (forallb_forall _ _)); [reflexivity|]. intros i _.
  destruct (nth_error (l_objs (enc st)) i) eqn:N; auto. eapply can_open_enc; eauto.
Qed.

Lemma eloc_plain l : loc_plain l -> eloc l = l.
Proof. destruct l; cbn; auto. intros. now rewrite en_plain. Qed.
Lemma remap_loc_en l : loc_nonempty l -> remap_loc l = Ok (eloc l).
Proof. destruct l; cbn; auto. intros. now rewrite remap_en. Qed.
Lemma skip_enc st l l' : loc_hnd l' = loc_hnd l -> skip_of (enc st) l' = skip_of st l.
Proof.
  intros H. unfold skip_of. rewrite H. cbn [enc l_hnds]. rewrite nth_error_map.
  now destruct (nth_error (l_hnds st) (loc_hnd l)).
Qed.

(** Attribute calls by name. *)
Ltac attr_call W :=
  rewrite loc_of_enc by exact W; apply or_fail_enc; intros [?i ?o] ?L; cbn [eio fst snd];
  rewrite ?assoc_attrs.
Lemma amake_enc st l n v : wf st -> lib_step (enc st) (AMake (eloc l) (en n) v) = E (lib_step st (AMake l n v)).
Proof.
  intros W. cbn [lib_step]. attr_call W. destruct (assoc n (ob_attrs o)); [reflexivity|]. unfold E. cbn [fst snd].
  rewrite <- set_enc by auto. now rewrite <- attrs_app.
Qed.
Lemma aget_enc st l n : wf st -> lib_step (enc st) (AGet (eloc l) (en n)) = E (lib_step st (AGet l n)).
Proof. intros W. cbn [lib_step]. attr_call W. now destruct (assoc n (ob_attrs o)). Qed.
Lemma aput_enc st l n v : wf st -> lib_step (enc st) (APut (eloc l) (en n) v) = E (lib_step st (APut l n v)).
Proof.
  intros W. cbn [lib_step]. attr_call W. destruct (assoc n (ob_attrs o)); [|reflexivity]. unfold E. cbn [fst snd or_fail].
  rewrite <- set_enc by auto. unfold set_attrs, eobj. cbn [ob_kind ob_attrs ob_links].
  rewrite setv_hidden by apply own_hidden. now rewrite setv_map.
Qed.
Lemma ahas_enc st l n : wf st -> lib_step (enc st) (AHas (eloc l) (en n)) = E (lib_step st (AHas l n)).
Proof. intros W. cbn [lib_step]. attr_call W. reflexivity. Qed.
Lemma drop_enc b o n : set_attrs (eobj b o) (drop (en n) (ob_attrs (eobj b o))) = eobj b (set_attrs o (drop n (ob_attrs o))).
Proof.
  unfold set_attrs, eobj. cbn [ob_kind ob_attrs ob_links]. rewrite drop_hidden by apply own_hidden.
  f_equal. f_equal. apply (drop_map (fun x => x)).
Qed.
Lemma adel_enc st l n : wf st -> lib_step (enc st) (ADel (eloc l) (en n)) = E (lib_step st (ADel l n)).
Proof.
  intros W. cbn [lib_step]. attr_call W. destruct (assoc n (ob_attrs o)); [|reflexivity]. unfold E. cbn [fst snd or_fail].
  rewrite <- set_enc by auto. now rewrite drop_enc.
Qed.
Lemma aren_enc st l a b : wf st -> lib_step (enc st) (ARen (eloc l) (en a) (en b)) = E (lib_step st (ARen l a b)).
Proof.
  intros W. cbn [lib_step]. attr_call W. destruct (assoc a (ob_attrs o)); [|reflexivity]. cbn [or_fail].
  destruct (assoc b (ob_attrs o)); [reflexivity|]. unfold E. cbn [fst snd].
  rewrite <- set_enc by auto. unfold set_attrs, eobj. cbn [ob_kind ob_attrs ob_links].
  rewrite rename_hidden by apply own_hidden. now rewrite rename_map.
Qed.
Lemma ainfo_enc st l n : wf st -> lib_step (enc st) (AInfo (eloc l) (en n)) = E (lib_step st (AInfo l n)).
Proof. intros W. cbn [lib_step]. attr_call W. now destruct (assoc n (ob_attrs o)). Qed.
Lemma own_len i o : List.length (own (isr i) (ob_kind o)) = own_count i o.
Proof. unfold own_count, isr. destruct (i =? 0)%nat; [reflexivity|]. destruct (ob_kind o); reflexivity. Qed.
Lemma anum_enc st l : wf st -> forall i o, loc_of st l = Some (i, o) ->
  lib_step (enc st) (ANum (eloc l)) = (enc st, RNum (Z.of_nat (own_count i o) + Zlen (ob_attrs o))).
Proof.
  intros W i o L. cbn [lib_step]. rewrite loc_of_enc by auto. rewrite L. cbn [option_map or_fail eio fst snd].
  do 2 f_equal. unfold Zlen. cbn [eobj ob_attrs]. rewrite app_length, map_length, own_len. lia.
Qed.

Lemma show_links st h it io : wf st -> show (lib_step (enc st) (CList h it io)) = E (lib_step st (CList h it io)).
Proof.
  intros W. cbn [lib_step]. rewrite obj_of_enc by auto. destruct (obj_of st h) as [[i g]|]; [|reflexivity].
  cbn [option_map or_fail eio fst snd]. unfold show, E. cbn [fst snd]. do 2 f_equal.
  cbn [eobj ob_links]. apply (shown_ordered et). apply own_links_hidden.
Qed.
Lemma show_attrs st l it io : wf st ->
  show (lib_step (enc st) (AList (eloc l) it io)) = E (lib_step st (AList l it io)).
Proof.
  intros W. cbn [lib_step]. rewrite loc_of_enc by auto. destruct (loc_of st l) as [[i o]|]; [|reflexivity].
  cbn [option_map or_fail eio fst snd]. unfold show, E. cbn [fst snd]. do 2 f_equal.
  cbn [eobj ob_attrs]. apply (shown_ordered (fun x => x)). apply own_hidden.
Qed.

(** By index. *)
Lemma idx_none i o it io k : own_count i o = 0%nat ->
  nth_error (ordered it io (ob_attrs (eobj (isr i) o))) k =
  option_map epair (nth_error (ordered it io (ob_attrs o)) k).
Proof.
  intros N. cbn [eobj ob_attrs]. rewrite <- own_len in N. apply length_zero_iff_nil in N. rewrite N. cbn [app].
  change (map epair (ob_attrs o)) with (map (fun q => (en (fst q), (fun x => x) (snd q))) (ob_attrs o)).
  rewrite (ordered_map (fun x : list Z => x)). rewrite nth_error_map. reflexivity.
Qed.
Lemma idx_inc i o k :
  nth_error (ordered ByCrt Inc (ob_attrs (eobj (isr i) o))) (k + own_count i o) =
  option_map epair (nth_error (ordered ByCrt Inc (ob_attrs o)) k).
Proof.
  cbn [ordered eobj ob_attrs]. rewrite <- own_len.
  rewrite nth_error_app2 by lia. rewrite Nat.add_sub. apply nth_error_map.
Qed.
Lemma idx_dec i o k : (k < List.length (ob_attrs o))%nat ->
  nth_error (ordered ByCrt Dec (ob_attrs (eobj (isr i) o))) k =
  option_map epair (nth_error (ordered ByCrt Dec (ob_attrs o)) k).
Proof.
  intros H. cbn [ordered eobj ob_attrs]. rewrite rev_app_distr.
  rewrite nth_error_app1 by (rewrite rev_length, map_length; auto).
  rewrite <- map_rev. apply nth_error_map.
Qed.
Lemma idx_bound i o it io k :
  nth_error (ordered it io (ob_attrs (eobj (isr i) o))) (k + own_count i o) = None <->
  (List.length (ob_attrs o) <= k)%nat.
Proof.
  rewrite nth_error_None, ordered_length. cbn [eobj ob_attrs]. rewrite app_length, map_length, own_len. lia.
Qed.

Lemma insert_In {A} (p q : string * A) l : In q (insert p l) -> p = q \/ In q l.
Proof. induction l as [|y u IH]; cbn; [tauto|]. destruct (sleb _ _); cbn; tauto. Qed.
Lemma ordered_In {A} it io (l : list (string * A)) q : In q (ordered it io l) -> In q l.
Proof.
  assert (X : In q (fold_right insert [] l) -> In q l).
  { induction l as [|p t IH]; cbn [fold_right]; auto. intros H. apply insert_In in H as [->|H]; cbn; auto. }
  destruct it, io; cbn [ordered]; rewrite <- ?in_rev; auto.
Qed.
(** A call that looks up one attribute by index and returns something about it. *)
Definition by_idx (st : lib) (l : loc) (it : itype) (io : iorder) (k : nat) (f : string * list Z -> result) : lib * result :=
  or_fail st (loc_of st l) (fun p => or_fail st (nth_error (ordered it io (ob_attrs (snd p))) k) (fun q => (st, f q))).
Lemma get_idx_enc st l it io k f c :
  wf st -> loc_plain l -> own_type st l -> (it = ByCrt \/ no_own st l) ->
  (forall s m, lib_step s (c m) = by_idx s l it io m f) ->
  (forall i o q, loc_of st l = Some (i, o) -> In q (ob_attrs o) -> f (epair q) = f q) ->
  (forall q, f q <> RFail) ->
  get_idx (enc st) l io k c = Ok (E (lib_step st (c k))).
Proof.
  intros W P T C S F NF. unfold get_idx. rewrite (skip_enc st l l) by auto. rewrite !S. unfold by_idx.
  replace (loc_of (enc st) l) with (option_map eio (loc_of st l)) by (rewrite <- loc_of_enc by auto; now rewrite eloc_plain).
  destruct (loc_of st l) as [[i o]|] eqn:L; [|reflexivity]. cbn [option_map or_fail eio fst snd].
  rewrite (T _ _ L).
  assert (I : forall q m, nth_error (ordered it io (ob_attrs o)) m = Some q -> f (epair q) = f q).
  { intros q m H. apply (F _ _ _ eq_refl). apply nth_error_In in H. eapply ordered_In; eauto. }
  destruct (nth_error (ordered it io (ob_attrs (eobj (isr i) o))) (k + own_count i o)) as [q'|] eqn:N.
  2:{ cbn [or_fail snd]. apply idx_bound in N. unfold E.
      replace (nth_error (ordered it io (ob_attrs o)) k) with (@None (string * list Z)); [reflexivity|].
      symmetry. apply nth_error_None. now rewrite ordered_length. }
  cbn [or_fail snd fst].
  assert (B : (k < List.length (ob_attrs o))%nat).
  { destruct (Nat.lt_ge_cases k (List.length (ob_attrs o))); auto.
    apply (idx_bound i o it io) in H. congruence. }
  destruct (nth_error (ordered it io (ob_attrs o)) k) as [q|] eqn:Q.
  2:{ apply nth_error_None in Q. rewrite ordered_length in Q. lia. }
  unfold E. cbn [or_fail fst snd]. specialize (I q k Q). destruct io.
  - assert (q' = epair q).
    { destruct C as [->|C].
      - rewrite idx_inc, Q in N. cbn in N. congruence.
      - specialize (C _ _ L). rewrite C, Nat.add_0_r in N. rewrite idx_none, Q in N by auto. cbn in N. congruence. }
    subst q'. rewrite I. now destruct (f q).
  - unfold under. rewrite S. unfold by_idx.
    replace (loc_of (enc st) l) with (option_map eio (loc_of st l)) by (rewrite <- loc_of_enc by auto; now rewrite eloc_plain).
    rewrite L. cbn [option_map or_fail eio fst snd].
    assert (G : nth_error (ordered it Dec (ob_attrs (eobj (isr i) o))) k = Some (epair q)).
    { destruct C as [->|C].
      - rewrite idx_dec, Q by auto. reflexivity.
      - specialize (C _ _ L). rewrite idx_none, Q by auto. reflexivity. }
    rewrite G. cbn [or_fail]. rewrite I. destruct (f q') eqn:FQ; auto. now apply NF in FQ.
Qed.

Theorem vol_sim dbi st c : wf st -> supported st c -> vol_step dbi (enc st) c = Ok (E (lib_step st c)).
Proof.
  intros W S. destruct c; cbn [supported] in S; cbn [vol_step]; unfold under; try tauto.
  - rewrite remap_en by auto. cbn [on]. now rewrite new_enc.
  - rewrite remap_en by auto. cbn [on]. now rewrite dset_enc.
  - rewrite remap_en by auto. cbn [on]. apply open_enc; auto using copen_enc.
    + intros st'. cbn [lib_step]. destruct (loc_of st (Named h n)) as [[i o]|] eqn:L; cbn [or_fail]; [|discriminate].
      intros [= <-]. eexists _, _, _. split; [reflexivity|]. eauto using loc_of_nth.
    + intros st' r. cbn [lib_step]. destruct (loc_of st (Named h n)); cbn [or_fail]; intros [= <- <-]; auto.
  - apply open_enc; auto.
    + cbn [lib_step]. rewrite obj_of_enc by auto. apply or_fail_enc. intros [i g] O. cbn [eio fst snd].
      specialize (S _ _ O).
      replace (nth_error (ordered it io (ob_links (eobj (isr i) g))) k)
        with (option_map elink (nth_error (ordered it io (ob_links g)) k)).
      2:{ cbn [eobj ob_links]. unfold isr. destruct i; [congruence|]. cbn [Nat.eqb own_links app].
          unfold elink. rewrite (ordered_map et). rewrite nth_error_map. reflexivity. }
      apply or_fail_enc. intros [n t] _. cbn [elink fst snd].
      change (Named h (en n)) with (eloc (Named h n)). rewrite loc_of_enc by auto.
      apply or_fail_enc. intros [j o] _. unfold E. cbn [eio fst snd eobj ob_kind]. now rewrite push_enc.
    + intros st'. cbn [lib_step]. destruct (obj_of st h) as [[i g]|]; cbn [or_fail]; [|discriminate].
      destruct (nth_error _ k) as [q|]; cbn [or_fail]; [|discriminate].
      destruct (loc_of st (Named h (fst q))) as [[j o]|] eqn:L; cbn [or_fail]; [|discriminate].
      intros [= <-]. eexists _, _, _. split; [reflexivity|]. eauto using loc_of_nth.
    + intros st' r. cbn [lib_step]. destruct (obj_of st h) as [[i g]|]; cbn [or_fail]; [|intros [= <- <-]; auto].
      destruct (nth_error _ k) as [q|]; cbn [or_fail]; [|intros [= <- <-]; auto].
      destruct (loc_of st (Named h (fst q))); cbn [or_fail]; intros [= <- <-]; auto.
  - rewrite remap_en by auto. cbn [on]. f_equal. cbn [lib_step]. rewrite obj_of_enc by auto.
    apply or_fail_enc. intros [i g] _. cbn [eio fst snd]. rewrite assoc_links. unfold E. cbn [fst snd].
    now destruct (assoc n (ob_links g)).
  - rewrite remap_en by auto. cbn [on]. f_equal. cbn [lib_step]. rewrite get_link_enc by auto.
    apply or_fail_enc. intros t _. unfold E. cbn [fst snd]. now rewrite del_link_enc.
  - destruct h1 as [h1|]; [|tauto]. destruct h2 as [h2|]; [|tauto]. destruct S as [S1 S2].
    rewrite !remap_en by auto. cbn [on]. f_equal. cbn [lib_step same_loc or_fail fst snd].
    rewrite get_link_enc by auto. apply or_fail_enc. intros t _. rewrite add_link_enc by auto.
    apply or_fail_enc. intros st1 _. rewrite del_link_enc by auto. apply put_enc. now apply wf_del.
  - destruct S as [S1 S2]. f_equal.
    assert (X : lib_step (enc st) (CCopy h1 (en n1) h2 (en n2)) = E (lib_step st (CCopy h1 n1 h2 n2))).
    { cbn [lib_step]. rewrite get_link_enc by auto. apply or_fail_enc. intros t _. now apply put_enc. }
    now rewrite !en_plain in X.
  - destruct S as [S1 S2]. f_equal.
    assert (X : lib_step (enc st) (CHard h1 (en n1) h2 (en n2)) = E (lib_step st (CHard h1 n1 h2 n2))).
    { cbn [lib_step]. change (Named h1 (en n1)) with (eloc (Named h1 n1)). rewrite loc_of_enc by auto.
      apply or_fail_enc. intros p _. now apply (put_enc st h2 n2 (Hard (fst p))). }
    now rewrite !en_plain in X.
  - destruct S as [S1 S2]. f_equal. cbn [lib_step]. rewrite <- (put_enc st h n (Soft t)) by auto. cbn [et].
    now rewrite !en_plain.
  - now rewrite show_links.
  - f_equal. cbn [lib_step]. rewrite obj_of_enc by auto. apply or_fail_enc. intros [i g] O. specialize (S _ _ O).
    unfold E. cbn [eio fst snd eobj ob_links]. do 2 f_equal. unfold isr. destruct i; [congruence|].
    cbn [Nat.eqb own_links app]. unfold Zlen. now rewrite map_length.
  - destruct S as [S1 S2]. rewrite remap_en by auto. cbn [on]. rewrite <- amake_enc by auto. now rewrite eloc_plain.
  - destruct S as [S1 S2]. rewrite remap_en by auto. cbn [on]. rewrite <- aget_enc by auto. now rewrite eloc_plain.
  - destruct S as [S1 S2]. rewrite remap_en by auto. cbn [on]. rewrite <- aput_enc by auto. now rewrite eloc_plain.
  - destruct S as [S1 S2]. rewrite remap_loc_en by auto. cbn [on]. rewrite remap_en by auto. cbn [on]. now rewrite ahas_enc.
  - destruct S as [S1 S2]. rewrite remap_loc_en by auto. cbn [on]. rewrite remap_en by auto. cbn [on]. now rewrite adel_enc.
  - destruct S as (S1 & S2 & S3). rewrite remap_loc_en by auto. cbn [on]. rewrite <- aren_enc by auto.
    now rewrite (en_plain old), (en_plain new).
  - destruct S as [S1 S2]. rewrite <- ainfo_enc by auto. now rewrite eloc_plain, en_plain.
  - destruct S as (S1 & S2 & S3). f_equal. rewrite (skip_enc st l l) by auto. cbn [lib_step].
    replace (loc_of (enc st) l) with (option_map eio (loc_of st l)) by (rewrite <- loc_of_enc by auto; now rewrite eloc_plain).
    apply or_fail_enc. intros [i o] L. cbn [eio fst snd]. rewrite (S2 _ _ L).
    replace (nth_error (ordered it io (ob_attrs (eobj (isr i) o))) (k + own_count i o))
      with (option_map epair (nth_error (ordered it io (ob_attrs o)) k)).
    { apply or_fail_enc. intros q _. reflexivity. }
    destruct S3 as [[-> ->]|S3]; [symmetry; apply idx_inc|].
    specialize (S3 _ _ L). rewrite S3, Nat.add_0_r. symmetry. now apply idx_none.
  - destruct S as (S1 & S2 & S3 & S4). apply (get_idx_enc st l it io k (fun q => RName (fst q))); auto; try discriminate.
    intros i o q L I. specialize (S4 _ _ L). rewrite Forall_forall in S4. unfold epair. cbn [fst].
    now rewrite en_plain by auto.
  - destruct S as (S1 & S2 & S3). apply (get_idx_enc st l it io k (fun q => RNum (Zlen (snd q)))); auto; try discriminate.
  - rewrite remap_loc_en by auto. cbn [on]. now rewrite show_attrs.
  - destruct S as (S1 & S2 & S3). rewrite remap_loc_en by auto. cbn [on].
    rewrite (skip_enc st l l) by auto.
    destruct (loc_of st l) as [[i o]|] eqn:L.
    + rewrite (anum_enc st l W i o L). cbn [fst snd]. cbn [lib_step]. rewrite L. cbn [or_fail]. unfold E.
      cbn [fst snd]. do 3 f_equal. rewrite (S2 _ _ L). unfold wrap64.
      replace (Z.of_nat (own_count i o) + Zlen (ob_attrs o) - Z.of_nat (own_count i o)) with (Zlen (ob_attrs o)) by lia.
      apply Z.mod_small. split; [unfold Zlen; lia|]. eapply S3; eauto.
    + cbn [lib_step]. rewrite loc_of_enc by auto. now rewrite L.
  - now apply reopen_enc.
Qed.

Theorem vol_run_sim dbi st cs : wf st -> supported_run st cs ->
  vol_run dbi (enc st) cs = Ok (enc (fst (lib_run st cs)), snd (lib_run st cs)).
Proof.
  revert st. induction cs as [|c t IH]; intros st W S; [reflexivity|]. destruct S as [S1 S2].
  cbn [vol_run lib_run]. rewrite vol_sim by auto. cbn [bind]. unfold E. cbn [fst snd].
  rewrite IH by (auto using wf_step). reflexivity.
Qed.
