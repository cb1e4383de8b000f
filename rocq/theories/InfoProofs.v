(** Proofs about the settings of the connector. *)
From Verif Require Import Base BaseProofs InfoModel.
From Coq Require Import ZifyNat.

Definition digit (c : Z) : Prop := 48 <= c <= 57.

Lemma scan_dec : forall f n acc rest, 0 <= n < 10 ^ Z.of_nat (S f) ->
  scan_digits (dec_aux (S f) n acc ++ rest) 0 = scan_digits (acc ++ rest) n.
Proof.
  assert (D : forall c l a, digit c -> scan_digits (c :: l) a = scan_digits l (10 * a + (c - 48))).
  { intros c l a H. cbn [scan_digits]. unfold digit in H.
    destruct (Z.leb_spec 48 c); [|lia]. destruct (Z.leb_spec c 57); [|lia]. reflexivity. }
  induction f as [|f IH]; intros n acc rest Hn.
  - cbn [dec_aux]. change (10 ^ Z.of_nat 1) with 10 in Hn.
    rewrite Z.div_small, Z.mod_small by lia. cbn [Z.eqb app]. rewrite D by (unfold digit; lia). f_equal. lia.
  - change (dec_aux (S (S f)) n acc) with
      (if n / 10 =? 0 then (48 + n mod 10) :: acc else dec_aux (S f) (n / 10) ((48 + n mod 10) :: acc)).
    pose proof (Z.mod_pos_bound n 10 ltac:(lia)) as M. pose proof (Z.div_mod n 10 ltac:(lia)) as E.
    destruct (Z.eqb_spec (n / 10) 0) as [Z0|Z0].
    + cbn [app]. rewrite D by (unfold digit; lia). f_equal. lia.
    + rewrite IH.
      * cbn [app]. rewrite D by (unfold digit; lia). f_equal. lia.
      * rewrite Nat2Z.inj_succ, Z.pow_succ_r in Hn by lia.
        split; [apply Z.div_pos; lia|]. apply Z.div_lt_upper_bound; lia.
Qed.

Lemma dec_digits : forall f n acc, 0 <= n -> Forall digit acc -> Forall digit (dec_aux f n acc).
Proof.
  induction f as [|f IH]; intros n acc Hn H; [exact H|]. cbn [dec_aux].
  pose proof (Z.mod_pos_bound n 10 ltac:(lia)).
  destruct (n / 10 =? 0); [constructor; [unfold digit; lia|exact H]|].
  apply IH; [apply Z.div_pos; lia|]. constructor; [unfold digit; lia|exact H].
Qed.

Lemma dec_length : forall k f n acc, 0 <= n < 10 ^ Z.of_nat (S k) ->
  (length (dec_aux f n acc) <= S k + length acc)%nat.
Proof.
  induction k as [|k IH]; intros [|f] n acc Hn; cbn [dec_aux]; try lia.
  - change (10 ^ Z.of_nat 1) with 10 in Hn. rewrite Z.div_small by lia. cbn. lia.
  - destruct (n / 10 =? 0); [cbn; lia|]. eapply Nat.le_trans; [apply IH|cbn; lia].
    rewrite Nat2Z.inj_succ, Z.pow_succ_r in Hn by lia.
    split; [apply Z.div_pos; lia|]. apply Z.div_lt_upper_bound; lia.
Qed.

Lemma dec_cons : forall n, 0 <= n -> exists c l, dec n = c :: l /\ digit c.
Proof.
  intros n Hn. pose proof (dec_digits 20 n [] Hn (Forall_nil _)) as H. unfold dec.
  assert (L : (0 < length (dec_aux 20 n []))%nat).
  { assert (G : forall f n acc, (length acc <= length (dec_aux f n acc))%nat).
    { clear. induction f as [|f IH]; intros n acc; [cbn; lia|]. cbn [dec_aux].
      destruct (n / 10 =? 0); [cbn; lia|]. eapply Nat.le_trans; [|apply IH]. cbn. lia. }
    change (dec_aux 20 n []) with
      (if n / 10 =? 0 then [48 + n mod 10] else dec_aux 19 (n / 10) [48 + n mod 10]).
    destruct (n / 10 =? 0); [cbn; lia|]. eapply Nat.lt_le_trans; [|apply G]. cbn. lia. }
  destruct (dec_aux 20 n []) as [|c l]; [cbn in L; lia|]. inversion H; subst. eauto.
Qed.

Lemma find_first_skip : forall c a l, ~ In c a -> find_first c (a ++ c :: l) = Some (length a).
Proof.
  induction a as [|x a IH]; intros l H; cbn [app find_first]; [rewrite Z.eqb_refl; reflexivity|].
  destruct (Z.eqb_spec x c); [elim H; left; auto|].
  rewrite IH; [reflexivity|]. intros G. apply H. right. exact G.
Qed.

Lemma find_last_end : forall c a, find_last c (a ++ [c]) = Some (length a).
Proof.
  induction a as [|x a IH]; cbn [app find_last]; [rewrite Z.eqb_refl; reflexivity|].
  rewrite IH. reflexivity.
Qed.

Lemma strip_app : forall p l, strip p (p ++ l) = Some l.
Proof. induction p as [|x p IH]; intros l; [reflexivity|]. cbn. rewrite Z.eqb_refl. apply IH. Qed.


Lemma scan_value_ok : forall v r, 0 <= v < 2 ^ 32 -> scan_value (under_vol ++ dec v ++ under_info ++ r) = Ok v.
Proof.
  intros v r Hv. destruct (dec_cons v ltac:(lia)) as (c & l & Ed & Hc).
  unfold scan_value. rewrite strip_app. unfold digit in Hc.
  assert (C : (48 <=? c) && (c <=? 57) = true).
  { destruct (Z.leb_spec 48 c); [|lia]. destruct (Z.leb_spec c 57); [|lia]. reflexivity. }
  assert (S : scan_digits (dec v ++ under_info ++ r) 0 = (v, under_info ++ r)).
  { unfold dec. rewrite scan_dec by lia. reflexivity. }
  rewrite Ed in S |- *. cbn [app] in S |- *. rewrite C, S. cbn [fst]. rewrite Z.mod_small by lia. reflexivity.
Qed.

(** The text of a value and a text of settings reads back, whatever the latter contains. *)
Lemma text_round_trip : forall v u s, 0 <= v < 2 ^ 32 -> info_to_str v u = Ok s ->
  str_to_info s = Ok (v, match u with [] => None | _ => Some u end).
Proof.
  intros v u s Hv H. unfold info_to_str in H.
  destruct (_ <=? _) in H; [|discriminate].
  assert (Hs : s = under_vol ++ dec v ++ under_info ++ u ++ [close_brace]) by congruence. clear H. subst s.
  unfold str_to_info. rewrite scan_value_ok by exact Hv. cbn [bind].
  set (pre := under_vol ++ dec v ++ [59;117;110;100;101;114;95;105;110;102;111;61]).
  assert (E : under_vol ++ dec v ++ under_info ++ u ++ [close_brace] = pre ++ open_brace :: u ++ [close_brace]).
  { unfold pre, under_info, open_brace. rewrite <- !app_assoc. reflexivity. }
  rewrite E.
  assert (N : ~ In open_brace pre).
  { unfold pre. rewrite !in_app_iff. pose proof (dec_digits 20 v [] ltac:(lia) (Forall_nil _)) as G.
    rewrite Forall_forall in G. unfold under_vol, open_brace. cbn [In].
    intros [H|[H|H]]; [lia| |lia]. apply G in H. unfold digit in H. lia. }
  clearbody pre. rewrite find_first_skip by exact N.
  replace (pre ++ open_brace :: u ++ [close_brace]) with ((pre ++ open_brace :: u) ++ [close_brace]) at 1
    by (rewrite <- app_assoc; reflexivity).
  rewrite find_last_end. rewrite app_length. cbn [length].
  destruct (Nat.ltb_spec (length pre) (length pre + S (length u))); [|lia].
  do 2 f_equal.
  destruct u as [|x u]; cbn [length].
  - destruct (Nat.eqb_spec (length pre + 1) (length pre + 1)); [reflexivity|lia].
  - destruct (Nat.eqb_spec (length pre + S (S (length u))) (length pre + 1)); [lia|]. f_equal.
    replace (length pre + 1)%nat with (length (pre ++ [open_brace])) by (rewrite app_length; cbn; lia).
    replace (pre ++ open_brace :: (x :: u) ++ [close_brace])
      with ((pre ++ [open_brace]) ++ ((x :: u) ++ [close_brace])) by (rewrite <- app_assoc; reflexivity).
    rewrite skipn_app, skipn_all, Nat.sub_diag. cbn [app].
    replace (length pre + S (S (length u)) - length pre - 1)%nat with (length (x :: u)) by (cbn; lia).
    change (skipn 0 (x :: u ++ [close_brace])) with ((x :: u) ++ [close_brace]).
    rewrite firstn_app, firstn_all, Nat.sub_diag. cbn [firstn]. apply app_nil_r.
Qed.

(** Connectors below ten million fit. *)
Lemma text_fits : forall v u, 0 <= v < 10 ^ 7 -> exists s, info_to_str v u = Ok s.
Proof.
  intros v u Hv. unfold info_to_str. eexists.
  assert (L : (length (dec v) <= 7)%nat).
  { pose proof (dec_length 6 20 v [] ltac:(change (10 ^ Z.of_nat 7) with (10 ^ 7); lia)) as G. cbn [length] in G.
    unfold dec. lia. }
  destruct (Z.leb_spec (Zlen (under_vol ++ dec v ++ under_info ++ u ++ [close_brace]) + 1) (32 + Zlen u)); [reflexivity|].
  exfalso. unfold Zlen in *. rewrite !app_length in *. unfold under_vol, under_info in *. cbn [length] in *. lia.
Qed.

Lemma stack_round_trip : forall vs, vs <> [] -> Forall (fun v => 0 <= v < 10 ^ 7) vs ->
  exists s, stack_to_str vs = Ok s /\ s <> [] /\ forall n, str_to_stack (length vs + n) s = Ok vs.
Proof.
  induction vs as [|v vs IH]; intros Hne H; [congruence|]. inversion H as [|? ? Hv Hvs]; subst.
  assert (W : exists u, stack_to_str vs = Ok u /\ (vs = [] -> u = []) /\
    (vs <> [] -> u <> [] /\ forall n, str_to_stack (length vs + n) u = Ok vs)).
  { destruct vs as [|v' vs']; [exists []; split; [reflexivity|split; [auto|congruence]]|].
    destruct IH as (u & E & Hu & P); [discriminate|exact Hvs|].
    exists u. split; [exact E|]. split; [discriminate|auto]. }
  destruct W as (u & E & W0 & W1). destruct (text_fits v u Hv) as [s Es].
  exists s. cbn [stack_to_str]. rewrite E. cbn [bind]. split; [exact Es|]. split.
  { unfold info_to_str in Es. destruct (_ <=? _) in Es; [|discriminate]. injection Es as <-. discriminate. }
  intros n. cbn [length Nat.add str_to_stack].
  rewrite (text_round_trip v u s ltac:(lia) Es). cbn [bind].
  destruct vs as [|v' vs'].
  - rewrite W0 by reflexivity. reflexivity.
  - destruct W1 as [Hu P]; [discriminate|]. destruct u as [|x u]; [congruence|]. rewrite P. reflexivity.
Qed.

(** ** References *)

Definition live_count (v : Z) (l : list (option Z)) : Z :=
  Zlen (filter (fun o => match o with Some w => w =? v | None => false end) l).
Definition texts (v : Z) (os : list iop) : Z :=
  Zlen (filter (fun o => match o with IText w | ISet w | IUse w => w =? v | _ => false end) os).

Lemma live_app : forall v a b, live_count v (a ++ b) = live_count v a + live_count v b.
Proof. intros. unfold live_count, Zlen. rewrite filter_app, app_length. lia. Qed.

Lemma live_upd : forall v l i w, nth_error l i = Some (Some w) ->
  live_count v (upd_nth i None l) = live_count v l - if w =? v then 1 else 0.
Proof.
  intros v. induction l as [|o l IH]; intros [|i] w H; cbn in H; try discriminate.
  - injection H as ->. cbn [upd_nth]. unfold live_count, Zlen. cbn [filter].
    destruct (w =? v); cbn [length]; lia.
  - specialize (IH i w H). cbn [upd_nth]. unfold live_count, Zlen in *. cbn [filter].
    destruct (match o with Some w0 => w0 =? v | None => false end); cbn [length]; lia.
Qed.

Lemma refs_counted : forall os s s' v, irun s os = Ok s' ->
  i_refs s' v - live_count v (i_objs s') = i_refs s v - live_count v (i_objs s) + texts v os.
Proof.
  induction os as [|o os IH]; intros s s' v H; cbn [irun] in H.
  { injection H as <-. unfold texts. cbn. lia. }
  destruct (istep s o) as [s1| |] eqn:E; cbn [bind] in H; try discriminate.
  rewrite (IH s1 s' v H).
  assert (T : texts v (o :: os) = texts v os + match o with IText w | ISet w | IUse w => if w =? v then 1 else 0 | _ => 0 end).
  { unfold texts, Zlen. cbn [filter]. destruct o as [w|w|w|i|i]; try lia; destruct (w =? v); cbn [length]; lia. }
  rewrite T. clear T H IH.
  assert (S1 : forall w, live_count v [Some w] = if w =? v then 1 else 0).
  { intros w. unfold live_count, Zlen. cbn. destruct (w =? v); reflexivity. }
  destruct o as [w|w|w|i|i]; cbn [istep] in E.
  - injection E as <-. cbn [i_refs i_objs]. rewrite live_app, S1. unfold add_ref.
    rewrite (Z.eqb_sym v w). destruct (w =? v); lia.
  - injection E as <-. cbn [i_refs i_objs]. rewrite live_app, S1. unfold add_ref.
    rewrite (Z.eqb_sym v w). destruct (w =? v); lia.
  - destruct (existsb _ _) in E; [|discriminate]. injection E as <-. cbn [i_refs i_objs]. unfold add_ref.
    rewrite (Z.eqb_sym v w). destruct (w =? v); lia.
  - destruct (nth_error (i_objs s) i) as [[w|]|] eqn:En; try discriminate. injection E as <-.
    cbn [i_refs i_objs]. rewrite live_app, S1. unfold add_ref.
    rewrite (Z.eqb_sym v w). destruct (w =? v); lia.
  - destruct (nth_error (i_objs s) i) as [[w|]|] eqn:En; try discriminate. injection E as <-.
    cbn [i_refs i_objs]. rewrite (live_upd v _ _ _ En). unfold add_ref.
    rewrite (Z.eqb_sym v w). destruct (w =? v); lia.
Qed.
