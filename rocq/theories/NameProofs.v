(** Proofs about names and identifiers. *)
From Verif Require Import Base BaseProofs NameModel NameSpec.
From Coq Require Import ZifyNat Permutation.

Definition rm (n : string) : string := match n with String c _ => if Ascii.eqb c US then String US n else n | _ => n end.
Lemma name_remap_ok : forall n, n <> EmptyString -> name_remap n = Ok (rm n).
Proof. intros [|c r] H; [congruence|]. cbn. destruct (Ascii.eqb c US); reflexivity. Qed.
Lemma rm_inj : forall a b, rm a = rm b -> a = b.
Proof.
  intros [|c a] [|d b]; cbn; auto; repeat match goal with |- context [Ascii.eqb ?x US] => destruct (Ascii.eqb_spec x US) end; try congruence.
Qed.
Lemma rm_no_slash : forall n, no_slash n -> no_slash (rm n).
Proof. intros [|c r] H; cbn; auto. destruct (Ascii.eqb c US); cbn; auto. split; auto. discriminate. Qed.
Lemma rm_nonempty : forall n, n <> EmptyString -> rm n <> EmptyString.
Proof. intros [|c r] H; cbn; try congruence. destruct (Ascii.eqb c US); discriminate. Qed.

Fixpoint join (l : list string) : string :=
  match l with [] => "" | a :: t => match t with [] => a | _ => (a ++ String SLASH (join t))%string end end.
Lemma app_nil_s : forall s, (s ++ "")%string = s.
Proof. induction s; cbn; congruence. Qed.
Lemma app_assoc_s : forall a b c, ((a ++ b) ++ c = a ++ (b ++ c))%string.
Proof. induction a; cbn; intros; congruence. Qed.
Lemma join_snoc : forall l x, l <> [] -> join (l ++ [x]) = (join l ++ String SLASH x)%string.
Proof.
  induction l as [|a l IH]; intros x H; [congruence|]. destruct l as [|b l]; [reflexivity|].
  assert (E : join ((a :: b :: l) ++ [x]) = (a ++ String SLASH (join ((b :: l) ++ [x])))%string) by reflexivity.
  rewrite E, IH by discriminate. change (join (a :: b :: l)) with (a ++ String SLASH (join (b :: l)))%string. rewrite app_assoc_s. reflexivity.
Qed.
Lemma split_unique : forall a b x y, no_slash a -> no_slash b -> (a ++ String SLASH x)%string = (b ++ String SLASH y)%string -> a = b /\ x = y.
Proof.
  induction a as [|c a IH]; intros [|d b] x y Ha Hb H; cbn in *.
  - injection H as ->. auto.
  - injection H as E _. destruct Hb as [Hb _]. congruence.
  - injection H as E _. destruct Ha as [Ha _]. congruence.
  - injection H as -> H. destruct (IH b x y) as [-> ->]; tauto.
Qed.
Lemma no_slash_app : forall a x, ~ no_slash (a ++ String SLASH x).
Proof. induction a; cbn; intros x; [tauto|]. intros [_ H]. exact (IHa _ H). Qed.
Lemma join_inj : forall l m, Forall no_slash l -> Forall no_slash m -> Forall (fun s => s <> EmptyString) l -> Forall (fun s => s <> EmptyString) m ->
  join l = join m -> l = m.
Proof.
  induction l as [|a l IH]; intros [|b m] Hl Hm Nl Nm H; auto.
  - cbn in H. inversion Nm; subst. destruct m; [congruence|]. destruct b; [congruence|discriminate].
  - cbn in H. inversion Nl; subst. destruct l; [congruence|]. destruct a; [congruence|discriminate].
  - inversion Hl; inversion Hm; inversion Nl; inversion Nm; subst. destruct l as [|a2 l], m as [|b2 m]; cbn [join] in H.
    + congruence.
    + subst a. exfalso. eapply no_slash_app; eauto.
    + subst b. exfalso. eapply no_slash_app; eauto.
    + apply split_unique in H; auto. destruct H as [-> H]. f_equal. apply IH; auto.
Qed.

Lemma simple_nonempty : forall n, simple_name n -> n <> EmptyString.
Proof. intros [|c r] [_ H]; [tauto|discriminate]. Qed.
Lemma rm_head : forall n, simple_name n -> exists c r, rm n = String c r /\ c <> SLASH /\ c <> DOT /\ (c = US -> exists s, r = String US s).
Proof.
  intros [|c r] [H1 H2]; [tauto|]. cbn in *. destruct (Ascii.eqb_spec c US).
  - subst. exists US, (String US r). repeat split; try discriminate. eauto.
  - exists c, r. repeat split; try tauto.
Qed.
Lemma stored_simple : forall loc n, simple_name n -> stored loc n = Ok (match loc with EmptyString => rm n | _ => (loc ++ String SLASH (rm n))%string end).
Proof.
  intros loc n H. unfold stored. rewrite name_remap_ok by (apply simple_nonempty; auto). cbn [bind].
  destruct (rm_head n H) as (c & r & E & H1 & _). rewrite E. cbn [link_path]. destruct (Ascii.eqb_spec c SLASH); [tauto|]. reflexivity.
Qed.
Lemma join_nonempty : forall l, Forall simple_name l -> l <> [] -> join (map rm l) <> EmptyString.
Proof.
  intros [|a l] H Hn; [congruence|]. inversion H; subst. cbn. destruct (rm_head a H2) as (c & r & E & _). rewrite E. destruct (map rm l); discriminate.
Qed.
Lemma group_path_join : forall g, Forall simple_name g -> group_path g = join (map rm g).
Proof.
  intros g. induction g as [|n g IH] using rev_ind; intros H; [reflexivity|].
  apply Forall_app in H. destruct H as [H1 H2]. inversion H2; subst. unfold group_path. rewrite fold_left_app. cbn [fold_left]. fold (group_path g).
  rewrite (IH H1), stored_simple by auto. rewrite map_app. cbn [map].
  destruct g as [|m g]; [reflexivity|]. rewrite join_snoc by discriminate.
  destruct (join (map rm (m :: g))) eqn:E; [|reflexivity]. exfalso. revert E. apply join_nonempty; auto. discriminate.
Qed.
(** The path of a dataset in the library underneath. *)
Definition dpath (p : upath) : string := join (map rm (fst p ++ [snd p])).
Lemma stored_dpath : forall p, simple_path p -> stored (group_path (fst p)) (snd p) = Ok (dpath p).
Proof.
  intros [g n] [H1 H2]. cbn [fst snd] in *. rewrite stored_simple by auto. rewrite group_path_join by auto. unfold dpath. cbn [fst snd]. rewrite map_app. cbn [map].
  destruct g as [|m g]; [reflexivity|]. rewrite join_snoc by discriminate.
  destruct (join (map rm (m :: g))) eqn:E; [|reflexivity]. exfalso. revert E. apply join_nonempty; auto. discriminate.
Qed.
Lemma simple_map_ns : forall l, Forall simple_name l -> Forall no_slash (map rm l) /\ Forall (fun s => s <> EmptyString) (map rm l).
Proof.
  intros l H. split; apply Forall_map; (eapply Forall_impl; [|exact H]); intros n Hn; [apply rm_no_slash; apply Hn|apply rm_nonempty; apply simple_nonempty; auto].
Qed.
Lemma map_rm_inj : forall a b, map rm a = map rm b -> a = b.
Proof. induction a; intros [|y b] H; try discriminate; auto. cbn in H. injection H as H1 H2. apply rm_inj in H1. f_equal; auto. Qed.
Lemma dpath_inj : forall p q, simple_path p -> simple_path q -> dpath p = dpath q -> p = q.
Proof.
  intros [g n] [g' n'] [H1 H2] [H3 H4] H. unfold dpath in H. cbn [fst snd] in *.
  assert (S1 : Forall simple_name (g ++ [n])) by (apply Forall_app; auto). assert (S2 : Forall simple_name (g' ++ [n'])) by (apply Forall_app; auto).
  apply simple_map_ns in S1, S2. apply join_inj in H; try tauto. apply map_rm_inj in H. apply app_inj_tail in H. destruct H; congruence.
Qed.
Lemma dpath_head : forall p, simple_path p -> exists c r, dpath p = String c r /\ c <> SLASH /\ c <> DOT /\ (c = US -> exists s, r = String US s).
Proof.
  intros [g n] [H1 H2]. unfold dpath. cbn [fst snd] in *.
  assert (S1 : Forall simple_name (g ++ [n])) by (apply Forall_app; auto).
  destruct (g ++ [n]) as [|a l] eqn:E; [destruct g; discriminate|]. inversion S1; subst.
  destruct (rm_head a H3) as (c & r & E1 & E2 & E3 & E4). cbn [map join]. rewrite E1. destruct (map rm l) as [|b m].
  - exists c, r. auto.
  - exists c, (r ++ String SLASH (join (b :: m)))%string. repeat split; auto. intros Hc. destruct (E4 Hc) as (s & ->). eexists. reflexivity.
Qed.
(** The scan opens each dataset of the user again, and nothing else. *)
Lemma visit_dpath : forall p, simple_path p -> exists s, dset_visit (dpath p) = Some s /\ stored "" s = Ok (dpath p).
Proof.
  intros p H. destruct (dpath_head p H) as (c & r & E & H1 & H2 & H3). rewrite E. cbn [dset_visit].
  destruct (Ascii.eqb_spec c US) as [->|Hc].
  - destruct (H3 eq_refl) as (s & ->). cbn. eexists. split; [reflexivity|]. unfold stored. cbn. reflexivity.
  - destruct (Ascii.eqb_spec c SLASH); [tauto|]. destruct (Ascii.eqb_spec c DOT); [tauto|]. cbn. eexists. split; [reflexivity|].
    unfold stored. cbn. destruct (Ascii.eqb_spec c US); [tauto|]. cbn. destruct (Ascii.eqb_spec c SLASH); [tauto|]. reflexivity.
Qed.
Lemma not_reserved : forall p, simple_path p -> ~ reserved (dpath p).
Proof.
  intros p H. destruct (dpath_head p H) as (c & r & E & _ & _ & H3). rewrite E. intros [-> HR]. destruct (H3 eq_refl) as (s & ->). tauto.
Qed.
Lemma visit_reserved : forall p, reserved p -> dset_visit p = None /\ iterate_name p = None.
Proof.
  intros [|c r]; [intros []|]. intros [-> H]. cbn. destruct r as [|d r]; auto. destruct (Ascii.eqb_spec d US); [tauto|auto].
Qed.
Lemma iterate_simple : forall n, simple_name n -> name_remap n = Ok (rm n) /\ iterate_name (rm n) = Some n /\ ~ reserved (rm n).
Proof.
  intros n H. split; [apply name_remap_ok; apply simple_nonempty; auto|]. destruct n as [|c r]; [destruct (simple_nonempty _ H eq_refl)|].
  cbn. destruct (Ascii.eqb_spec c US) as [->|Hc]; cbn; [split; auto; intros [_ G]; tauto|].
  destruct (Ascii.eqb_spec c US); [tauto|]. split; auto. intros [G _]. tauto.
Qed.

(** ** Refinement *)
Lemma upath_eqb_spec : forall p q, reflect (p = q) (upath_eqb p q).
Proof.
  intros [g n] [g' n']. unfold upath_eqb. cbn [fst snd]. destruct (list_eq_dec string_dec g g') as [->|H].
  - destruct (String.eqb_spec n n'); constructor; congruence.
  - constructor. congruence.
Qed.
Definition links_of (l : list (upath * Z)) : list (string * Z) := map (fun q => (dpath (fst q), snd q)) l.
Lemma find_links : forall p l, simple_path p -> Forall (fun q => simple_path (fst q)) l -> find_link (dpath p) (links_of l) = u_find p l.
Proof.
  induction l as [|[q i] l IH]; intros Hp Hl; [reflexivity|]. inversion Hl; subst. cbn [links_of map find_link u_find fst snd].
  destruct (upath_eqb_spec p q) as [->|Hn]; [rewrite String.eqb_refl; reflexivity|].
  destruct (String.eqb_spec (dpath p) (dpath q)) as [E|_]; [apply dpath_inj in E; auto; congruence|]. apply IH; auto.
Qed.
Lemma remove_links : forall p l, simple_path p -> Forall (fun q => simple_path (fst q)) l ->
  remove_link (dpath p) (links_of l) = links_of (filter (fun q => negb (upath_eqb p (fst q))) l).
Proof.
  induction l as [|[q i] l IH]; intros Hp Hl; [reflexivity|]. inversion Hl; subst. cbn [links_of map remove_link filter fst snd] in *.
  fold (links_of l). fold (remove_link (dpath p) (links_of l)). rewrite IH by auto.
  destruct (upath_eqb_spec p q) as [->|Hn]; [rewrite String.eqb_refl; reflexivity|].
  destruct (String.eqb_spec (dpath p) (dpath q)) as [E|_]; [apply dpath_inj in E; auto; congruence|]. reflexivity.
Qed.
Lemma u_find_In : forall p l i, u_find p l = Some i -> In (p, i) l.
Proof.
  induction l as [|[q j] l IH]; intros i H; [discriminate|]. cbn in H. destruct (upath_eqb_spec p q) as [->|]; [injection H as ->; left; auto|right; auto].
Qed.

(** Link between the file and what is expected of it. *)
Definition names_rel (f : fs) (s : uspec) : Prop :=
  f_links f = links_of (fst s) /\ f_ndset f = snd s /\ 0 <= snd s /\ Zlen (f_loaded f) = snd s /\
  Forall (fun q => simple_path (fst q)) (fst s) /\ Forall (fun q => 0 <= snd q < snd s) (fst s) /\
  NoDup (map snd (fst s)) /\ NoDup (map fst (fst s)) /\
  Forall (fun q => nth (Z.to_nat (snd q)) (f_loaded f) false = true) (fst s).

Lemma upd_nth_same : forall A (l : list A) i x d, (i < List.length l)%nat -> nth i (upd_nth i x l) d = x.
Proof. induction l; intros [|i] x d H; cbn in *; auto; try lia. apply IHl. lia. Qed.
Lemma upd_nth_other : forall A (l : list A) i j x d, i <> j -> nth j (upd_nth i x l) d = nth j l d.
Proof. induction l; intros [|i] [|j] x d H; cbn in *; auto; try lia. Qed.
Lemma upd_nth_len : forall A (l : list A) i x, List.length (upd_nth i x l) = List.length l.
Proof. induction l; intros [|i] x; cbn in *; auto. Qed.

Lemma visit_all : forall s f1, f_links f1 = links_of (fst s) -> Zlen (f_loaded f1) = snd s ->
  Forall (fun q => simple_path (fst q)) (fst s) -> Forall (fun q => 0 <= snd q < snd s) (fst s) -> NoDup (map fst (fst s)) ->
  forall l tail, incl l (fst s) ->
  exists ld, fs_visit (map fst (links_of l) ++ tail) f1 = fs_visit tail (mkfs (f_links f1) (f_ndset f1) ld) /\ Zlen ld = snd s /\
    (forall i, nth i (f_loaded f1) false = true -> nth i ld false = true) /\
    Forall (fun q => nth (Z.to_nat (snd q)) ld false = true) l.
Proof.
  intros s f1 E1 E2 HS HB HN l. revert f1 E1 E2. induction l as [|[p i] l IH]; intros f1 E1 E2 tail HI.
  - exists (f_loaded f1). split; [destruct f1; reflexivity|]. repeat split; auto.
  - cbn [links_of map app fst snd]. fold (links_of l).
    assert (Hin : In (p, i) (fst s)) by (apply HI; left; auto). rewrite Forall_forall in HS, HB.
    pose proof (HS _ Hin) as Hp. pose proof (HB _ Hin) as Hb. cbn [fst snd] in Hp, Hb.
    destruct (visit_dpath p Hp) as (nm & V1 & V2). cbn [fs_visit]. rewrite V1. unfold fs_open. rewrite V2. cbn [bind].
    rewrite E1, find_links by (auto; apply Forall_forall; auto).
    assert (EF : u_find p (fst s) = Some i).
    { clear - Hin HN. induction (fst s) as [|[q j] t IHt]; [destruct Hin|]. cbn in *. inversion HN; subst. destruct (upath_eqb_spec p q) as [->|Hn].
      - destruct Hin as [E|Hin]; [congruence|]. exfalso. apply H1. apply in_map_iff. exists (q, i). auto.
      - destruct Hin as [E|Hin]; [congruence|]. apply IHt; auto. }
    rewrite EF. replace ((0 <=? i) && (i <? Zlen (f_loaded f1))) with true by (rewrite E2; lia). cbn [bind fst].
    destruct (IH (mkfs (links_of (fst s)) (f_ndset f1) (upd_nth (Z.to_nat i) true (f_loaded f1)))) with (tail := tail) as (ld & F1 & F2 & F3 & F4); cbn [f_links f_loaded]; auto.
    { unfold Zlen in *. rewrite upd_nth_len. auto. }
    { intros x Hx. apply HI. right. auto. }
    exists ld. split; [exact F1|]. split; auto. cbn [f_loaded] in F3. split.
    + intros j Hj. apply F3. destruct (Nat.eq_dec (Z.to_nat i) j) as [<-|Hne]; [apply upd_nth_same; unfold Zlen in *; lia|rewrite upd_nth_other; auto].
    + constructor; auto. cbn [snd]. apply F3. apply upd_nth_same. unfold Zlen in *. lia.
Qed.

Lemma filter_NoDup_map : forall A B (f : A -> B) (g : A -> bool) l, NoDup (map f l) -> NoDup (map f (filter g l)).
Proof.
  induction l as [|x l IH]; intros H; cbn; [constructor|]. inversion H; subst. destruct (g x); cbn; auto. constructor; auto.
  intros Hi. apply H2. apply in_map_iff in Hi. destruct Hi as (y & <- & Hy). apply filter_In in Hy. apply in_map. tauto.
Qed.
Lemma Forall_filter_ : forall A (P : A -> Prop) g l, Forall P l -> Forall P (filter g l).
Proof. intros A P g l H. apply Forall_forall. intros x Hx. apply filter_In in Hx. rewrite Forall_forall in H. apply H. tauto. Qed.
Lemma u_find_None : forall p l, u_find p l = None -> ~ In p (map fst l).
Proof.
  induction l as [|[q j] l IH]; intros H; [auto|]. cbn in *. destruct (upath_eqb_spec p q) as [->|Hn]; [discriminate|]. intros [E|E]; [congruence|]. exact (IH H E).
Qed.

Lemma nstep_ok : forall f s o, names_rel f s -> simple_op o -> exists f', nstep f (call o) = Ok (f', snd (ustep s o)) /\ names_rel f' (fst (ustep s o)).
Proof.
  intros f [l nx] o (E1 & E2 & E3 & E4 & HS & HB & HN & HN' & HL) Ho. cbn [fst snd] in *. destruct o as [p|p|p|]; cbn [simple_op] in Ho.
  - replace (call (UCreate p)) with (NCreate (group_path (fst p)) (snd p)) by (destruct p; reflexivity). cbn [nstep]. unfold fs_create. rewrite stored_dpath by auto. cbn [bind]. rewrite E1, find_links by auto.
    cbn [ustep]. destruct (u_find p l) as [i|] eqn:EF; cbn [fst snd].
    + exists f. split; auto. repeat split; auto.
    + rewrite E2. eexists. split; [reflexivity|]. unfold names_rel. cbn [f_links f_ndset f_loaded fst snd].
      split; [unfold links_of; rewrite map_app; reflexivity|]. split; auto. split; [lia|]. split; [rewrite Zlen_app; unfold Zlen in *; cbn; lia|].
      split; [apply Forall_app; split; auto|]. split; [|split; [|split]].
      * apply Forall_app. split; [eapply Forall_impl; [|exact HB]; cbn; intros; lia|]. repeat constructor; cbn; lia.
      * rewrite map_app. cbn. apply (Permutation_NoDup (l := nx :: map snd l)).
        -- change (map snd l ++ [nx]) with (map snd l ++ nx :: []). apply Permutation.Permutation_cons_app. rewrite app_nil_r. reflexivity.
        -- constructor; auto. intros Hi. apply in_map_iff in Hi. destruct Hi as (q & <- & Hq). rewrite Forall_forall in HB. specialize (HB _ Hq). lia.
      * rewrite map_app. cbn. apply (Permutation_NoDup (l := p :: map fst l)).
        -- apply Permutation.Permutation_cons_app. rewrite app_nil_r. reflexivity.
        -- constructor; auto. apply u_find_None. auto.
      * apply Forall_app. split.
        -- rewrite Forall_forall in *. intros q Hq. specialize (HL q Hq). specialize (HB q Hq). rewrite app_nth1; auto. unfold Zlen in *. lia.
        -- repeat constructor. cbn [snd]. rewrite app_nth2 by (unfold Zlen in *; lia). replace (Z.to_nat nx - List.length (f_loaded f))%nat with O by (unfold Zlen in *; lia). reflexivity.
  - replace (call (UOpen p)) with (NOpen (group_path (fst p)) (snd p)) by (destruct p; reflexivity). cbn [nstep]. unfold fs_open. rewrite stored_dpath by auto. cbn [bind]. rewrite E1, find_links by auto.
    cbn [ustep fst snd]. destruct (u_find p l) as [i|] eqn:EF.
    + apply u_find_In in EF. assert (Hb : 0 <= i < nx) by (rewrite Forall_forall in HB; exact (HB _ EF)). rewrite E4.
      replace ((0 <=? i) && (i <? nx)) with true by lia. eexists. split; [reflexivity|]. unfold names_rel. cbn [f_links f_ndset f_loaded fst snd].
      repeat (split; [auto; fail|]). split; [unfold Zlen in *; rewrite upd_nth_len; auto|]. repeat (split; [auto; fail|]).
      eapply Forall_impl; [|exact HL]. intros q Hq. cbn beta in *. destruct (Nat.eq_dec (Z.to_nat i) (Z.to_nat (snd q))) as [E|Hne].
      * rewrite <- E. apply upd_nth_same. unfold Zlen in *. lia.
      * rewrite upd_nth_other; auto.
    + exists f. split; auto. repeat split; auto.
  - replace (call (UDelete p)) with (NDelete (group_path (fst p)) (snd p)) by (destruct p; reflexivity). cbn [nstep]. unfold fs_delete. rewrite stored_dpath by auto. cbn [bind]. rewrite E1, find_links by auto.
    cbn [ustep fst snd]. destruct (u_find p l) as [i|] eqn:EF.
    + eexists. split; [reflexivity|]. unfold names_rel. cbn [f_links f_ndset f_loaded fst snd]. rewrite remove_links by auto.
      repeat (split; [auto; fail|]). split; [apply Forall_filter_; auto|]. split; [apply Forall_filter_; auto|]. split; [apply filter_NoDup_map; auto|]. split; [apply filter_NoDup_map; auto|apply Forall_filter_; auto].
    + assert (EE : filter (fun q => negb (upath_eqb p (fst q))) l = l).
      { clear - EF. induction l as [|[q j] l IH]; [reflexivity|]. cbn in *. destruct (upath_eqb p q); [discriminate|]. cbn. f_equal. auto. }
      rewrite EE. exists f. split; auto. repeat split; auto.
  - cbn [call nstep ustep fst snd]. unfold fs_reopen. rewrite E1, E2.
    destruct (visit_all (l, nx) (mkfs (links_of l) nx (repeat false (Z.to_nat nx)))) with (l := l) (tail := INTERNAL) as (ld & V1 & V2 & V3 & V4); cbn [f_links f_loaded f_ndset fst snd]; auto.
    { unfold Zlen. rewrite repeat_length. lia. }
    { intros x; auto. }
    rewrite V1. cbn. eexists. split; [reflexivity|]. unfold names_rel. cbn [f_links f_ndset f_loaded fst snd]. repeat split; auto.
Qed.

Lemma nrun_ok : forall ops f s, names_rel f s -> Forall simple_op ops ->
  exists f', nrun f (map call ops) = Ok (f', snd (urun s ops)) /\ names_rel f' (fst (urun s ops)).
Proof.
  induction ops as [|o ops IH]; intros f s H HO; [exists f; auto|]. inversion HO; subst. destruct (nstep_ok f s o H H2) as (f1 & S1 & S2).
  destruct (IH f1 _ S2 H3) as (f2 & R1 & R2). exists f2. cbn [map nrun urun]. rewrite S1. cbn [bind fst snd]. rewrite R1.
  destruct (ustep s o) as [s1 r]. cbn [fst snd] in *. destruct (urun s1 ops) as [s2 rs]. cbn [fst snd] in *. auto.
Qed.

Lemma names_rel0 : names_rel fs0 ([], 0).
Proof. unfold names_rel. cbn. repeat split; auto; try lia; constructor. Qed.

Lemma names_refine : forall ops, Forall simple_op ops ->
  exists f, nrun fs0 (map call ops) = Ok (f, snd (urun ([], 0) ops)) /\
    Forall (fun q => nth (Z.to_nat (snd q)) (f_loaded f) false = true) (fst (fst (urun ([], 0) ops))).
Proof. intros ops H. destruct (nrun_ok ops fs0 ([], 0) names_rel0 H) as (f & H1 & H2). exists f. split; auto. apply H2. Qed.

Lemma created_spec : forall ops s, 0 <= snd s -> created ops (snd (urun s ops)) = map (fun k => snd s + k) (zseq (Zlen (created ops (snd (urun s ops))))).
Proof.
  unfold created. induction ops as [|o ops IH]; intros [l nx] H; [reflexivity|]. cbn [urun].
  destruct (ustep (l, nx) o) as [s1 r] eqn:E1. specialize (IH s1). destruct (urun s1 ops) as [s2 rs] eqn:E2. cbn [snd fst] in *. cbn [combine flat_map].
  destruct o as [p|p|p|]; cbn [ustep] in E1.
  - destruct (u_find p l); injection E1 as <- <-; cbn [app snd] in *; [apply IH; auto|].
    set (K := flat_map _ (combine ops rs)) in *. rewrite Zlen_cons. rewrite zseq_shift by (pose proof (Zlen_nonneg _ K); lia). cbn [map]. f_equal; [lia|].
    replace (1 + Zlen K - 1) with (Zlen K) by lia. replace (Zlen K + 1 - 1) with (Zlen K) by lia. rewrite IH at 1 by lia. rewrite map_map. apply map_ext. intros. lia.
  - injection E1 as <- <-. cbn [app snd] in *. apply IH; auto.
  - injection E1 as <- <-. cbn [app snd] in *. apply IH; auto.
  - injection E1 as <- <-. cbn [app snd] in *. apply IH; auto.
Qed.
