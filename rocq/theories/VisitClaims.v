(** Properties of H5Ovisit and H5Lvisit proved about the model. *)
From Verif Require Import Base NameModel LibModel NsModel NsSpec NsProofs NsSim NsClaims CopyModel CopySpec CopyProofs CopyReach VisitModel VisitSpec VisitProofs VisitReach.
From Coq Require Import Ascii String Lia ZifyNat Permutation.

Lemma iterate_join c r :
  iterate_name (join (c :: r)) = option_map (fun m => join (m :: r)) (iterate_name c).
Proof.
  destruct r as [|n r]; [cbn [join]; now destruct (iterate_name c)|]. cbn [join].
  destruct c as [|a c]; [reflexivity|]. cbn [append iterate_name]. destruct (Ascii.eqb a US); [|reflexivity].
  destruct c as [|b c]; [reflexivity|]. cbn [append]. destruct (Ascii.eqb b US); reflexivity.
Qed.
Definition visp {A} (x : list string * A) : bool := match fst x with c :: _ => visible c | [] => true end.
Definition J {A} (x : list string * A) : string * A := (join (fst x), snd x).
Lemma passed_vis v : passed (map J v) = passed (map J (filter visp v)).
Proof.
  induction v as [|[[|c r] y] t IH]; [reflexivity| |].
  - cbn [filter visp fst map J snd passed]. now rewrite IH.
  - cbn [filter visp fst map J snd]. unfold visible. destruct (iterate_name c) as [m|] eqn:I.
    + cbn [map J fst snd passed]. rewrite iterate_join, I. cbn [option_map]. now rewrite IH.
    + cbn [passed J fst snd]. rewrite iterate_join, I. cbn [option_map]. exact IH.
Qed.
Lemma passed_en (v : list (list string * info)) :
  passed (map J (map (fun x => (map en (fst x), snd x)) v)) = map (fun x => (join (out_path (fst x)), snd x)) v.
Proof.
  induction v as [|[[|c r] y] t IH]; [reflexivity| |].
  - cbn [map fst snd J passed join]. cbn. now rewrite IH.
  - cbn [map fst snd J passed]. change (map en (c :: r)) with (en c :: map en r). rewrite iterate_join, en_shown.
    cbn [option_map]. rewrite IH. reflexivity.
Qed.

Section Nz.
  Context (lk : bool) (it : itype) (io : iorder) (os : list obj) (NZ : forall j, nz (links_of os j)).
  Lemma tour_nz f : forall seen p ls, nz ls -> forall x, In x (fst (tour lk it io f os seen p ls)) -> snd x <> Hard 0.
  Proof.
    induction f as [|f IHf]; intros seen p ls; [intros _ x []|]. rewrite tour_S. revert seen.
    induction ls as [|[n [i|t']] t IH]; intros seen Z x; cbn [tgo]; [intros []| |]; pose proof (nz_tl _ _ Z) as Zt.
    - assert (I : i <> O). { intros ->. apply (Z n). now left. }
      destruct (existsb (Nat.eqb i) seen); cbn [fst].
      + intros H. apply in_app_or in H as [H|H]; [|eauto]. destruct lk; [|destruct H]. destruct H as [<-|[]]. cbn. congruence.
      + intros [<-|H]; [cbn; congruence|]. apply in_app_or in H as [H|H]; [|eauto].
        eapply IHf; [|exact H]. now apply nz_ordered.
    - cbn [fst]. intros H. apply in_app_or in H as [H|H]; [|eauto]. destruct lk; [|destruct H]. destruct H as [<-|[]]. cbn. congruence.
  Qed.
End Nz.

Lemma info_enc lk os i : os <> [] ->
  info_of lk (eobjs os) (Hard (up i)) = counted (own_attrs (isr i) (info_of lk os (Hard i))) (info_of lk os (Hard i)) \/
  nth_error os i = None.
Proof.
  intros N. cbn [info_of]. destruct (nth_error os i) as [o|] eqn:Ho; [left|now right]. destruct lk; [reflexivity|].
  rewrite nth_eobjs, Ho by auto. cbn [option_map eobj ob_kind ob_attrs counted]. f_equal.
  unfold Zlen. rewrite app_length, map_length, Nat2Z.inj_add. rewrite Z.add_comm. f_equal.
  unfold isr. destruct i; [reflexivity|]. cbn [Nat.eqb own own_attrs]. destruct (ob_kind o); reflexivity.
Qed.
Lemma info_enc' lk os t : os <> [] -> t <> Hard 0 ->
  info_of lk (eobjs os) (et t) = counted (own_attrs false (info_of lk os t)) (info_of lk os t).
Proof.
  intros N T. destruct t as [i|s]; [|reflexivity]. cbn [et].
  destruct i as [|i]; [congruence|]. destruct (info_enc lk os (S i) N) as [H|H]; [exact H|].
  cbn [info_of]. destruct lk; [reflexivity|]. rewrite nth_eobjs, H by auto. reflexivity.
Qed.

Lemma tour_told lk it io st l : wf st -> nzs st ->
  option_map passed (lib_visit lk it io (enc st) (eloc l)) =
  option_map (map (told (at_root st l))) (lib_tour lk it io st l).
Proof.
  intros W NZ. unfold lib_visit, lib_tour, at_root. rewrite loc_of_enc by auto.
  destruct (loc_of st l) as [[i o]|] eqn:L; [|reflexivity]. cbn [option_map eio fst snd].
  apply loc_of_nth in L.
  assert (Ne : l_objs st <> []). { destruct W as (r & t & -> & _). discriminate. }
  assert (NZ' : forall j, nz (links_of (l_objs st) j)).
  { intros j. unfold links_of. destruct (nth_error (l_objs st) j) eqn:E; [eauto|intros n []]. }
  change (l_objs (enc st)) with (eobjs (l_objs st)).
  pose proof (tour_enc_fuel lk it io (l_objs st) Ne NZ' i o L) as TE.
  set (V' := fst (tour lk it io (S (List.length (eobjs (l_objs st)))) (eobjs (l_objs st)) [up i] []
    (ordered it io (ob_links (eobj (isr i) o))))) in *.
  assert (VN : forall x, In x (fst (tour lk it io (S (List.length (l_objs st))) (l_objs st) [i] [] (ordered it io (ob_links o)))) ->
    snd x <> Hard 0).
  { apply tour_nz; auto. apply nz_ordered. eapply NZ; eauto. }
  assert (PN : forall x, In x (fst (tour lk it io (S (List.length (l_objs st))) (l_objs st) [i] [] (ordered it io (ob_links o)))) ->
    fst x <> []).
  { rewrite tour_S. generalize [i]. clear.
    assert (G : forall f os seen p ls x, In x (fst (tour lk it io f os seen p ls)) -> fst x <> []).
    { induction f as [|f IHf]; intros os seen p ls x; [intros []|]. rewrite tour_S. revert seen.
      induction ls as [|[n [j|t']] t IH]; intros seen; cbn [tgo]; [intros []| |].
      - destruct (existsb (Nat.eqb j) seen); cbn [fst].
        + intros H. apply in_app_or in H as [H|H]; [|eauto]. destruct lk; [|destruct H]. destruct H as [<-|[]].
          cbn. now destruct p.
        + intros [<-|H]; [cbn; now destruct p|]. apply in_app_or in H as [H|H]; eauto.
      - cbn [fst]. intros H. apply in_app_or in H as [H|H]; [|eauto]. destruct lk; [|destruct H]. destruct H as [<-|[]].
        cbn. now destruct p. }
    intros seen x H. rewrite <- tour_S in H. eauto. }
  set (V := fst (tour lk it io (S (List.length (l_objs st))) (l_objs st) [i] [] (ordered it io (ob_links o)))) in *.
  clearbody V V'.
  set (root := match i with O => true | S _ => false end).
  assert (REST : passed (map J (map (fun x => (fst x, info_of lk (eobjs (l_objs st)) (snd x))) V')) =
                 map (told root) (map (fun x => (fst x, info_of lk (l_objs st) (snd x))) V)).
  { rewrite passed_vis.
    assert (FM : forall v : list (list string * target),
      filter visp (map (fun x => (fst x, info_of lk (eobjs (l_objs st)) (snd x))) v) =
      map (fun x => (fst x, info_of lk (eobjs (l_objs st)) (snd x))) (filter vis v)).
    { induction v as [|x t IH]; [reflexivity|]. cbn [map filter]. unfold visp at 1, vis at 1. cbn [fst].
      destruct (match fst x with [] => true | c :: _ => visible c end); cbn [map]; now rewrite IH. }
    rewrite FM, TE.
    replace (map (fun x => (fst x, info_of lk (eobjs (l_objs st)) (snd x))) (map ev2 V)) with
      (map (fun x : list string * info => (map en (fst x), snd x))
        (map (fun x => (fst x, info_of lk (eobjs (l_objs st)) (et (snd x)))) V)) by (rewrite !map_map; reflexivity).
    rewrite passed_en, !map_map. apply map_ext_in. intros x Hx. cbn [fst snd]. unfold told. cbn [fst snd]. f_equal.
    specialize (PN x Hx). destruct (fst x); [congruence|]. rewrite andb_false_r. apply info_enc'; auto. }
  destruct lk; cbn [option_map].
  - destruct (ob_kind o) eqn:K; cbn [eobj ob_kind]; rewrite K; try reflexivity. cbn [option_map].
    f_equal. exact REST.
  - cbn [map option_map]. f_equal. cbn [fst snd join passed]. cbn [iterate_name].
    replace (Ascii.eqb "." US) with false by reflexivity. f_equal; [|exact REST].
    unfold told. cbn [fst snd out_path join]. f_equal. rewrite andb_true_r.
    destruct (info_enc false (l_objs st) i Ne) as [H|H]; [|congruence]. rewrite H. unfold root, isr. now destruct i.
Qed.

Theorem visit_exact dbi cs l lk it io : supported_run lib0 cs -> loc_nonempty l ->
  exists st, vol_run dbi vol0 cs = Ok (st, snd (lib_run lib0 cs)) /\
    vol_visit lk it io st l =
      Ok (option_map (map (told (at_root (fst (lib_run lib0 cs)) l))) (lib_tour lk it io (fst (lib_run lib0 cs)) l)).
Proof.
  intros S L. exists (enc (fst (lib_run lib0 cs))). split; [now apply vol_run0|].
  unfold vol_visit. rewrite remap_loc_en by auto. f_equal. apply tour_told.
  - apply wf_run, wf0.
  - apply nzs_run; [apply wf0|apply nzs0].
Qed.

(** * When names below the first level have no underscore at the beginning *)

Lemma out_plain p : plain_below p -> out_path p = p.
Proof.
  destruct p as [|c r]; [reflexivity|]. cbn [plain_below out_path]. intros H. f_equal.
  induction H as [|n t Hn _ IH]; [reflexivity|]. cbn [map]. rewrite IH. f_equal. exact (en_plain n Hn).
Qed.
Theorem visit_links dbi cs l it io v : supported_run lib0 cs -> loc_nonempty l ->
  lib_tour true it io (fst (lib_run lib0 cs)) l = Some v -> Forall (fun x => plain_below (fst x)) v ->
  exists st, vol_run dbi vol0 cs = Ok (st, snd (lib_run lib0 cs)) /\
    vol_visit true it io st l = Ok (lib_visit true it io (fst (lib_run lib0 cs)) l).
Proof.
  intros S L T F. destruct (visit_exact dbi cs l true it io S L) as (st & R & V). exists st. split; auto.
  rewrite V. f_equal. unfold lib_visit.
  assert (G : forall x, In x v -> exists b, snd x = ILink b).
  { unfold lib_tour in T. destruct (loc_of _ l) as [[i o]|]; [|discriminate]. destruct (ob_kind o); try discriminate.
    injection T as <-. intros x Hx. apply in_map_iff in Hx as (y & <- & _). destruct (snd y); cbn; eauto. }
  rewrite T. cbn [option_map]. f_equal. apply map_ext_in. intros x Hx. destruct (G x Hx) as [b Hb].
  rewrite Forall_forall in F. unfold told. rewrite out_plain by auto. now rewrite Hb.
Qed.
Theorem visit_objects dbi cs l it io v : supported_run lib0 cs -> loc_nonempty l ->
  lib_tour false it io (fst (lib_run lib0 cs)) l = Some v -> Forall (fun x => plain_below (fst x)) v ->
  exists st v', vol_run dbi vol0 cs = Ok (st, snd (lib_run lib0 cs)) /\
    vol_visit false it io st l = Ok (Some v') /\
    map fst v' = map (fun x => join (fst x)) v /\
    map (fun x => match snd x with IObj k _ => Some k | ILink _ => None end) v' =
    map (fun x => match snd x with IObj k _ => Some k | ILink _ => None end) v.
Proof.
  intros S L T F. destruct (visit_exact dbi cs l false it io S L) as (st & R & V). rewrite T in V. eexists st, _.
  split; [auto|]. split; [exact V|]. rewrite !map_map. rewrite Forall_forall in F. split; apply map_ext_in; intros x Hx.
  - unfold told. cbn [fst]. now rewrite out_plain by auto.
  - unfold told, counted. cbn [snd]. now destruct (snd x).
Qed.

(** * Otherwise *)

Lemma join_length c r : String.length (join (c :: r)) =
  (String.length c + fold_right (fun n k => S (String.length n + k)) O r)%nat.
Proof.
  revert c. induction r as [|n r IH]; intros c; [cbn; lia|]. cbn [join]. change (join (n :: r)) with (join (n :: r)) in IH.
  assert (A : forall a b, String.length (a ++ b)%string = (String.length a + String.length b)%nat).
  { induction a as [|x a IHa]; intros b; cbn; auto. }
  rewrite A. cbn [String.length fold_right]. specialize (IH n). cbn [join] in IH. rewrite IH. lia.
Qed.
Lemma doubled_length n : (String.length n <= String.length (doubled n))%nat.
Proof. destruct n as [|c s]; [cbn; lia|]. cbn [doubled]. destruct (Ascii.eqb c US); cbn; lia. Qed.
Lemma out_longer c r n : In n r -> (exists s, n = String US s) -> join (out_path (c :: r)) <> join (c :: r).
Proof.
  intros H (s & ->) E. apply (f_equal String.length) in E. cbn [out_path] in E. rewrite !join_length in E.
  apply Nat.add_cancel_l in E.
  assert (LE : forall r, (fold_right (fun n k => S (String.length n + k)) O r <=
                fold_right (fun n k => S (String.length n + k)) O (map doubled r))%nat).
  { clear. induction r as [|n r IH]; cbn [map fold_right]; [lia|]. pose proof (doubled_length n). lia. }
  induction r as [|m r IH]; [destruct H|]. cbn [map fold_right] in E. pose proof (LE r). pose proof (doubled_length m).
  destruct H as [->|H].
  - cbn [doubled] in E. replace (Ascii.eqb US US) with true in E by reflexivity. cbn [String.length] in E. lia.
  - apply IH; auto. lia.
Qed.
Theorem visit_names dbi cs l lk it io v c r n x : supported_run lib0 cs -> loc_nonempty l ->
  lib_tour lk it io (fst (lib_run lib0 cs)) l = Some v ->
  In (c :: r, x) v -> In n r -> (exists s, n = String US s) ->
  exists st v', vol_run dbi vol0 cs = Ok (st, snd (lib_run lib0 cs)) /\
    vol_visit lk it io st l = Ok (Some v') /\ map fst v' <> map (fun x => join (fst x)) v.
Proof.
  intros S L T I Hn U. destruct (visit_exact dbi cs l lk it io S L) as (st & R & V). rewrite T in V. eexists st, _.
  split; [auto|]. split; [exact V|]. rewrite map_map. unfold told. cbn [fst]. intros E.
  assert (G : forall y, In y v -> join (out_path (fst y)) = join (fst y)).
  { revert E. clear. induction v as [|z t IH]; intros E y; [intros []|]. cbn [map] in E. injection E as E1 E2.
    intros [<-|H]; auto. }
  exact (out_longer c r n Hn U (G _ I)).
Qed.
Theorem visit_counts dbi cs l it io v : supported_run lib0 cs -> loc_nonempty l ->
  lib_tour false it io (fst (lib_run lib0 cs)) l = Some v ->
  exists st v', vol_run dbi vol0 cs = Ok (st, snd (lib_run lib0 cs)) /\
    vol_visit false it io st l = Ok (Some v') /\
    (forall p n, In (p, IObj KDset n) v -> at_root (fst (lib_run lib0 cs)) l = false \/ p <> [] ->
       In (join (out_path p), IObj KDset (n + 3)) v') /\
    (at_root (fst (lib_run lib0 cs)) l = true -> forall k n, In ([], IObj k n) v -> In (".", IObj k (n + 1)) v')%string.
Proof.
  intros S L T. destruct (visit_exact dbi cs l false it io S L) as (st & R & V). rewrite T in V. eexists st, _.
  split; [auto|]. split; [exact V|]. split.
  - intros p n I H. apply in_map_iff. eexists. split; [|exact I]. unfold told. cbn [fst snd].
    replace (at_root _ l && _)%bool with false; [reflexivity|]. symmetry. destruct H as [->|H]; [reflexivity|].
    destruct p; [congruence|]. apply andb_false_r.
  - intros A k n I. apply in_map_iff. eexists. split; [|exact I]. unfold told. rewrite A. reflexivity.
Qed.

(** * A path that was shown leads to the object it was shown for *)

Section Walk.
  Context (lk : bool) (it : itype) (io : iorder) (os : list obj) (ND : forall j, NoDup (map fst (links_of os j))).
  Lemma tour_walk f : forall seen p ls ls0, (forall x, In x ls -> In x ls0) -> NoDup (map fst ls0) ->
    forall q i, In (q, Hard i) (fst (tour lk it io f os seen p ls)) -> exists r, q = p ++ r /\ walk os ls0 r = Some i.
  Proof.
    induction f as [|f IHf]; intros seen p ls ls0 Sub N0 q i; [intros []|]. rewrite tour_S. revert seen Sub.
    induction ls as [|[n [j|t']] t IH]; intros seen Sub; cbn [tgo]; [intros []| |];
      assert (Sub' : forall x, In x t -> In x ls0) by (intros x Hx; apply Sub; now right).
    - assert (Hin : In (n, Hard j) ls0) by (apply Sub; now left).
      destruct (existsb (Nat.eqb j) seen); cbn [fst].
      + intros H. apply in_app_or in H as [H|H]; [|eauto]. destruct lk; [|destruct H]. destruct H as [H|[]].
        injection H as <- <-. exists [n]. split; auto. now apply walk_one.
      + intros [H|H]; [injection H as <- <-; exists [n]; split; auto; now apply walk_one|].
        apply in_app_or in H as [H|H]; [|eauto].
        eapply (IHf _ _ _ (links_of os j)) in H; [|intros x Hx; eapply ordered_In; exact Hx|apply ND].
        destruct H as (r & -> & W). exists (n :: r). split; [now rewrite <- app_assoc|]. eapply walk_cons; eauto.
    - cbn [fst]. intros H. apply in_app_or in H as [H|H]; [|eauto]. destruct lk; [|destruct H]. destruct H as [H|[]]. discriminate.
  Qed.
End Walk.

Lemma split_component n s : ~ In SLASH (list_ascii_of_string n) ->
  VisitModel.split (n ++ String SLASH s)%string = n :: VisitModel.split s /\ VisitModel.split n = [n].
Proof.
  induction n as [|c n IH]; intros H.
  - split; reflexivity.
  - cbn [list_ascii_of_string In] in H. destruct IH as [A B]; [tauto|]. cbn [append VisitModel.split].
    destruct (Ascii.eqb_spec c SLASH) as [->|Hc]; [tauto|]. rewrite A, B. auto.
Qed.
Lemma split_join p : p <> [] -> Forall component p -> VisitModel.split (join p) = p.
Proof.
  intros N F. induction F as [|n r (H1 & _ & H3) F IH]; [congruence|]. destruct r as [|m r].
  - cbn [join]. apply (split_component n EmptyString H3).
  - change (join (n :: m :: r)) with (n ++ String SLASH (join (m :: r)))%string.
    rewrite (proj1 (split_component n (join (m :: r)) H3)), IH by discriminate. reflexivity.
Qed.
Lemma en_component n : component n -> component (en n).
Proof.
  intros (H1 & H2 & H3). destruct n as [|c n]; [congruence|]. cbn [en]. destruct (Ascii.eqb_spec c US) as [->|]; [|repeat split; auto].
  repeat split; try discriminate. cbn [list_ascii_of_string In] in *. intros [H|H]; [discriminate H|auto].
Qed.
Lemma remap_join c r : nonempty c -> name_remap (join (c :: r)) = Ok (join (en c :: r)).
Proof.
  intros H. destruct c as [|a c]; [congruence|]. destruct r as [|m r]; cbn [join append name_remap en];
    destruct (Ascii.eqb a US); reflexivity.
Qed.
Lemma join_dot p : Forall component p -> p <> [] -> String.eqb (join p) "." = false.
Proof.
  intros F N. apply String.eqb_neq. intros E. assert (S := split_join p N F). rewrite E in S. cbn in S.
  subst p. inversion F as [|x y (_ & H & _) _]; subst. congruence.
Qed.
Lemma same_enc b o : same_object o (eobj b o).
Proof.
  split; [reflexivity|]. unfold user_attrs. cbn [eobj ob_attrs]. rewrite filter_app.
  replace (filter _ (own b (ob_kind o))) with (@nil (string * list Z)).
  2:{ pose proof (own_hidden b (ob_kind o)) as H. induction H as [|p t Hp _ IH]; [reflexivity|]. cbn [filter]. unfold hidden in Hp. now rewrite Hp. }
  cbn [app]. induction (ob_attrs o) as [|p t IH]; [reflexivity|]. cbn [map filter epair fst]. rewrite en_shown. now rewrite IH.
Qed.

Lemma resolve_in f ls n i : resolve f ls n = Some i -> exists m, In (m, Hard i) ls.
Proof.
  revert n. induction f as [|f IH]; intros n; cbn [resolve]; destruct (assoc n ls) as [[j|t]|] eqn:A; try discriminate;
    try (intros [= <-]; apply assoc_some in A; eauto).
  apply IH.
Qed.
Lemma walk_in os L : (forall k n j, In (n, Hard j) (links_of os k) -> (j < L)%nat) ->
  forall r ls i, (forall n j, In (n, Hard j) ls -> (j < L)%nat) -> walk os ls r = Some i -> (i < L)%nat.
Proof.
  intros H. induction r as [|n r IH]; intros ls i HL; [discriminate|]. cbn [walk].
  destruct (resolve 16 ls n) as [k|] eqn:R; [|discriminate]. destruct r as [|m r].
  - intros [= <-]. apply resolve_in in R as [m R]. eauto.
  - apply IH. intros z j. apply H.
Qed.

Lemma tour_hard it io os f : forall seen p ls q t, ~ In (q, Soft t) (fst (tour false it io f os seen p ls)).
Proof.
  induction f as [|f IHf]; intros seen p ls q t; [intros []|]. rewrite tour_S. revert seen.
  induction ls as [|[n [j|t']] u IH]; intros seen; cbn [tgo]; [intros []| |]; cbn [fst].
  - destruct (existsb (Nat.eqb j) seen); cbn [fst app]; [apply IH|]. intros [H|H]; [discriminate|].
    apply in_app_or in H as [H|H]; [exact (IHf _ _ _ _ _ H)|exact (IH _ H)].
  - cbn [app]. apply IH.
Qed.

Lemma some_eq {A} (a b : A) : Some a = Some b -> a = b.
Proof. congruence. Qed.

Theorem visit_opens dbi cs h it io v p x : supported_run lib0 cs ->
  lib_tour false it io (fst (lib_run lib0 cs)) (Self h) = Some v -> In (p, x) v -> Forall component p ->
  exists st j o o', vol_run dbi vol0 cs = Ok (st, snd (lib_run lib0 cs)) /\
    vol_find st h (join (out_path p)) = Ok (Some j) /\ nth_error (l_objs st) j = Some o' /\
    (exists i, lib_find (fst (lib_run lib0 cs)) h (join p) = Some i /\ nth_error (l_objs (fst (lib_run lib0 cs))) i = Some o) /\
    x = IObj (ob_kind o) (Zlen (ob_attrs o)) /\ same_object o o'.
Proof.
  intros SR T I F. set (s := fst (lib_run lib0 cs)) in *. exists (enc s).
  assert (W : wf s) by apply wf_run, wf0.
  assert (IV : CopyProofs.inv s) by apply inv_run, inv0.
  assert (IR : inr s) by apply inr_run, inr0.
  assert (ND : forall j, NoDup (map fst (links_of (l_objs s) j))).
  { intros j. unfold links_of. destruct (nth_error (l_objs s) j) eqn:E; [|constructor]. apply inv_nth in E; auto. apply E. }
  assert (Ne : l_objs s <> []). { destruct W as (r & t & -> & _). discriminate. }
  unfold lib_tour in T. cbn [loc_of] in T. destruct (obj_of s h) as [[i0 o0]|] eqn:O; [|discriminate].
  pose proof (obj_of_nth _ _ _ _ O) as Ho. apply some_eq in T. subst v. unfold vol_find, lib_find. rewrite O.
  destruct I as [I|I].
  - injection I as <- <-. exists (up i0), o0, (eobj (isr i0) o0). split; [now apply vol_run0|].
    cbn [out_path join bind]. replace (name_remap "."%string) with (@Ok string "."%string) by reflexivity. cbn [bind].
    rewrite obj_of_enc, O by auto. cbn [option_map eio fst snd]. rewrite String.eqb_refl. split; [reflexivity|].
    split; [rewrite nth_enc, Ho by auto; reflexivity|]. split; [eauto|]. rewrite Ho. split; [reflexivity|]. apply same_enc.
  - apply in_map_iff in I as ([q t] & E & I). injection E as <- <-.
    destruct t as [i|t].
    2:{ exfalso. exact (tour_hard _ _ _ _ _ _ _ _ _ I). }
    cbn [fst snd] in *.
    destruct (tour_walk false it io (l_objs s) ND _ [i0] [] _ (ob_links o0)
      (fun y Hy => ordered_In it io _ y Hy) (proj1 (inv_nth _ _ _ IV Ho)) q i I) as (r & -> & Wk).
    cbn [app] in *.
    assert (Nr : r <> []) by (intros ->; discriminate Wk).
    assert (Hi : exists o, nth_error (l_objs s) i = Some o).
    { assert (HL : (i < List.length (l_objs s))%nat).
      { eapply (walk_in (l_objs s)); [|intros n j Hj; eapply IR; eauto|exact Wk]. intros k n j. unfold links_of.
        destruct (nth_error (l_objs s) k) eqn:Ek; [|intros []]. intros Hj. eapply IR; eauto. }
      destruct (nth_error (l_objs s) i) eqn:Ei; [eauto|]. apply nth_error_None in Ei. lia. }
    destruct Hi as [o Hi]. exists (up i), o, (eobj (isr i) o). split; [now apply vol_run0|].
    destruct r as [|c r]; [congruence|]. inversion F as [|x y Fc Fr]; subst.
    cbn [out_path]. rewrite remap_join by apply Fc. cbn [bind].
    change (en c :: map doubled r) with (map en (c :: r)).
    assert (Fe : Forall component (map en (c :: r))).
    { apply Forall_forall. intros z Hz. apply in_map_iff in Hz as (w & <- & Hw). apply en_component. rewrite Forall_forall in F. auto. }
    rewrite obj_of_enc, O by auto. cbn [option_map eio fst snd].
    rewrite !join_dot, !split_join by (auto; discriminate).
    change (l_objs (enc s)) with (eobjs (l_objs s)). rewrite walk_enc, Wk by auto. split; [reflexivity|].
    split; [rewrite nth_eobjs, Hi by auto; reflexivity|]. split; [eauto|]. cbn [info_of]. rewrite Hi. split; [reflexivity|]. apply same_enc.
Qed.
