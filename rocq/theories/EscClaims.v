(** Claims about failing calls. *)
From Coq Require Import ZifyNat.
From Verif Require Import Base BaseProofs RefModel RefSpec RefProofs LifeClaims EscModel EscSpec EscProofs.

Lemma step_any : forall f op, rinv f -> fo_ref f < 2 ^ 31 - 1 -> next_call f op ->
  match op with
  | ECall o _ => exists g, rstep f o = Ok g /\ rinv g /\ fo_log g = fo_log f /\ fo_ref g <= fo_ref f + 1
  | _ => True
  end.
Proof.
  intros f op I B N. destruct op as [o cf|els|okk]; auto. apply step_inv; auto.
  - destruct o as [h k okk| | | |]; auto. destruct k; auto. destruct okk; auto. 
  - intros h ->. exact N.
Qed.

Lemma estep_rinv : forall ge f op, rinv f -> fo_ref f < 2 ^ 31 - 1 -> next_call f op ->
  exists g a, estep ge f op = Ok (g, a) /\ (a = Terminated <-> fatal ge f op) /\
              (a = Returned true <-> ~ fails f op).
Proof.
  intros ge f op I B N. assert (ST := step_any f op I B N).
  destruct op as [o cf|els|okk]; cbn [estep fatal fails].
  - destruct ST as (g & R & Ig & Lg & _).
    destruct (obj_of f (id_of o)) as [ob|] eqn:O.
    2:{ exists f, (Returned false). split; [reflexivity|]. split; [split; [discriminate|]|split; [discriminate|]].
        - intros H. exfalso. destruct o as [| |h okk| |]; try contradiction.
          destruct H as (_ & _ & _ & o' & k & E & _). eapply obj_of_none; [exact O|]. rewrite E. left; reflexivity.
        - intros H. exfalso. apply H. left. intros ob. eapply obj_of_none; eauto. }
    rewrite R. cbn [bind]. assert (CE := closes_exact _ _ _ _ I Ig O R). assert (UE := under_exact _ _ _ I O).
    assert (Hh := obj_of_in _ _ _ O).
    assert (OP : ~ (forall ob, ~ In (id_of o, ob) (fo_ids f))) by (intros H; eapply H; eauto).
    destruct ((fo_closes f <? fo_closes g)%nat && cf && fo_log f)%bool eqn:C.
    + apply andb_true_iff in C. destruct C as [C CL]. apply andb_true_iff in C. destruct C as [C CF].
      apply Nat.ltb_lt in C. apply CE in C. destruct C as (h & okk & ob' & k & -> & E1 & E2 & E3). cbn [id_of] in *.
      assert (ob' = ob) by (rewrite E1 in Hh; destruct Hh as [Hh|[]]; congruence). subst ob'.
      unfold by_file_close. rewrite O, (kind_in _ _ _ I E2).
      assert (FL : ~ ~ ((forall ob, ~ In (h, ob) (fo_ids f)) \/
        (okk = false /\ (exists ob k, In (h, ob) (fo_ids f) /\ In (ob, k) (fo_objs f) /\ k <> KFile /\
           forall x, In (x, ob) (fo_ids f) -> x = h)) \/
        (cf = true /\ fo_log f = true /\ exists ob, fo_ids f = [(h, ob)]))) by eauto 10.
      destruct k.
      * exists (failed_close f), (Returned false). split; [reflexivity|]. split; [split; [discriminate|]|split; [discriminate|tauto]].
        intros (_ & _ & _ & o' & k' & F1 & F2 & F3). exfalso. rewrite E1 in F1. injection F1 as <-.
        apply F3. eapply NoDup_fst_inj; [apply (ri_objs _ I)| |]; eauto.
      * destruct E3 as [E3|E3]; [discriminate|]. exists g, Terminated. split; [reflexivity|]. split; [split; [intros _|auto]|split; [discriminate|tauto]].
        repeat split; auto. exists ob, KDset. repeat split; auto; discriminate.
      * destruct E3 as [E3|E3]; [discriminate|]. exists g, Terminated. split; [reflexivity|]. split; [split; [intros _|auto]|split; [discriminate|tauto]].
        repeat split; auto. exists ob, KOther. repeat split; auto; discriminate.
    + exists g, (caught (under_ok f o)). split; [reflexivity|].
      assert (NC : forall h okk, o = RClose h okk -> cf = true -> fo_log f = true -> forall ob k, fo_ids f = [(h, ob)] ->
                In (ob, k) (fo_objs f) -> (k = KFile \/ okk = true) -> False).
      { intros h okk E F L ob' k F1 F2 F3. assert (T : (fo_closes f < fo_closes g)%nat) by (apply CE; subst; exists h, okk, ob', k; auto).
        apply Nat.ltb_lt in T. rewrite T, F, L in C. discriminate. }
      split.
      * split; [discriminate|]. intros H. exfalso. destruct o as [| |h okk| |]; try contradiction.
        destruct H as (H1 & H2 & H3 & o' & k & H4 & H5 & H6). eapply NC; eauto.
      * unfold caught. destruct (under_ok f o) eqn:U.
        -- split; [intros _|auto]. intros [H|H]; [auto|]. destruct o as [h k okk|h|h okk|h|h k]; try contradiction.
           ++ cbn in U. congruence.
           ++ destruct H as [H|(H1 & H2 & ob' & H3)].
              ** apply UE in H. discriminate.
              ** cbn [id_of] in *. assert (ob' = ob) by (rewrite H3 in Hh; destruct Hh as [Hh|[]]; congruence). subst ob'.
                 destruct (kind_live _ _ _ I Hh) as (k & K). assert (K' := kind_some _ _ _ K).
                 destruct okk; [eapply NC; eauto|].
                 destruct k; [eapply NC; eauto| |]; cbn in U; rewrite O, K in U; rewrite H3 in U; cbn in U; rewrite !Nat.eqb_refl in U; discriminate.
        -- split; [discriminate|]. intros H. exfalso. apply H. right. assert (U' := proj1 UE eq_refl).
           destruct o; auto.
  - exists f, (data_call ge els). split; [reflexivity|]. unfold data_call. destruct ge.
    + split; [rewrite multi_dead; tauto|apply multi_ok].
    + split; [split; [discriminate|intros [H _]; discriminate]|]. unfold caught. rewrite <- forallb_false.
      split; [congruence|intros ->; reflexivity].
  - exists f, (Returned okk). split; [reflexivity|]. split; [split; [discriminate|contradiction]|].
    split; [intros H; injection H as ->; discriminate|]. destruct okk; auto. intros H; exfalso; auto.
Qed.

Lemma fails_exact : forall ge log os f op, state_of log os f -> next_call f op ->
  exists g a, estep ge f op = Ok (g, a) /\ (a = Terminated <-> fatal ge f op) /\
              (a = Returned true <-> ~ fails f op).
Proof. intros ge log os f op S N. destruct (state_rinv _ _ _ S) as (I & B & _). apply estep_rinv; auto. Qed.

(** * Whole programs *)

Lemma run_survives : forall ge os f, rinv f -> fo_ref f + Zlen (rops os) <= 2 ^ 31 - 1 ->
  opens_succeed (fo_log f) (rops os) -> file_id_open f (rops os) ->
  (ge = false \/ Forall (fun op => match op with EData els => ~ In false els | _ => True end) os) ->
  (forall pre o post g, rops os = pre ++ o :: post -> rrun f pre = Ok g -> file_last g o) ->
  exists g l, erun ge f os = Ok (g, l) /\ ~ In Terminated l.
Proof.
  induction os as [|op os IH]; intros f I L S G D FL; cbn [erun]; [exists f, []; auto|].
  assert (Hd : ge = false \/ match op with EData els => ~ In false els | _ => True end)
    by (destruct D as [D|D]; [auto|right; inversion D; auto]).
  assert (Dt : ge = false \/ Forall (fun op => match op with EData els => ~ In false els | _ => True end) os)
    by (destruct D as [D|D]; [auto|right; inversion D; auto]).
  assert (P := Zlen_nonneg _ (rops os)).
  destruct op as [o cf|els|okk].
  - cbn [rops] in *. rewrite Zlen_cons in L.
    assert (N : next_call f (ECall o cf)).
    { destruct o as [h k okk| | |h|]; cbn; auto.
      - destruct k; auto. destruct okk; auto. destruct S as [S|S]; auto. inversion S; contradiction.
      - apply (G [] h (rops os) f); auto. }
    destruct (step_inv f o I) as (g & R & Ig & Lg & Bg).
    { lia. }
    { destruct S as [S|S]; [auto|]. inversion S; subst. auto. }
    { intros h ->. apply (G [] h (rops os) f); auto. }
    destruct (estep_rinv ge f (ECall o cf) I ltac:(lia) N) as (g' & a & E & T & _).
    rewrite E. cbn [bind].
    assert (NT : a <> Terminated).
    { intros ->. assert (F := proj1 T eq_refl). cbn in F. destruct o as [| |h okk| |]; try contradiction.
      destruct F as (_ & _ & _ & F). assert (Q := FL [] _ _ f eq_refl eq_refl). cbn in Q. auto. }
    destruct a as [b|]; [|contradiction].
    destruct (fo_ref g' <? Zlen (fo_objs g')) eqn:ST; cbn [orb].
    + exists g', [Returned b]. split; [reflexivity|]. intros [H|[]]; discriminate.
    + assert (EG : g' = g).
      { cbn in E. destruct (obj_of f (id_of o)) as [ob|] eqn:O.
        - rewrite R in E. cbn in E. destruct (_ && _ && _)%bool.
          + destruct (by_file_close f o); [|congruence]. injection E as <- _. cbn in ST. apply Z.ltb_ge in ST.
            rewrite (ri_ref _ I) in ST. lia.
          + congruence.
        - assert (R' : rstep f o = Ok f) by (unfold rstep; destruct o; cbn in O; rewrite O; reflexivity).
          congruence. }
      subst g'. destruct (IH g) as (g2 & l & E2 & T2); auto.
      * lia.
      * rewrite Lg. destruct S as [S|S]; [left; auto|right; inversion S; auto].
      * intros pre h post f' Eq R'. apply (G (o :: pre) h post f'); [cbn; congruence|]. cbn. rewrite R. auto.
      * intros pre o' post f' Eq R'. apply (FL (o :: pre) o' post f'); [cbn; congruence|]. cbn. rewrite R. auto.
      * rewrite E2. cbn. eexists; eexists; split; [reflexivity|]. intros [H|H]; [discriminate|auto].
  - cbn [rops estep bind] in *.
    assert (NT : exists b, data_call ge els = Returned b).
    { unfold data_call. destruct ge; [|eexists; reflexivity]. destruct Hd as [Hd|Hd]; [discriminate|]. exists true. apply multi_ok; auto. }
    destruct NT as (b & ->). rewrite (ri_ref _ I), Z.ltb_irrefl. cbn [orb].
    destruct (IH f) as (g & l & E & T); auto. rewrite E. cbn. eexists; eexists; split; [reflexivity|].
    intros [H|H]; [discriminate|auto].
  - cbn [rops estep bind caught] in *. rewrite (ri_ref _ I), Z.ltb_irrefl. cbn [orb].
    destruct (IH f) as (g & l & E & T); auto. rewrite E. cbn. eexists; eexists; split; [reflexivity|].
    intros [H|H]; [discriminate|auto].
Qed.

Lemma survives : forall ge log os, Zlen (rops os) < 2 ^ 31 - 1 ->
  opens_succeed log (rops os) -> file_id_open (fobj_new log) (rops os) ->
  (ge = false \/ Forall (fun op => match op with EData els => ~ In false els | _ => True end) os) ->
  (forall pre o post f, rops os = pre ++ o :: post -> rrun (fobj_new log) pre = Ok f -> file_last f o) ->
  exists f l, erun ge (fobj_new log) os = Ok (f, l) /\ ~ In Terminated l.
Proof.
  intros ge log os L S G D F. apply run_survives; auto.
  - apply rinv_new.
  - change (fo_ref (fobj_new log)) with 1; lia.
Qed.

Lemma data_dead : forall f els, In false els -> estep true f (EData els) = Ok (f, Terminated).
Proof. intros f els H. cbn. apply multi_dead in H. rewrite H. reflexivity. Qed.

Lemma object_last_dead : forall ge os f h, state_of true os f -> last_is_object f h ->
  exists g, estep ge f (ECall (RClose h true) true) = Ok (g, Terminated).
Proof.
  intros ge os f h S L. assert (LG : fo_log f = true) by (apply state_rinv in S; tauto).
  destruct (fails_exact ge _ _ _ (ECall (RClose h true) true) S Logic.I) as (g & a & E & T & _).
  exists g. rewrite E. f_equal. f_equal. apply T. cbn. auto.
Qed.

(** * Opening the file again *)

Record xinv (fs : fsview) (s : otable * list nat) : Prop := mkxinv {
  xi_o : oinv fs (fst s);
  xi_bad : forall id, In id (snd s) -> exists who, In (id, who) (ot_open (fst s)) }.

Lemma xinv_step : forall fs s o, xinv fs s -> xinv fs (xstep fs s o) /\
  (forall id, In id (snd s) -> In id (snd (xstep fs s o))) /\
  (forall id who, In id (snd s) -> In (id, who) (ot_open (fst s)) -> In (id, who) (ot_open (fst (xstep fs s o)))).
Proof.
  intros fs [t bad] o [V B]. cbn [fst snd] in *. destruct o as [p|id cf]; cbn [xstep].
  - assert (K : forall i w, In (i, w) (ot_open t) -> In (i, w) (ot_open (ostep fs t (FOpen p)))).
    { intros i w H. cbn. destruct (ot_openf fs t p) as [r| |] eqn:E; auto. unfold ot_openf in E.
      destruct (ot_search fs t p); [discriminate|]. destruct (fs p) as [[d n]|]; inversion E; subst; cbn; apply in_or_app; auto. }
    cbn [fst snd]. split; [|split; auto]. constructor; cbn [fst snd].
    + apply (oinv_run fs [FOpen p] t V).
    + intros i H. destruct (B _ H) as (w & H'). exists w; auto.
  - destruct (negb _) eqn:X; [split; [constructor; auto|auto]|].
    destruct (existsb (Nat.eqb id) bad) eqn:Y; [split; [constructor; auto|auto]|]. destruct cf.
    + cbn [fst snd]. split; [|split; [intros; right; auto|auto]]. constructor; cbn [fst snd]; auto.
      intros i [<-|H]; auto. apply negb_false_iff in X. apply existsb_exists in X. destruct X as ([j w] & X1 & X2).
      apply Nat.eqb_eq in X2. cbn in X2. subst. eauto.
    + cbn [fst snd]. assert (K : forall i w, In i bad -> In (i, w) (ot_open t) -> In (i, w) (ot_open (ostep fs t (FClose id)))).
      { intros i w H1 H2. cbn. unfold ot_close. destruct (find _ _) as [[j v]|]; auto. cbn. apply filter_In. split; auto. cbn.
        destruct (Nat.eqb_spec i id); auto. subst. exfalso.
        assert (T : existsb (Nat.eqb id) bad = true) by (apply existsb_exists; exists id; split; auto; apply Nat.eqb_refl).
        congruence. }
      split; [|split; auto]. constructor; cbn [fst snd].
      * apply (oinv_run fs [FClose id] t V).
      * intros i H. destruct (B _ H) as (w & H'). exists w; auto.
Qed.

Lemma xinv_run : forall fs os s, xinv fs s -> xinv fs (xrun fs s os) /\
  (forall id who, In id (snd s) -> In (id, who) (ot_open (fst s)) -> In (id, who) (ot_open (fst (xrun fs s os)))).
Proof.
  induction os as [|o os IH]; intros s V; cbn; [auto|].
  destruct (xinv_step fs s o V) as (V1 & K1 & K2). destruct (IH _ V1) as (V2 & K3). split; auto.
Qed.

Lemma xinv0 : forall fs, xinv fs (otable0, []).
Proof. intros; constructor; [apply oinv0|cbn; tauto]. Qed.

Lemma never_again : forall fs os p os', fs p <> None ->
  let s := xrun fs (otable0, []) os in
  ot_search fs (fst s) p = None ->
  let id := ot_next (fst s) in
  (exists t, ot_openf fs (fst s) p = Ok (id, t)) /\
  ot_openf fs (fst (xrun fs s (XOpen p :: XClose id true :: os'))) p = Err.
Proof.
  intros fs os p os' NP s SN id. destruct (xinv_run fs os _ (xinv0 fs)) as (V & _). fold s in V.
  destruct (fs p) as [[d n]|] eqn:F; [|congruence].
  assert (OP : exists t, ot_openf fs (fst s) p = Ok (id, t) /\ In (id, Some (d, n)) (ot_open t)).
  { unfold ot_openf. rewrite SN, F. eexists; split; [reflexivity|]. cbn. apply in_or_app; right; left; reflexivity. }
  destruct OP as (t & E & H). split; [eauto|].
  destruct s as [t0 bad] eqn:ES. cbn [fst snd] in *.
  assert (NB : existsb (Nat.eqb id) bad = false).
  { destruct (existsb (Nat.eqb id) bad) eqn:X; auto. apply existsb_exists in X. destruct X as (i & X1 & X2).
    apply Nat.eqb_eq in X2. subst i. destruct (xi_bad _ _ V _ X1) as (w & W). apply (oi_lt _ _ (xi_o _ _ V)) in W. cbn in W. unfold id in W. lia. }
  cbn [xrun fold_left]. fold (xrun fs).
  set (s1 := xstep fs (t0, bad) (XOpen p)).
  assert (E1 : s1 = (t, bad)) by (unfold s1; cbn; rewrite E; reflexivity).
  destruct (xinv_step fs _ (XOpen p) V) as (V1 & _). fold s1 in V1. rewrite E1 in V1 |- *.
  set (s2 := xstep fs (t, bad) (XClose id true)).
  assert (E2 : s2 = (t, id :: bad)).
  { unfold s2; cbn. replace (existsb (fun q => (fst q =? id)%nat) (ot_open t)) with true
      by (symmetry; apply existsb_exists; exists (id, Some (d, n)); split; auto; cbn; apply Nat.eqb_refl).
    cbn. rewrite NB. reflexivity. }
  destruct (xinv_step fs _ (XClose id true) V1) as (V2 & _). fold s2 in V2. rewrite E2 in V2 |- *.
  change (fold_left (xstep fs) os' (t, id :: bad)) with (xrun fs (t, id :: bad) os').
  destruct (xinv_run fs os' _ V2) as (V3 & K).
  assert (H3 := K id (Some (d, n)) (or_introl eq_refl) H).
  apply (oi_map _ _ (xi_o _ _ V3)) in H3. unfold ot_openf, ot_search. rewrite F.
  destruct (find (fun q => fst q =? n) _) eqn:G; [reflexivity|].
  apply (find_none _ _ G) in H3. cbn in H3. rewrite Z.eqb_refl in H3. discriminate.
Qed.

(** * Cases *)

(** A dataset and a group are opened and closed around reads and writes that fail, the file is closed
    last and that fails: every call returns. *)
Definition ex_prog : list eop :=
  [ECall (ROpen 0 KDset true) true; EData [false]; ECall (ROpen 0 KOther false) true; EOther false;
   ECall (RClose 1 false) true; ECall (RClose 1 true) true; ECall (RClose 7 true) false; ECall (RClose 0 true) true].
Lemma ex_prog_run : erun false (fobj_new true) ex_prog =
  Ok (failed_close (mkfobj 1 true [(0%nat, KFile)] [(0, 0)%nat] 2 0),
      map Returned [true; false; false; false; false; true; false; false]).
Proof. vm_compute. reflexivity. Qed.
Lemma ex_prog_hyps : Zlen (rops ex_prog) < 2 ^ 31 - 1 /\ opens_succeed true (rops ex_prog) /\
  file_id_open (fobj_new true) (rops ex_prog) /\
  (forall pre o post f, rops ex_prog = pre ++ o :: post -> rrun (fobj_new true) pre = Ok f -> file_last f o).
Proof.
  split; [vm_compute; reflexivity|]. split; [left; reflexivity|]. split.
  - apply no_get_file. repeat constructor.
  - intros pre o post f E R.
    destruct o as [| |h okk| |]; cbn; auto. intros (ob & k & F & Hin & NK).
    do 6 (destruct pre as [|? pre];
      [cbn in E; inversion E; subst; vm_compute in R; injection R as <-; cbn in F, Hin; inversion F; subst;
       repeat (destruct Hin as [Hin|Hin]; [inversion Hin; subst; congruence|]); contradiction
      |injection E as <- E]).
    destruct pre; discriminate.
Qed.
(** The dataset outlives the identifier of the file. *)
Lemma ex_last : exists f, state_of true [ROpen 0 KDset true; RClose 0 true] f /\ last_is_object f 1.
Proof.
  eexists. split.
  - split; [vm_compute; reflexivity|]. split; [left; reflexivity|]. split; [apply no_get_file; repeat constructor|vm_compute; reflexivity].
  - exists 1%nat, KDset. cbn. repeat split; auto; discriminate.
Qed.
(** A program with two files; the close of the first fails. *)
Lemma ex_again :
  let fs := fun p => if p =? 9 then None else Some (1, p mod 5) in
  ot_search fs (fst (xrun fs (otable0, []) [XOpen 1; XOpen 2; XClose 0 false])) 1 = None /\ fs 1 <> None /\
  (exists r, ot_openf fs (fst (xrun fs (otable0, []) [XOpen 1; XOpen 2; XClose 0 false])) 6 = Ok r) /\
  ot_openf fs (fst (xrun fs (otable0, []) [XOpen 1; XOpen 2; XClose 0 true; XClose 1 false; XClose 0 false])) 6 = Err /\
  (exists r, ot_openf fs (fst (xrun fs (otable0, []) [XOpen 1; XOpen 2; XClose 0 true; XClose 1 false])) 2 = Ok r).
Proof.
  cbv zeta. split; [reflexivity|]. split; [discriminate|]. split; [eexists; vm_compute; reflexivity|].
  split; [reflexivity|]. eexists; vm_compute; reflexivity.
Qed.
