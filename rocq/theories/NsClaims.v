(** Properties of links and attributes proved about the model. *)
From Verif Require Import Base NameModel LibModel NsModel NsSpec NsProofs NsSim.
From Coq Require Import Ascii String Lia ZifyNat.

Lemma wf0 : wf lib0.
Proof. eexists _, _. split; reflexivity. Qed.
Lemma enc0 : enc lib0 = vol0.
Proof. reflexivity. Qed.
Lemma wf_run st cs : wf st -> wf (fst (lib_run st cs)).
Proof. revert st. induction cs as [|c t IH]; intros st W; [exact W|]. cbn. apply IH. now apply wf_step. Qed.
Lemma vol_run0 dbi cs : supported_run lib0 cs ->
  vol_run dbi vol0 cs = Ok (enc (fst (lib_run lib0 cs)), snd (lib_run lib0 cs)).
Proof. intros S. rewrite <- enc0. apply vol_run_sim; auto using wf0. Qed.
Lemma vol_run_app dbi st cs ds :
  vol_run dbi st (cs ++ ds) =
  match vol_run dbi st cs with
  | Ok (s, r) => match vol_run dbi s ds with Ok (s', r') => Ok (s', r ++ r') | Err => Err | UB => UB end
  | Err => Err
  | UB => UB
  end.
Proof.
  revert st. induction cs as [|c t IH]; intros st.
  - cbn. destruct (vol_run dbi st ds) as [[s r]| |]; reflexivity.
  - cbn [app vol_run]. destruct (vol_step dbi st c) as [[s1 r1]| |]; cbn [bind fst snd]; auto.
    rewrite IH. destruct (vol_run dbi s1 t) as [[s2 r2]| |]; cbn [bind fst snd]; auto.
    destruct (vol_run dbi s2 ds) as [[s3 r3]| |]; reflexivity.
Qed.

Lemma transparent dbi cs : supported_run lib0 cs ->
  exists st, vol_run dbi vol0 cs = Ok (st, snd (lib_run lib0 cs)).
Proof. intros S. rewrite vol_run0 by auto. eauto. Qed.

Lemma enc_intact st : wf st -> intact (enc st).
Proof.
  intros W. pose proof W as (r & t & H & K). split.
  - cbn [enc l_objs]. rewrite H. eexists _, _. split; [reflexivity|]. split; left; reflexivity.
  - apply Forall_forall. intros o Ho Kd. apply In_nth_error in Ho as [i Hi].
    cbn [enc l_objs] in Hi. rewrite H in Hi. cbn [eobjs] in Hi. destruct i as [|[|i]]; cbn [nth_error] in Hi.
    + injection Hi as <-. cbn in Kd. congruence.
    + injection Hi as <-. discriminate.
    + rewrite nth_error_map in Hi. destruct (nth_error t i) as [x|]; [|discriminate]. injection Hi as <-.
      cbn [eobj ob_kind] in Kd. cbn [eobj ob_attrs own]. rewrite Kd. cbn [map DSET_ATTRS app fst].
      repeat constructor; cbn; tauto.
Qed.
Lemma own_kept dbi cs st rs : supported_run lib0 cs -> vol_run dbi vol0 cs = Ok (st, rs) -> intact st.
Proof. intros S. rewrite vol_run0 by auto. intros [= <- <-]. apply enc_intact. apply wf_run, wf0. Qed.

(** * Links made under a reserved name cannot be found again *)

Lemma reserved_hidden n : reserved n -> hidden n /\ en n <> n.
Proof.
  intros (r & -> & H). split.
  - unfold hidden. cbn. destruct r as [|c s]; auto. rewrite (proj2 (Ascii.eqb_neq c US)); eauto.
  - cbn. destruct r as [|c s]; [discriminate|]. intros [= <- _]. now apply (H US s).
Qed.
Lemma assoc_app {A} n (l1 l2 : list (string * A)) :
  assoc n (l1 ++ l2) = match assoc n l1 with Some a => Some a | None => assoc n l2 end.
Proof. induction l1 as [|[m a] t IH]; [reflexivity|]. cbn. destruct (String.eqb n m); auto. Qed.
Lemma assoc_hidden_none {A B} (f : A -> B) n l :
  hidden n -> assoc n (map (fun p => (en (fst p), f (snd p))) l) = None.
Proof.
  intros H. induction l as [|[m a] t IH]; [reflexivity|]. cbn [map fst snd assoc].
  rewrite String.eqb_sym, en_not_hidden by auto. exact IH.
Qed.
Lemma obj_of_set st h i o o' : obj_of st h = Some (i, o) -> obj_of (set_obj st i o') h = Some (i, o').
Proof.
  unfold obj_of, set_obj. cbn [l_hnds l_objs]. destruct (nth_error (l_hnds st) h) as [hd|]; [|discriminate].
  destruct (nth_error (l_objs st) (h_obj hd)) eqn:N; [|discriminate]. intros [= <- <-].
  assert (X : forall (l : list obj) k x, nth_error l k = Some x -> nth_error (upd_nth k o' l) k = Some o').
  { induction l as [|y u IH]; intros [|k] x; cbn; try discriminate; eauto. }
  now rewrite (X _ _ _ N).
Qed.
Lemma link_hidden dbi st h i g t n :
  wf st -> obj_of st h = Some (i, g) -> ob_kind g = KGroup -> reserved n -> n <> "_LOG"%string ->
  assoc n (ob_links g) = None ->
  exists st', vol_run dbi (enc st) [CSoft t h n; CExists h n; COpen h n; CDelete h n] =
    Ok (st', [ROk; RBool false; RFail; RFail]).
Proof.
  intros W O K R NL A. destruct (reserved_hidden n R) as [Hh Hn].
  assert (RM : name_remap n = Ok (en n)). { apply remap_en. destruct R as (r & -> & _). discriminate. }
  set (g' := set_links (eobj (isr i) g) (ob_links (eobj (isr i) g) ++ [(n, Soft t)])).
  set (s1 := set_obj (enc st) (up i) g').
  assert (OE : obj_of (enc st) h = Some (up i, eobj (isr i) g)) by (rewrite obj_of_enc, O by auto; reflexivity).
  assert (A1 : add_link (enc st) h n (Soft t) = Some s1).
  { unfold add_link. rewrite OE. cbn [eobj ob_kind]. rewrite K. fold (eobj (isr i) g).
    replace (assoc n (ob_links (eobj (isr i) g))) with (@None target); [reflexivity|]. symmetry.
    cbn [eobj ob_links]. rewrite assoc_app.
    replace (assoc n (own_links (isr i))) with (@None target).
    2:{ unfold isr. destruct (i =? 0)%nat; cbn [own_links assoc]; [|reflexivity].
        now rewrite (proj2 (String.eqb_neq n LOG_GROUP)). }
    apply (assoc_hidden_none et). exact Hh. }
  assert (O1 : obj_of s1 h = Some (up i, g')) by (eapply obj_of_set; eauto).
  assert (AS : assoc (en n) (ob_links g') = None).
  { unfold g'. cbn [set_links ob_links]. rewrite assoc_app, assoc_links, A. cbn.
    now rewrite (proj2 (String.eqb_neq (en n) n)). }
  exists s1. cbn [vol_run vol_step]. unfold under, open_under. rewrite RM. cbn [on].
  change (lib_step (enc st) (CSoft t h n)) with (put_link (enc st) h n (Soft t)). unfold put_link. rewrite A1.
  cbn [or_fail bind fst snd lib_step]. rewrite O1. cbn [or_fail fst snd]. rewrite AS. cbn [bind fst snd].
  cbn [loc_of]. rewrite O1. cbn [resolve]. rewrite AS. cbn [or_fail bind fst snd].
  unfold get_link. rewrite O1. rewrite AS. reflexivity.
Qed.
Lemma new_links_lost dbi cs h i g t n :
  supported_run lib0 cs -> obj_of (fst (lib_run lib0 cs)) h = Some (i, g) -> ob_kind g = KGroup ->
  reserved n -> n <> "_LOG"%string -> assoc n (ob_links g) = None ->
  exists st, vol_run dbi vol0 (cs ++ [CSoft t h n; CExists h n; COpen h n; CDelete h n]) =
    Ok (st, snd (lib_run lib0 cs) ++ [ROk; RBool false; RFail; RFail]).
Proof.
  intros S O K R N A. rewrite vol_run_app, vol_run0 by auto.
  edestruct (link_hidden dbi (fst (lib_run lib0 cs)) h i g t n) as [st' E']; eauto using wf_run, wf0.
  rewrite E'. eauto.
Qed.

(** * Deleting an attribute by index *)

Lemma del_idx_step st h i o :
  wf st -> obj_of st h = Some (i, o) -> ob_kind o = KDset ->
  exists s', lib_step (enc st) (ADelIdx (Self h) ByCrt Inc 0) = (s', ROk) /\
    s' = set_obj (enc st) (up i) (set_attrs (eobj (isr i) o) (drop "_dims"%string (ob_attrs (eobj (isr i) o)))) /\
    isr i = false.
Proof.
  intros W O K.
  assert (I : isr i = false).
  { unfold isr. destruct (Nat.eqb_spec i 0) as [->|]; auto. apply obj_of_nth in O.
    destruct W as (r & t & H & K'). rewrite H in O. cbn in O. congruence. }
  eexists. split; [|split; [reflexivity|exact I]].
  cbn [lib_step loc_of]. rewrite obj_of_enc, O by auto. cbn [option_map or_fail eio fst snd].
  rewrite I. cbn [eobj ob_attrs own ordered]. rewrite K. reflexivity.
Qed.
Lemma reach_incl f os is i : In i is -> In i (reach f os is).
Proof. destruct f; cbn; auto. intros. apply in_or_app. auto. Qed.
Lemma drop_none {A} n (l : list (string * A)) : assoc n (drop n l) = None.
Proof.
  unfold drop. induction l as [|[m a] t IH]; [reflexivity|]. cbn [filter fst].
  destruct (String.eqb n m) eqn:H; cbn [negb]; auto. cbn [assoc]. now rewrite H.
Qed.
Lemma delete_by_index st h i o n :
  wf st -> obj_of st h = Some (i, o) -> ob_kind o = KDset ->
  (exists r u, l_objs st = r :: u /\ In (n, Hard i) (ob_links r)) ->
  (forall c s, n = String c s -> c <> SLASH /\ c <> DOT) ->
  exists st', vol_run true (enc st) [ADelIdx (Self h) ByCrt Inc 0; CReopen; COpen 0 n] = Ok (st', [ROk; RFail; RFail]).
Proof.
  intros W O K (r & u & L & IL) NN. destruct (del_idx_step st h i o W O K) as (s' & D & Es & I).
  assert (V : dset_visit (en n) <> None).
  { destruct n as [|c s]; cbn; [discriminate|]. destruct (Ascii.eqb_spec c US); cbn.
    - subst. cbn. discriminate.
    - destruct (NN c s eq_refl). rewrite (proj2 (Ascii.eqb_neq c US)), (proj2 (Ascii.eqb_neq c SLASH)),
        (proj2 (Ascii.eqb_neq c DOT)) by auto. discriminate. }
  assert (Hi : exists j, i = S j). { unfold isr in I. destruct i; [discriminate|eauto]. }
  destruct Hi as [j ->].
  assert (NJ : nth_error u j = Some o). { apply obj_of_nth in O. rewrite L in O. exact O. }
  set (o' := set_attrs (eobj false o) (drop "_dims"%string (ob_attrs (eobj false o)))).
  assert (LS : l_objs s' = eobj true r :: mkobj KGroup [] [] :: upd_nth j o' (map (eobj false) u)).
  { subst s'. unfold set_obj. cbn [l_objs enc]. rewrite L. reflexivity. }
  assert (NU : nth_error (upd_nth j o' (map (eobj false) u)) j = Some o').
  { clear - NJ. revert j NJ. induction u as [|x t IH]; intros [|j]; cbn; try discriminate; auto. }
  assert (R : reopen s' = Ok (mklib (l_objs s') [], RFail)).
  { unfold reopen.
    replace (forallb _ (scanned (l_objs s'))) with false; [now rewrite andb_false_r|]. symmetry.
    apply not_true_is_false. intros F. rewrite forallb_forall in F.
    assert (IS : In (S (S j)) (scanned (l_objs s'))).
    { rewrite LS. cbn [scanned]. apply reach_incl. apply nodup_In. unfold hard_ids. apply in_flat_map.
      exists (en n, Hard (S (S j))). split; [|cbn; auto]. apply filter_In. split.
      - cbn [eobj ob_links]. apply in_or_app. right. apply in_map_iff. exists (n, Hard (S j)). auto.
      - cbn [fst]. now destruct (dset_visit (en n)). }
    specialize (F _ IS). rewrite LS in F. cbn [nth_error] in F. rewrite NU in F.
    unfold can_open in F. unfold o' in F. cbn [set_attrs ob_kind eobj] in F. rewrite K in F.
    unfold has_attrs, DSET_ATTRS in F. cbn [forallb ob_attrs] in F.
    change (ob_attrs (set_attrs ?a ?b)) with b in F. rewrite drop_none in F. cbn [andb] in F. congruence. }
  exists (mklib (l_objs s') []). cbn [vol_run vol_step remap_loc on]. unfold under. rewrite D. cbn [bind fst snd].
  rewrite R. cbn [bind fst snd].
  destruct (name_remap n) eqn:RM; cbn [on]; auto.
  exfalso. destruct n; cbn in RM; [discriminate|]. destruct (Ascii.eqb a US); discriminate.
Qed.

Lemma delete_by_index_run cs h i o n r u :
  supported_run lib0 cs -> obj_of (fst (lib_run lib0 cs)) h = Some (i, o) -> ob_kind o = KDset ->
  l_objs (fst (lib_run lib0 cs)) = r :: u -> In (n, Hard i) (ob_links r) ->
  (forall c s, n = String c s -> c <> SLASH /\ c <> DOT) ->
  exists st, vol_run true vol0 (cs ++ [ADelIdx (Self h) ByCrt Inc 0; CReopen; COpen 0 n]) =
    Ok (st, snd (lib_run lib0 cs) ++ [ROk; RFail; RFail]).
Proof.
  intros S O K L IL N. rewrite vol_run_app, vol_run0 by auto.
  edestruct (delete_by_index (fst (lib_run lib0 cs)) h i o n) as [st' E']; eauto using wf_run, wf0.
  rewrite E'. eauto.
Qed.
Lemma delete_by_index_refused cs l it io k : supported_run lib0 cs ->
  exists st, vol_run false vol0 (cs ++ [ADelIdx l it io k]) = Ok (st, snd (lib_run lib0 cs) ++ [RFail]).
Proof. intros S. rewrite vol_run_app, vol_run0 by auto. cbn. eauto. Qed.

(** * Counting *)

Lemma nlinks_root dbi cs r u : supported_run lib0 cs -> l_objs (fst (lib_run lib0 cs)) = r :: u ->
  obj_of (fst (lib_run lib0 cs)) 0 = Some (0%nat, r) ->
  exists st, vol_run dbi vol0 (cs ++ [CNlinks 0]) = Ok (st, snd (lib_run lib0 cs) ++ [RNum (Zlen (ob_links r) + 1)]).
Proof.
  intros S L O. rewrite vol_run_app, vol_run0 by auto. cbn [vol_run vol_step]. unfold under. cbn [lib_step].
  rewrite obj_of_enc, O by (apply wf_run, wf0). cbn [option_map or_fail eio fst snd bind]. eexists. do 4 f_equal.
  cbn [eobj ob_links isr Nat.eqb own_links]. unfold Zlen. cbn [app List.length]. rewrite map_length. f_equal. lia.
Qed.
Lemma num_attrs_by_name dbi cs h hd n i o :
  supported_run lib0 cs -> nonempty n ->
  nth_error (l_hnds (fst (lib_run lib0 cs))) h = Some hd ->
  loc_of (fst (lib_run lib0 cs)) (Named h n) = Some (i, o) -> i <> 0%nat ->
  exists st, vol_run dbi vol0 (cs ++ [ANum (Named h n)]) =
    Ok (st, snd (lib_run lib0 cs) ++
      [RNum ((Zlen (ob_attrs o) + match ob_kind o with KDset => 3 | _ => 0 end
               - match h_type hd with TFile => 1 | TObj KDset => 3 | _ => 0 end) mod 2 ^ 64)]).
Proof.
  intros S N H L Z0. rewrite vol_run_app, vol_run0 by auto. cbn [vol_run vol_step].
  rewrite remap_loc_en by auto. cbn [on].
  rewrite (anum_enc _ _ (wf_run _ _ wf0) i o L). cbn [fst snd bind]. eexists. do 4 f_equal.
  rewrite (skip_enc _ (Named h n) (Named h n)) by auto. unfold skip_of. cbn [loc_hnd]. rewrite H. unfold wrap64.
  f_equal. f_equal. unfold own_count. rewrite (proj2 (Nat.eqb_neq i 0)) by auto.
  destruct (ob_kind o), (h_type hd) as [|[]]; cbn [skip]; lia.
Qed.
