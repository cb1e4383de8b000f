(** Files with subfiles, single-subfile reads: after a reopening, a group reads only what it writes anew. *)
From Coq Require Import Ascii String Permutation.
From Verif Require Import Base BaseProofs Spec MetaModel QueueModel FlushModel IndexModel ReadModel SysModel SysSpec History
  HistoryProofs SubModel SubSpec SubProofs SubClaims SubAgainSpec.
Open Scope list_scope. Open Scope Z_scope.

(** The connector knows of nothing in the subfile. *)
Definition blank (k : kind) (sg : sgroup) : Prop :=
  any_pending (s_g (sg_sys sg)) = false /\ g_metadirty (s_g (sg_sys sg)) = false /\ sg_nmd sg = 0%nat /\
  (s_idx (sg_sys sg) = None \/ s_idx (sg_sys sg) = Some (idx_empty k)).

Lemma opt_flat_none : forall A B (f : A -> option (list B)) l, (forall a, f a = Some []) -> opt_flat f l = Some [].
Proof. intros A B f l H. induction l as [|a l IH]; cbn [opt_flat]; [reflexivity|]. rewrite H, IH. reflexivity. Qed.

Lemma search_empty : forall infos k r x, idx_search infos (idx_empty k) [r] = Ok x -> x = [].
Proof.
  intros infos k r x H. unfold idx_search in H. cbn [res_flat] in H. unfold idx_search1 in H.
  destruct (info_at infos (rq_did r)) as [[d|]|]; [|cbn in H; congruence|discriminate H].
  destruct k; cbn [idx_empty] in H.
  - unfold search_array in H. cbn [flat_map] in H.
    assert (E : forall l : list (block * Z), flat_map (fun _ => @nil sret) l = []) by (induction l; auto). rewrite E in H. cbn in H. congruence.
  - unfold search_compact in H. rewrite opt_flat_none in H by reflexivity. cbn in H. congruence.
Qed.

Lemma read_blank : forall e g idx c p, is_sort (e_sort e) -> g_mdsets g = [] -> (idx = None \/ idx = Some (idx_empty (e_kind e))) ->
  read_one e g idx c = Ok p -> fill_only g c = SOk (fst p) /\ (snd p = None \/ snd p = Some (idx_empty (e_kind e))).
Proof.
  intros e g idx c p HS HM HI H. unfold read_one in H. unfold fill_only. destruct (rc_sels c) as [|b l] eqn:Es; [injection H as <-; auto|]. rewrite <- Es in *.
  destruct (info_at (g_infos g) (rc_did c)) as [[d|]|]; try discriminate H. rewrite HM in H.
  destruct (read_search _ _ _ _ _ _ _ _) as [q| |] eqn:E; try discriminate H. cbn [bind] in H. injection H as <-. cbn [fst snd].
  assert (Q : fst q = [] /\ (snd q = None \/ snd q = Some (idx_empty (e_kind e)))).
  { unfold read_search in E. destruct (e_limit e) as [lim|].
    - cbn [concat length search_parts] in E. unfold load_part in E. cbn [nth_error bind] in E. discriminate E.
    - assert (Ei : (match idx with Some i => Ok i | None => load_all (e_zlib e) (g_cfg g) (g_infos g) (idx_empty (e_kind e)) [] end) = Ok (idx_empty (e_kind e)))
        by (destruct HI as [-> | ->]; reflexivity).
      rewrite Ei in E. cbn [bind] in E. destruct (idx_search _ _ _) as [x| |] eqn:Ex; try discriminate E. cbn [bind] in E. injection E as <-. cbn [fst snd].
      split; [eapply search_empty; eauto|auto]. }
  destruct Q as [Q1 Q2]. split; [|exact Q2]. rewrite Q1. unfold perform_read, gen_rtypes.
  assert (Z : e_sort e [] = []). { destruct (HS []) as [HP _]. apply Permutation_nil. first [exact HP|apply Permutation_sym; exact HP]. }
  rewrite Z. reflexivity.
Qed.

Lemma reads_blank : forall e g cs idx p, is_sort (e_sort e) -> g_mdsets g = [] -> (idx = None \/ idx = Some (idx_empty (e_kind e))) ->
  read_each e g idx cs = Ok p -> smap (fill_only g) cs = SOk (fst p) /\ (snd p = None \/ snd p = Some (idx_empty (e_kind e))).
Proof.
  intros e g cs. induction cs as [|c cs IH]; intros idx p HS HM HI H; cbn [read_each] in H; [injection H as <-; auto|].
  destruct (read_one e g idx c) as [q| |] eqn:E; try discriminate H. cbn [bind] in H. destruct (read_blank _ _ _ _ _ HS HM HI E) as [R1 R2].
  destruct (read_each e g (snd q) cs) as [r| |] eqn:E2; try discriminate H. cbn [bind] in H. injection H as <-. cbn [fst snd].
  destruct (IH _ _ HS HM R2 E2) as [R3 R4]. split; [|exact R4]. cbn [smap]. rewrite R1. cbn [sbind]. rewrite R3. reflexivity.
Qed.

Definition all_blank (e : env) (s : sfile) : Prop := Forall (blank (e_kind e)) (sf_groups s).

Lemma smap_all : forall A B (P : B -> Prop) (f : A -> sres B) l bs, smap f l = SOk bs -> (forall a b, In a l -> f a = SOk b -> P b) -> Forall P bs.
Proof.
  intros A B P f l. induction l as [|a l IH]; intros bs H HP; cbn [smap] in H; [injection H as <-; constructor|].
  destruct (f a) as [b| | |] eqn:E; try discriminate H. cbn [sbind] in H. destruct (smap f l) as [r| | |] eqn:E2; try discriminate H. cbn [sbind] in H. injection H as <-.
  constructor; [apply (HP a); [left; reflexivity|exact E]|]. apply IH; auto. intros x y Hx. apply HP. right. exact Hx.
Qed.

Lemma blank_idle : forall e s, all_blank e s -> sub_pending s = false /\ existsb (fun sg => g_metadirty (s_g (sg_sys sg))) (sf_groups s) = false.
Proof.
  intros e s H. unfold all_blank in H. unfold sub_pending. induction H as [|sg l (B1 & B2 & _) _ [IH1 IH2]]; [split; reflexivity|]. cbn [existsb]. rewrite B1, B2, IH1, IH2. split; reflexivity.
Qed.

Lemma idle_ranks : forall np, existsb (fun st => negb (num_pending st =? 0)%nat) (repeat rank0 np) = false.
Proof. induction np; [reflexivity|]. cbn [repeat existsb]. rewrite IHnp. reflexivity. Qed.

Lemma reopen_blank : forall e s doffs nps s' out, sub_step e s (SReopen doffs nps) = SOk (s', out) -> all_blank e s'.
Proof.
  intros e s doffs nps s' out H. cbn [sub_step] in H. destruct (sub_flush doffs s) as [s1| | |]; try discriminate H. cbn [sbind] in H.
  destruct (sub_metaflush (sf_groups s1)) as [gs| | |]; try discriminate H. cbn [sbind] in H. destruct (smap _ _) as [gs'| | |] eqn:E; try discriminate H. cbn [sbind] in H. injection H as <- <-.
  unfold all_blank. cbn [with_groups sf_groups]. apply (smap_all _ _ _ _ _ _ E). intros [k np] sg _ Ho. cbn [fst snd] in Ho. unfold open_group in Ho.
  destruct (found _ k); [|discriminate Ho]. destruct (nth_error gs k); [|discriminate Ho]. destruct (lift _); try discriminate Ho. cbn [sbind] in Ho. injection Ho as <-.
  split; [apply idle_ranks|]. split; [reflexivity|]. split; [reflexivity|]. left. reflexivity.
Qed.

Lemma blank_step : forall e s o s' out, is_sort (e_sort e) -> has (sf_cfg s) CFG_SINGLE_SUBFILE_READ = true -> all_blank e s -> no_write o -> sub_step e s o = SOk (s', out) ->
  all_blank e s' /\
  match o with SRead _ calls => forall gid sg cs bs, nth_error (sf_groups s) gid = Some sg -> nth_error calls gid = Some cs -> nth_error out gid = Some bs ->
     smap (fill_only (s_g (sg_sys sg))) cs = SOk bs | _ => True end.
Proof.
  intros e s o s' out HS HC HB HN H. destruct o as [d|did dims|g rk did sels data|doffs|doffs calls|doffs nps]; [| |contradiction| | |].
  - cbn [sub_step] in H. destruct (smap _ _) as [gs| | |] eqn:E; try discriminate H. cbn [sbind] in H. injection H as <- <-. split; [|exact Logic.I]. unfold all_blank in *. cbn [with_groups sf_groups].
    apply (smap_all _ _ _ _ _ _ E). intros sg sg' Hi Hg. rewrite Forall_forall in HB. destruct (HB _ Hi) as (B1 & B2 & B3 & B4). unfold group_step in Hg. cbn [step] in Hg.
    destruct (create_info _ d); try discriminate Hg. cbn [bind lift sbind fst] in Hg. injection Hg as <-. repeat split; auto.
  - cbn [sub_step] in H. destruct (smap _ _) as [gs| | |] eqn:E; try discriminate H. cbn [sbind] in H. injection H as <- <-. split; [|exact Logic.I]. unfold all_blank in *. cbn [with_groups sf_groups].
    apply (smap_all _ _ _ _ _ _ E). intros sg sg' Hi Hg. rewrite Forall_forall in HB. destruct (HB _ Hi) as (B1 & B2 & B3 & B4). unfold group_step in Hg. cbn [step] in Hg.
    destruct (info_at _ did) as [[d|]|]; try discriminate Hg. destruct (set_extent _ d dims) as [d2 [|]]; [|discriminate Hg]. cbn [lift sbind fst] in Hg. injection Hg as <-. repeat split; auto.
  - cbn [sub_step] in H. destruct (blank_idle _ _ HB) as [P _]. rewrite P in H. cbn [sbind] in H. injection H as <- <-. auto.
  - cbn [sub_step] in H. destruct (blank_idle _ _ HB) as [P M]. rewrite P, Bool.andb_false_r in H. cbn [sbind] in H. unfold sub_read in H. rewrite HC, M in H. cbn [sbind] in H.
    destruct (smap _ _) as [rr| | |] eqn:E; try discriminate H. cbn [sbind] in H. injection H as <- <-.
    assert (R : forall p q, blank (e_kind e) (fst p) -> read_own e (fst p) (snd p) = SOk q -> blank (e_kind e) (fst q) /\ smap (fill_only (s_g (sg_sys (fst p)))) (snd p) = SOk (snd q)).
    { intros p q (B1 & B2 & B3 & B4) Hr. unfold read_own in Hr. destruct (read_each _ _ _ _) as [x| |] eqn:Ex; try discriminate Hr. cbn [lift sbind] in Hr. injection Hr as <-. cbn [fst snd].
      assert (V : g_mdsets (visible (fst p)) = []) by (unfold visible; cbn [g_mdsets]; rewrite B3; reflexivity).
      destruct (reads_blank _ _ _ _ _ HS V B4 Ex) as [R1 R2]. split; [split; [exact B1|split; [exact B2|split; [exact B3|exact R2]]]|exact R1]. }
    unfold all_blank in *. rewrite Forall_forall in HB. split.
    + cbn [with_groups sf_groups]. apply Forall_forall. intros sg Hi. apply in_map_iff in Hi. destruct Hi as (q & <- & Hq). apply In_nth_error in Hq. destruct Hq as [k Hk].
      destruct (smap_at _ _ _ _ _ _ _ E Hk) as (p & Hp & Ef). destruct (combine_from _ _ _ _ _ _ Hp) as [Q1 _]. apply (R p q); auto. apply HB. eapply nth_error_In; eauto.
    + intros gid sg cs bs Hg Hc Hb. rewrite nth_error_map in Hb. destruct (nth_error rr gid) as [q|] eqn:Eq; [|discriminate Hb]. cbn [option_map] in Hb. injection Hb as <-.
      destruct (smap_at _ _ _ _ _ _ _ E Eq) as (p & Hp & Ef). destruct (combine_from _ _ _ _ _ _ Hp) as [Q1 Q2]. assert (fst p = sg) by congruence. assert (snd p = cs) by congruence. subst sg cs.
      apply (R p q); auto. apply HB. eapply nth_error_In; eauto.
  - split; [eapply reopen_blank; eauto|exact Logic.I].
Qed.

Lemma own_legal : forall gid o ops t hi, legal_run true t hi (own_part gid (o :: ops)) ->
  legal_run true t hi (own gid o) /\ exists hi', legal_run true (fold_left (tstep true) (own gid o) t) hi' (own_part gid ops).
Proof.
  intros gid o ops t hi HL. unfold own_part in HL. cbn [flat_map] in HL. destruct (own gid o) as [|a [|b l]] eqn:Eo.
  - split; [exact Logic.I|]. exists hi. exact HL.
  - cbn [app legal_run] in HL. destruct HL as [L1 L2]. split; [split; [exact L1|exact Logic.I]|]. eexists. exact L2.
  - exfalso. destruct o; cbn in Eo; try discriminate Eo. destruct (gid0 =? gid)%nat; discriminate Eo.
Qed.

Lemma fills_correct : forall g t cs bs, Forall2 irel (g_infos g) (t_sets t) -> Forall set_good (t_sets t) ->
  Forall (fun c => rc_sels c <> [] /\ exists d, dataset_of t (rc_did c) d /\ Forall (block_in d) (rc_sels c)) cs ->
  smap (fill_only g) cs = SOk bs -> Forall2 (correct_read (nothing_written t)) cs bs.
Proof.
  intros g t cs bs HI HG. revert bs. induction cs as [|c cs IH]; intros bs HF Hs; cbn [smap] in Hs; [injection Hs as <-; constructor|]. apply Forall_cons_iff in HF. destruct HF as [[F1 F2] HF].
  destruct (fill_only _ c) as [b| | |] eqn:Ec; try discriminate Hs. cbn [sbind] in Hs. destruct (smap _ cs) as [r| | |]; try discriminate Hs. cbn [sbind] in Hs. injection Hs as <-.
  constructor; auto. eapply fill_only_correct; eauto.
Qed.

(** A history in two parts: until the reopening, and after it without writes. *)
Lemma described_any : forall e gid ops s t hi s' outs, described gid s t -> legal_run true t hi (own_part gid ops) -> sub_run e s ops = SOk (s', outs) ->
  described gid s' (fold_left (tstep true) (own_part gid ops) t) /\ sf_cfg s' = sf_cfg s /\ length outs = length ops.
Proof.
  intros e gid ops. induction ops as [|o ops IH]; intros s t hi s' outs HD HL HR; cbn [sub_run] in HR; [injection HR as <- <-; auto|].
  destruct (sub_step e s o) as [p| | |] eqn:E; try discriminate HR. cbn [sbind] in HR. destruct (sub_run e (fst p) ops) as [q| | |] eqn:E2; try discriminate HR. cbn [sbind] in HR. injection HR as <- <-.
  destruct p as [s1 out]. destruct q as [s2 outs]. cbn [fst snd] in *. destruct (own_legal _ _ _ _ _ HL) as (L1 & hi' & L2).
  destruct (described_step _ _ _ _ _ _ _ _ HD L1 E) as (D1 & D2 & _). destruct (IH s1 _ hi' _ _ D1 L2 E2) as (I1 & I2 & I3).
  unfold own_part. cbn [flat_map]. rewrite fold_left_app. split; [exact I1|]. split; [congruence|cbn; congruence].
Qed.

Lemma blank_run : forall e gid ops s t hi s' outs, is_sort (e_sort e) -> has (sf_cfg s) CFG_SINGLE_SUBFILE_READ = true -> all_blank e s -> Forall no_write ops ->
  described gid s t -> legal_run true t hi (own_part gid ops) -> sub_run e s ops = SOk (s', outs) ->
  forall i doffs calls bufs cs bs, nth_error ops i = Some (SRead doffs calls) -> nth_error outs i = Some bufs ->
    nth_error calls gid = Some cs -> nth_error bufs gid = Some bs ->
    Forall2 (correct_read (nothing_written (fold_left (tstep true) (own_part gid (firstn i ops)) t))) cs bs.
Proof.
  intros e gid ops. induction ops as [|o ops IH]; intros s t hi s' outs HS HC HB HN HD HL HR; cbn [sub_run] in HR; [intros [|i] doffs calls bufs cs bs H; discriminate H|].
  destruct (sub_step e s o) as [p| | |] eqn:E; try discriminate HR. cbn [sbind] in HR. destruct (sub_run e (fst p) ops) as [q| | |] eqn:E2; try discriminate HR. cbn [sbind] in HR. injection HR as <- <-.
  destruct p as [s1 out]. destruct q as [s2 outs]. cbn [fst snd] in *. destruct (own_legal _ _ _ _ _ HL) as (L1 & hi' & L2). apply Forall_cons_iff in HN. destruct HN as [N1 N2].
  destruct (described_step _ _ _ _ _ _ _ _ HD L1 E) as (D1 & D2 & _). destruct (blank_step _ _ _ _ _ HS HC HB N1 E) as [B1 B2].
  intros [|i] doffs calls bufs cs bs Hi Ho Hc Hb.
  - cbn [nth_error] in Hi, Ho. injection Hi as ->. injection Ho as ->. cbn [firstn own_part flat_map fold_left]. destruct HD as [G1 G2].
    assert (exists sg, nth_error (sf_groups s) gid = Some sg) as [sg Hg].
    { destruct (nth_error (sf_groups s) gid) as [sg|] eqn:Eg; [eauto|]. exfalso. cbn [sub_step] in E. destruct (blank_idle _ _ HB) as [P M]. rewrite P, Bool.andb_false_r in E. cbn [sbind] in E.
      unfold sub_read in E. rewrite HC, M in E. cbn [sbind] in E. destruct (smap _ _) as [rr| | |] eqn:Er; try discriminate E. cbn [sbind] in E. injection E as <- <-.
      rewrite nth_error_map in Hb. destruct (nth_error rr gid) as [q|] eqn:Eq; [|discriminate Hb]. destruct (smap_at _ _ _ _ _ _ _ Er Eq) as (p & Hp & _). destruct (combine_from _ _ _ _ _ _ Hp) as [Q _]. congruence. }
    cbn [own legal_run] in L1. destruct L1 as ((_ & _ & L1) & _). rewrite (nth_error_nth calls gid [] Hc) in L1.
    eapply fills_correct; eauto.
  - cbn [nth_error] in Hi, Ho. cbn [firstn]. unfold own_part. cbn [flat_map]. rewrite fold_left_app. eapply (IH s1); eauto. congruence.
Qed.

Lemma run_parts : forall e a b s s' outs, sub_run e s (a ++ b) = SOk (s', outs) ->
  exists s1 o1 o2, sub_run e s a = SOk (s1, o1) /\ sub_run e s1 b = SOk (s', o2) /\ outs = o1 ++ o2.
Proof.
  intros e a. induction a as [|o a IH]; intros b s s' outs H; [exists s, [], outs; auto|]. cbn [app sub_run] in H.
  destruct (sub_step e s o) as [p| | |] eqn:E; try discriminate H. cbn [sbind] in H. destruct (sub_run e (fst p) (a ++ b)) as [q| | |] eqn:E2; try discriminate H. cbn [sbind] in H. injection H as <- <-.
  destruct q as [s2 outs]. destruct (IH _ _ _ _ E2) as (s1 & o1 & o2 & R1 & R2 & R3). exists s1, (snd p :: o1), o2. cbn [sub_run]. rewrite E. cbn [sbind]. rewrite R1. cbn [sbind fst snd]. subst. auto.
Qed.

Lemma legal_parts : forall a b t hi, legal_run true t hi (a ++ b) -> legal_run true t hi a /\ exists hi', legal_run true (fold_left (tstep true) a t) hi' b.
Proof. induction a as [|o a IH]; intros b t hi H; [split; [exact Logic.I|exists hi; exact H]|]. cbn [app legal_run] in H. destruct H as [H1 H2]. destruct (IH _ _ _ H2) as (I1 & I2). split; [split; auto|exact I2]. Qed.

Lemma forgets : forall e name cfg nps f0 ops1 doffs0 nps0 ops2 s outs, is_sort (e_sort e) -> has cfg CFG_SINGLE_SUBFILE_READ = true -> Forall no_write ops2 ->
  sub_run e (sub_init name cfg nps f0) (ops1 ++ SReopen doffs0 nps0 :: ops2) = SOk (s, outs) ->
  forall gid np, nth_error nps gid = Some np -> legal_history true np (own_part gid (ops1 ++ SReopen doffs0 nps0 :: ops2)) ->
  forall i doffs calls bufs cs bs, nth_error ops2 i = Some (SRead doffs calls) -> nth_error outs (length ops1 + 1 + i) = Some bufs ->
    nth_error calls gid = Some cs -> nth_error bufs gid = Some bs ->
    Forall2 (correct_read (nothing_written (trace_of true np (own_part gid (ops1 ++ SReopen doffs0 nps0 :: firstn i ops2))))) cs bs.
Proof.
  intros e name cfg nps f0 ops1 doffs0 nps0 ops2 s outs HS HC HN HR gid np Hn (_ & _ & _ & HL) i doffs calls bufs cs bs Hi Ho Hc Hb.
  change (ops1 ++ SReopen doffs0 nps0 :: ops2) with (ops1 ++ [SReopen doffs0 nps0] ++ ops2) in HR, HL. change (SReopen doffs0 nps0 :: firstn i ops2) with ([SReopen doffs0 nps0] ++ firstn i ops2).
  rewrite app_assoc in *. destruct (run_parts _ _ _ _ _ _ HR) as (s1 & o1 & o2 & R1 & R2 & ->).
  unfold own_part in HL. rewrite flat_map_app in HL. destruct (legal_parts _ _ _ _ HL) as (L1 & hi & L2).
  assert (D : described gid (sub_init name cfg nps f0) (mktr [] [] (repeat [] np))).
  { split; [constructor|]. intros sg Hsg. cbn [sub_init sf_groups] in Hsg. rewrite nth_error_map, Hn in Hsg. cbn in Hsg. injection Hsg as <-. constructor. }
  destruct (described_any _ _ _ _ _ _ _ _ D L1 R1) as (D1 & D2 & D3).
  assert (B : all_blank e s1).
  { destruct (run_parts _ _ _ _ _ _ R1) as (s2 & q1 & q2 & _ & R4 & _). cbn [sub_run] in R4. destruct (sub_step e s2 _) as [[s3 x]| | |] eqn:E; try discriminate R4. cbn [sbind fst snd] in R4. injection R4 as <- _. eapply reopen_blank; eauto. }
  rewrite app_length in D3. cbn [length] in D3. rewrite nth_error_app2 in Ho by lia. replace (length ops1 + 1 + i - length o1)%nat with i in Ho by lia.
  assert (C1 : has (sf_cfg s1) CFG_SINGLE_SUBFILE_READ = true) by (rewrite D2; exact HC).
  pose proof (blank_run _ _ _ _ _ _ _ _ HS C1 B HN D1 L2 R2 i doffs calls bufs cs bs Hi Ho Hc Hb) as F. unfold trace_of. unfold own_part in *. rewrite flat_map_app, fold_left_app. exact F.
Qed.
