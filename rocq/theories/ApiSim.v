(** Histories of API calls: every legal one runs and every read is right. *)
From Verif Require Import Base BaseProofs Spec MetaModel QueueModel FlushModel IndexModel ReadModel SelModel SelSpec SysModel
  SysSpec History GeomProofs HistoryProofs ReadProofs HitProofs StoreProofs ReadOneProofs ClaimProofs SizedProofs SelProofs SelProofs2 SelProofs3 SelClaims SelClaims2 SelClaims3
  ShapeProofs DefSpec DefProofs ApiModel ApiSpec ApiProofs.
From Coq Require Import ZifyNat ZifyN Permutation.

(** Invariant of the described datasets. *)
Definition sound (d : dinfo) : Prop :=
  0 < di_esize d /\ Forall (fun x => 0 <= x) (di_dims d) /\ length (di_mdims d) = length (di_dims d).

Lemma extent_sound : forall d dims, extent_ok d dims -> Forall (fun x => 0 <= x) dims /\ length (di_mdims d) = length dims.
Proof. intros d dims H. unfold extent_ok in H. induction H as [|x m l l' [H1 _] _ [IH1 IH2]]; cbn; auto. Qed.

Lemma upd_Forall : forall A (P : A -> Prop) l n x, Forall P l -> P x -> Forall P (upd_nth n x l).
Proof. induction l as [|y l IH]; intros n x HF HP; [destruct n; auto|]. apply Forall_cons_iff in HF. destruct HF. destruct n; cbn; auto. Qed.

(** Operation [o] of the inner model is what call [u] is turned into. *)
Definition lowers (order : list (list Z) -> list nat) (t : trace) (u : ucall) (o : op) : Prop :=
  match u, o with
  | UCreate d, OCreate d' => d' = d
  | UExtent did dims, OSetExtent did' dims' => did' = did /\ dims' = dims
  | UWrite rk a ps, OWrite rk' did sels data => rk' = rk /\ did = ac_did a /\
      forall infos, known infos (t_sets t) -> lower_write order infos a = Ok (sels, data)
  | UFlush doff, OFlush doff' => doff' = doff
  | URead doff l, ORead doff' cs => doff' = doff /\ Forall2 (fun ap c => reads_as order t (fst ap) (snd ap) c) l cs
  | UReopen doff np, OReopen doff' np' => doff' = doff /\ np' = np
  | _, _ => False
  end.

Lemma dataset_sound : forall t did d, Forall sound (t_sets t) -> Forall sized_set (t_sets t) -> dataset_of t did d ->
  sound d /\ fits_int (di_dims d).
Proof.
  intros t did d HS HZ [_ H]. apply nth_error_In in H. rewrite Forall_forall in *. split; auto. apply sized_int; auto. apply (HS d H).
Qed.

Lemma lower_call : forall order t hi u, is_order order -> Forall sound (t_sets t) -> Forall sized_set (t_sets t) -> legal_call t hi u ->
  (match u with
   | UWrite _ a _ => forall d sels, dataset_of t (ac_did a) d -> normalize order (di_dims d) (file_part a) = Ok sels -> Zlen sels <= 4000000
   | _ => True end) ->
  exists o, lowers order t u o /\ legal_op t hi o /\ sized_op o /\ tstep true t o = ustep t u /\ log_end t hi o = ulog_end t hi u /\
    Forall sound (t_sets (ustep t u)).
Proof.
  intros order t hi u HO HS HZ HL HM. destruct u as [d|did dims|rk a ps|doff|doff l|doff np].
  - exists (OCreate d). destruct HL as (L1 & L2 & L3). repeat (split; [cbn; auto|]). cbn. apply Forall_app. split; auto. constructor; auto.
    destruct (extent_sound _ _ L2). repeat split; auto.
  - exists (OSetExtent did dims). repeat (split; [cbn; auto|]). destruct HL as (d & [D1 D2] & D3). cbn. rewrite D2.
    destruct (extent_sound _ _ D3). apply upd_Forall; auto. destruct (dataset_sound _ _ _ HS HZ (conj D1 D2)) as ((A & B & C) & _). repeat split; auto.
  - destruct HL as (L1 & L2 & d & L3 & L4 & L5). destruct (dataset_sound _ _ _ HS HZ L3) as ((A & B & C) & F).
    destruct (lower_write_ok order t a ps d HO L3 A F L2 L4 L5) as (sels & data & W1 & W2 & W3 & W4 & W5).
    exists (OWrite rk (ac_did a) sels data). split; [cbn; auto|]. split. { cbn. split; auto. exists d. auto. }
    split. { cbn. eapply HM; eauto. } split; [|auto]. cbn. unfold esize_at. destruct L3 as [_ L3]. rewrite L3, W5. reflexivity.
  - exists (OFlush doff). repeat (split; [cbn; auto|]). auto.
  - destruct HL as (L1 & L2 & L3).
    assert (HX : exists cs, Forall2 (fun ap c => reads_as order t (fst ap) (snd ap) c) l cs /\
      Forall (fun c => rc_sels c <> [] /\ exists d, dataset_of t (rc_did c) d /\ Forall (block_in d) (rc_sels c)) cs /\
      Forall (fun c => ForallOrdPairs disjoint_blocks (rc_sels c)) cs).
    { clear L1 L2 HM. induction L3 as [|ap l (A1 & A2 & A3 & A4 & d & A5 & A6 & A7) _ (cs & I1 & I2 & I3)]; [exists []; auto|].
      destruct (dataset_sound _ _ _ HS HZ A5) as ((A & B & C) & F).
      destruct (lower_read_ok order t (fst ap) (snd ap) d HO A5 A F A2 A6 A7 A1 A3 A4) as (c & B1 & B2 & B3 & B4 & B5).
      exists (c :: cs). split; [constructor; auto|]. split; constructor; auto. split; auto. exists d. rewrite B1. auto. }
    destruct HX as (cs & X1 & X2 & X3). exists (ORead doff cs). split; [cbn; auto|]. split.
    { cbn. split; auto. split; auto. intros ->. inversion X1. congruence. }
    split; [cbn; auto|]. split; [reflexivity|]. split; [reflexivity|]. auto.
  - exists (OReopen doff np). repeat (split; [cbn; auto|]). auto.
Qed.

Fixpoint lowered (order : list (list Z) -> list nat) (t : trace) (us : list ucall) (ops : list op) : Prop :=
  match us, ops with
  | [], [] => True
  | u :: us', o :: ops' => lowers order t u o /\ tstep true t o = ustep t u /\ lowered order (ustep t u) us' ops'
  | _, _ => False
  end.

Lemma lower_calls : forall order, is_order order -> forall us t hi, Forall sound (t_sets t) -> legal_calls t hi us -> sized_calls order t us ->
  exists ops, lowered order t us ops /\ legal_run true t hi ops /\ sized_run true t ops /\ length ops = length us.
Proof.
  intros order HO. induction us as [|u us IH]; intros t hi HS HL HZ.
  - exists []. cbn in *. destruct HZ. repeat split; auto.
  - destruct HL as [L1 L2]. destruct HZ as (Z1 & Z2 & Z3).
    destruct (lower_call order t hi u HO HS Z1 L1 Z2) as (o & O1 & O2 & O3 & O4 & O5 & O6).
    destruct (IH _ _ O6 L2 Z3) as (ops & P1 & P2 & P3 & P4). exists (o :: ops). split; [cbn; auto|]. split.
    { cbn. split; auto. rewrite O4, O5. auto. } split; [|cbn; lia]. split; auto. split; auto. rewrite O4. auto.
Qed.

(** ** The dataset table of the connector follows *)
Lemma set_dims_all : forall dims mdims new r, length mdims = length dims -> length new = length dims -> set_dims dims mdims new = (r, true) -> r = new.
Proof.
  induction dims as [|d dims IH]; intros [|m mdims] [|n new] r H1 H2 H; try discriminate; [cbn in H; congruence|]. cbn [set_dims] in H. cbn in H1, H2.
  destruct (negb (m =? UNLIMITED) && (m <? n)); [discriminate|]. destruct (set_dims dims mdims new) as [r' ok] eqn:E.
  assert (ok = true) by congruence. subst ok. assert (r = n :: r') by congruence. subst r. f_equal. eapply IH; [| |exact E]; lia.
Qed.

Lemma create_keeps : forall cfg d d', create_info cfg d = Ok d' -> di_esize d' = di_esize d /\ di_dims d' = di_dims d /\ di_mdims d' = di_mdims d.
Proof.
  intros cfg d d'. unfold create_info. destruct (has cfg CFG_SEL_ENCODE); [|intros H; injection H as <-; auto].
  destruct (di_ndim d =? 0)%nat; [discriminate|]. intros H. injection H as <-. auto.
Qed.

Lemma reopen_known : forall cfg sets infos infos', known infos sets -> reopen_infos cfg infos = Ok infos' -> known infos' sets.
Proof.
  intros cfg sets infos infos' H. revert infos'. induction H as [|o d infos sets (i & I1 & I2 & I3 & I4 & I5) _ IH]; intros infos' HR; [injection HR as <-; constructor|].
  subst o. cbn [reopen_infos] in HR. destruct (create_info cfg i) as [i'| |] eqn:E; try discriminate. cbn [bind] in HR.
  destruct (reopen_infos cfg infos) as [r| |] eqn:E2; try discriminate. injection HR as <-. constructor; [|apply IH; reflexivity].
  destruct (create_keeps _ _ _ E) as (K1 & K2 & K3). exists i'. rewrite K1, K2, K3. auto.
Qed.

Lemma flush_infos : forall doff g, g_infos (flush_writes doff g) = g_infos g.
Proof. intros. unfold flush_writes. destruct (_ =? 0); reflexivity. Qed.

Lemma known_upd : forall infos sets n i d, known infos sets ->
  di_esize i = di_esize d -> di_dims i = di_dims d -> length (di_mdims i) = length (di_dims i) -> di_mdims i = di_mdims d ->
  known (upd_nth n (Some i) infos) (upd_nth n d sets).
Proof.
  intros infos sets n i d H A B C D. revert n. induction H as [|o d0 infos sets H0 HF IH]; intros n; [destruct n; constructor|].
  destruct n; cbn; constructor; auto; [|apply IH]. exists i. auto.
Qed.

Lemma step_known : forall e s o s' outs t hi, e_coll e = true -> step e s o = Ok (s', outs) -> legal_op t hi o ->
  known (g_infos (s_g s)) (t_sets t) -> known (g_infos (s_g s')) (t_sets (tstep true t o)).
Proof.
  intros e s o s' outs t hi HE HS HL HK. destruct o as [d|did dims|rk did sels data|doff|doff calls|doff np]; cbn [step] in HS.
  - destruct (create_info (g_cfg (s_g s)) d) as [d'| |] eqn:E; try discriminate. cbn [bind] in HS. assert (s' = mksys (set_infos (s_g s) (g_infos (s_g s) ++ [Some d'])) (s_idx s)) by congruence. subst s'.
    cbn. unfold known. apply Forall2_app; auto. constructor; [|constructor]. destruct (create_keeps _ _ _ E) as (K1 & K2 & K3).
    exists d'. rewrite K1, K2, K3. destruct HL as (_ & L2 & _). destruct (extent_sound _ _ L2). auto.
  - destruct HL as (d & D1 & D2). destruct D1 as [D0 D1]. unfold known in HK.
    assert (HI : exists i, info_at (g_infos (s_g s)) did = Some (Some i) /\ di_esize i = di_esize d /\ di_dims i = di_dims d /\ length (di_mdims i) = length (di_dims i) /\ di_mdims i = di_mdims d).
    { unfold info_at. destruct (Z.ltb_spec did 0); [lia|]. clear - HK D1. revert D1. generalize (Z.to_nat did) as n. induction HK as [|o d0 infos sets (i & I) HF IH]; intros n HN; [destruct n; discriminate|].
      destruct n; [|apply IH; auto]. cbn in HN. injection HN as ->. destruct I as (-> & I). exists i. auto. }
    destruct HI as (i & I1 & I2 & I3 & I4 & I5). rewrite I1 in HS. unfold set_extent in HS.
    destruct (set_dims (di_dims i) (di_mdims i) dims) as [r ok] eqn:ED. destruct ok; [|discriminate].
    destruct (extent_sound _ _ D2) as [X1 X2].
    assert (r = dims) by (eapply set_dims_all; [| |exact ED]; congruence). subst r.
    assert (EQ : g_infos (s_g s') = upd_nth (Z.to_nat did) (Some (mkdinfo (di_esize i) dims (di_mdims i)
          (if has (g_cfg (s_g s)) CFG_SEL_ENCODE then dsteps_of dims else di_dsteps i) (di_fill i))) (g_infos (s_g s))).
    { assert (Q : forall (x y : sys) (a b : list (list Z)), Ok (x, a) = Ok (y, b) -> x = y) by congruence. apply Q in HS. subst s'. reflexivity. }
    rewrite EQ. cbn [tstep t_sets]. rewrite D1. apply known_upd; cbn; auto. congruence.
  - destruct (nth_error (g_ranks (s_g s)) rk) as [st|]; [|discriminate].
    destruct (ds_write (e_zlib e) (g_cfg (s_g s)) (g_infos (s_g s)) st did sels data) as [st'| |]; try discriminate. cbn [bind] in HS.
    assert (s' = mksys (set_ranks (s_g s) (upd_nth rk st' (g_ranks (s_g s)))) (s_idx s)) by congruence. subst s'. exact HK.
  - assert (s' = mksys (if any_pending (s_g s) then flush_writes doff (s_g s) else s_g s) (s_idx s)) by congruence. subst s'. cbn.
    destruct (any_pending (s_g s)); [rewrite flush_infos|]; auto.
  - rewrite HE in HS. cbn [andb] in HS. set (g1 := if any_pending (s_g s) then flush_writes doff (s_g s) else s_g s) in *.
    set (g2 := if g_metadirty g1 then metaflush g1 else g1) in *.
    destruct (read_each e g2 _ calls) as [[p q]| |]; try discriminate. cbn [bind fst snd] in HS.
    assert (E : s_g s' = g2) by (assert (s' = mksys g2 q) by congruence; subst s'; reflexivity). rewrite E. cbn [tstep t_sets].
    assert (E1 : g_infos g1 = g_infos (s_g s)) by (unfold g1; destruct (any_pending (s_g s)); [apply flush_infos|reflexivity]).
    assert (E2 : g_infos g2 = g_infos g1) by (unfold g2; destruct (g_metadirty g1); reflexivity). rewrite E2, E1. auto.
  - destruct (reopen_infos (g_cfg (s_g s)) (g_infos (s_g s))) as [is| |] eqn:E; try discriminate. cbn [bind] in HS.
    assert (g_infos (s_g s') = is).
    { assert (Q : forall (x y : sys) (a b : list (list Z)), Ok (x, a) = Ok (y, b) -> x = y) by congruence. apply Q in HS. subst s'. reflexivity. }
    rewrite H. cbn. eapply reopen_known; eauto.
Qed.

(** ** Running the calls *)
Lemma lower_reads_ok : forall order t infos l cs, known infos (t_sets t) -> Forall2 (fun ap c => reads_as order t (fst ap) (snd ap) c) l cs ->
  lower_reads order infos (map fst l) = Ok cs.
Proof. intros order t infos l cs HK H. induction H as [|ap c l cs [H1 _] _ IH]; [reflexivity|]. cbn. rewrite (H1 _ HK). cbn. rewrite IH. reflexivity. Qed.

Lemma finish_reads_ok : forall order t infos pub l cs, known infos (t_sets t) -> Forall2 (fun ap c => reads_as order t (fst ap) (snd ap) c) l cs ->
  forall bufs, Forall2 (correct_read (mktr (t_sets t) pub [])) cs bufs ->
  exists ms, finish_reads order infos (map fst l) cs bufs = Ok ms /\ Forall2 (fun ap m => correct_memory (t_sets t) pub (fst ap) (snd ap) m) l ms.
Proof.
  intros order t infos pub l cs HK H. induction H as [|ap c l cs [_ H1] _ IH]; intros bufs HB.
  - inversion HB. subst. exists []. split; [reflexivity|constructor].
  - inversion HB as [|c' b cs' bufs' B1 B2]. subst. destruct (H1 infos pub b HK B1) as (m & M1 & M2). destruct (IH _ B2) as (ms & S1 & S2).
    exists (m :: ms). cbn. rewrite M1. cbn. rewrite S1. split; [reflexivity|constructor; auto].
Qed.

Lemma sim_run : forall order e, e_coll e = true -> forall us ops t hi s s' outs, lowered order t us ops -> known (g_infos (s_g s)) (t_sets t) ->
  legal_run true t hi ops -> run e s ops = Ok (s', outs) ->
  (forall i doff calls, nth_error ops i = Some (ORead doff calls) -> exists bufs, nth_error outs i = Some bufs /\
     let t' := fold_left (tstep true) (firstn i ops) t in
     Forall2 (correct_read (mktr (t_sets t') (t_pub t' ++ concat (t_pend t')) [])) calls bufs) ->
  exists mems, arun e order s (map call_of us) = Ok (s', mems) /\ length mems = length us /\
    forall i doff l, nth_error us i = Some (URead doff l) -> exists ms, nth_error mems i = Some ms /\
      let t' := fold_left ustep (firstn i us) t in
      Forall2 (fun ap m => correct_memory (t_sets t') (publish t') (fst ap) (snd ap) m) l ms.
Proof.
  intros order e HE. induction us as [|u us IH]; intros [|o ops] t hi s s' outs HLo HK HL HR HC; cbn [lowered] in HLo; try contradiction.
  - cbn in HR. injection HR as <- <-. exists []. split; [reflexivity|]. split; auto. intros [|i]; discriminate.
  - destruct HLo as (O1 & O2 & O3). destruct HL as [L1 L2]. cbn [run] in HR.
    destruct (step e s o) as [[s1 out]| |] eqn:ES; try discriminate. cbn [bind fst snd] in HR.
    destruct (run e s1 ops) as [[s2 outs2]| |] eqn:ER; try discriminate. cbn [bind fst snd] in HR.
    assert (s2 = s' /\ outs = out :: outs2) as [-> ->] by (split; congruence). clear HR.
    pose proof (step_known _ _ _ _ _ _ _ HE ES L1 HK) as HK1. rewrite O2 in HK1, L2.
    destruct (IH ops (ustep t u) _ s1 s' outs2 O3 HK1 L2 ER) as (mems & M1 & M2 & M3).
    { intros i doff calls Hi. specialize (HC (S i) doff calls Hi). cbn [nth_error firstn fold_left] in HC. rewrite O2 in HC. exact HC. }
    assert (HA : exists ms, astep e order s (call_of u) = Ok (s1, ms) /\
      match u with URead _ l => Forall2 (fun ap m => correct_memory (t_sets t) (publish t) (fst ap) (snd ap) m) l ms | _ => True end).
    { destruct u as [d|did dims|rk a ps|doff|doff l|doff np], o; cbn [lowers] in O1; try contradiction; cbn [call_of astep].
      - subst. rewrite ES. exists []. auto.
      - destruct O1 as [-> ->]. rewrite ES. exists []. auto.
      - destruct O1 as (-> & -> & O1). rewrite (O1 _ HK). cbn [bind fst snd]. rewrite ES. exists []. auto.
      - subst. rewrite ES. exists []. auto.
      - destruct O1 as [-> O1]. rewrite (lower_reads_ok _ _ _ _ _ HK O1). cbn [bind]. rewrite ES. cbn [bind fst snd].
        destruct (HC 0%nat doff calls eq_refl) as (bufs & B1 & B2). cbn [nth_error] in B1. injection B1 as <-. cbn [firstn fold_left] in B2.
        destruct (finish_reads_ok _ _ _ _ _ _ HK O1 _ B2) as (ms & F1 & F2). rewrite F1. exists ms. auto.
      - destruct O1 as [-> ->]. rewrite ES. exists []. auto. }
    destruct HA as (ms & A1 & A2). exists (ms :: mems). cbn [map arun]. rewrite A1. cbn [bind fst snd]. rewrite M1. split; [reflexivity|].
    split; [cbn; lia|]. intros [|i] doff l Hi; [|cbn [nth_error firstn fold_left] in *; eauto].
    cbn in Hi. assert (u = URead doff l) by congruence. subst u. exists ms. split; auto.
Qed.

Lemma api_reads : forall e order cfg np f0 us,
  e_coll e = true -> e_limit e = None -> is_sort (e_sort e) -> is_order order -> plain_cfg cfg ->
  has cfg CFG_SEL_ENCODE = false -> has cfg CFG_METADATA_SHARE = false ->
  legal_program order np us ->
  exists s mems, arun e order (init cfg np f0) (map call_of us) = Ok (s, mems) /\ length mems = length us /\
    forall i doff l, nth_error us i = Some (URead doff l) ->
      exists ms, nth_error mems i = Some ms /\
        let t := utrace np (firstn i us) in
        Forall2 (fun ap m => correct_memory (t_sets t) (publish t) (fst ap) (snd ap) m) l ms.
Proof.
  intros e order cfg np f0 us H1 H2 H3 H4 H5 H6 H7 (P1 & P2 & P3 & P4 & P5).
  destruct (lower_calls order H4 us (mktr [] [] (repeat [] np)) 0 (Forall_nil _) P4 P5) as (ops & O1 & O2 & O3 & O4).
  destruct (coordinate_reads_all e cfg np f0 ops H1 H2 H3 H5 H6 H7) as (s & outs & R1 & R2 & R3).
  { unfold legal_history. rewrite O4. auto. } { exact O3. }
  destruct (sim_run order e H1 us ops _ 0 (init cfg np f0) s outs O1) as (mems & M1 & M2 & M3); auto.
  { constructor. }
  exists s, mems. split; auto. 
Qed.

(** ** Any configuration *)
Lemma known_self : forall sets, Forall sound sets -> known (map Some sets) sets.
Proof. induction 1 as [|d sets (A & B & C) _ IH]; constructor; auto. exists d. auto. Qed.

Lemma op_of_lowers : forall order t u o, Forall sound (t_sets t) -> lowers order t u o -> op_of order (t_sets t) u = Ok o.
Proof.
  intros order t u o HS HL. pose proof (known_self _ HS) as HK. destruct u, o; cbn [lowers] in HL; try contradiction; cbn [op_of].
  - subst. reflexivity.
  - destruct HL as [-> ->]. reflexivity.
  - destruct HL as (-> & -> & HL). rewrite (HL _ HK). reflexivity.
  - subst. reflexivity.
  - destruct HL as [-> HL]. rewrite (lower_reads_ok _ _ _ _ _ HK HL). reflexivity.
  - destruct HL as [-> ->]. reflexivity.
Qed.

Lemma lower_calls_ops : forall order, is_order order -> forall us t hi, Forall sound (t_sets t) -> legal_calls t hi us -> sized_calls order t us ->
  exists ops, lowered order t us ops /\ legal_run true t hi ops /\ ops_of order t us = Ok ops /\ sized_run true t ops /\ length ops = length us.
Proof.
  intros order HO. induction us as [|u us IH]; intros t hi HS HL HZ.
  - exists []. cbn in *. destruct HZ. repeat split; auto.
  - destruct HL as [L1 L2]. destruct HZ as (Z1 & Z2 & Z3).
    destruct (lower_call order t hi u HO HS Z1 L1 Z2) as (o & O1 & O2 & O3 & O4 & O5 & O6).
    destruct (IH _ _ O6 L2 Z3) as (ops & P1 & P2 & P3 & P4 & P5). exists (o :: ops). split; [cbn; auto|]. split.
    { cbn. split; auto. rewrite O4, O5. auto. } split. { cbn [ops_of]. rewrite (op_of_lowers _ _ _ _ HS O1). cbn [bind]. rewrite P3. reflexivity. }
    split; [|cbn; lia]. split; auto. split; auto. rewrite O4. auto.
Qed.

Lemma api_reads_any : forall e order cfg cv np f0 us, e_coll e = true -> is_order order -> legal_program order np us ->
  exists ops, operations order np us = Ok ops /\ (ok_history e cfg cv np ops ->
    exists s mems, arun e order (init cfg np f0) (map call_of us) = Ok (s, mems) /\ length mems = length us /\
      forall i doff l, nth_error us i = Some (URead doff l) ->
        exists ms, nth_error mems i = Some ms /\
          let t := utrace np (firstn i us) in
          Forall2 (fun ap m => correct_memory (t_sets t) (publish t) (fst ap) (snd ap) m) l ms).
Proof.
  intros e order cfg cv np f0 us H1 H2 (P1 & P2 & P3 & P4 & P5).
  destruct (lower_calls_ops order H2 us (mktr [] [] (repeat [] np)) 0 (Forall_nil _) P4 P5) as (ops & O1 & O2 & O3 & _).
  exists ops. split; [exact O3|]. intros HO.
  destruct (all_reads_correct _ _ _ _ f0 _ HO) as (s & outs & R1 & R2 & R3).
  destruct (sim_run order e H1 us ops _ 0 (init cfg np f0) s outs O1) as (mems & M1 & M2 & M3); auto.
  { constructor. }
  { intros i doff calls Hi. destruct (R3 i doff calls Hi) as (bufs & B1 & B2). exists bufs. split; auto. cbv zeta.
    rewrite (firstn_S_app _ _ _ _ Hi), H1, trace_snoc in B2. cbn [tstep] in B2.
    eapply Forall2_weak; [|exact B2]. intros c b. unfold correct_read. cbn [t_sets t_pub]. auto. }
  exists s, mems. split; auto.
Qed.

Lemma api_reads_default : forall e order cfg np f0 us,
  e_coll e = true -> e_limit e = None -> is_sort (e_sort e) -> e_kind e = KCompact -> is_order order -> plain_cfg cfg ->
  legal_program order np us ->
  exists ops, operations order np us = Ok ops /\ (default_history np ops ->
    exists s mems, arun e order (init cfg np f0) (map call_of us) = Ok (s, mems) /\ length mems = length us /\
      forall i doff l, nth_error us i = Some (URead doff l) ->
        exists ms, nth_error mems i = Some ms /\
          let t := utrace np (firstn i us) in
          Forall2 (fun ap m => correct_memory (t_sets t) (publish t) (fst ap) (snd ap) m) l ms).
Proof.
  intros e order cfg np f0 us H1 H2 H3 H4 H5 H6 HP.
  destruct (api_reads_any e order cfg dcv np f0 us H1 H5 HP) as (ops & O1 & O2). exists ops. split; auto. intros HD. apply O2.
  destruct HP as (P1 & P2 & P3 & P4 & P5).
  destruct (lower_calls_ops order H5 us (mktr [] [] (repeat [] np)) 0 (Forall_nil _) P4 P5) as (ops' & Q1 & Q2 & Q3 & Q4 & Q5).
  assert (ops' = ops) by (unfold operations in O1; congruence). subst ops'.
  apply default_ok; auto. unfold legal_history. rewrite Q5. auto.
Qed.
