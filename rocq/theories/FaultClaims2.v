(** Lemmas behind P_Fault.v, continued: how the zeros arise, datasets created in part, H5Fclose twice. *)
From Verif Require Import Base BaseProofs Spec MetaModel QueueModel FlushModel IndexModel ReadModel SysModel
  SysSpec History FlushProofs SysProofs HistoryProofs AnySpec AnyProofs TameSpec TameProofs LogClaims CrashModel CrashSpec CrashProofs CrashClaims CrashClaims2 FaultModel FaultSpec FaultProofs FaultSim FaultClaims FaultZero.
From Coq Require Import ZifyNat ZifyN.

(** ** A metadata dataset that is created and not written *)
Lemma zero_read : forall e s dk doff calls x1, synced (s_g s) dk -> fstep e (mkfs s dk false) (Call puts_meta (ORead doff calls)) = Ok (x1, None) -> exists m size, zeroed m size x1.
Proof.
  intros e s dk doff calls x1 Y H. unfold fstep in H. cbn [x_sys x_disk x_dead refused orb] in H. cbn [effects] in H. rewrite attempt_app in H.
  set (c := e_coll e && any_pending (s_g s)) in *. set (g1 := if c then flush_writes doff (s_g s) else s_g s) in *. set (fe := if c then flush_effects doff (s_g s) else []) in *.
  destruct (flush_synced_if c doff _ _ Y) as (dk1 & F1 & F2 & _). fold fe in F1. fold g1 in F2.
  assert (NB : forall y, In y fe -> puts_meta y = false).
  { subst fe. destruct c; [|intros y []]. unfold flush_effects. destruct (_ =? 0); [intros y []|]. intros y [<-|Hy]; auto. apply in_map_iff in Hy. destruct Hy as (p & <- & _). reflexivity. }
  rewrite (attempt_ok _ _ _ _ _ NB F1) in H. cbn [Nat.add] in H.
  destruct (attempt puts_meta (length fe) dk1 (if g_metadirty g1 then meta_effects g1 else [])) as [dk2 [k|]] eqn:A.
  2:{ destruct (step _ _ _); cbn [bind] in H; discriminate. }
  injection H as <-. destruct (g_metadirty g1) eqn:Dt; [|discriminate]. unfold meta_effects in A. destruct (Z.ltb_spec (8 * (Zlen (g_ranks g1) + 1)) (Zsum (meta_sizes (g_ranks g1)))) as [Lt|]; [|discriminate].
  cbn [attempt] in A. change (puts_meta (XMd _ _)) with false in A. cbn [apply] in A. destruct (y_mds _ _ F2) as (ms & M1 & M2).
  assert (L : Zlen (g_mdsets g1) = Zlen ms) by (rewrite <- M2; unfold Zlen; rewrite map_length; reflexivity). rewrite L, M1, find_next in A.
  destruct (combine _ _) as [|p ps]; [discriminate|]. cbn [map attempt] in A. change (puts_meta (XMdPut _ _ _)) with true in A. cbn iota in A. injection A as <- <-.
  exists (length (g_mdsets g1)), (Zsum (meta_sizes (g_ranks g1))). assert (Hs : 8 < Zsum (meta_sizes (g_ranks g1))) by (unfold Zlen in Lt; lia).
  assert (Fk : find_key (Z.of_nat (length (g_mdsets g1))) (number ms ++ [(Zlen ms, (Zsum (meta_sizes (g_ranks g1)), fun _ => 0))]) = Some (Zsum (meta_sizes (g_ranks g1)), fun _ => 0)).
  { change (Z.of_nat (length (g_mdsets g1))) with (Zlen (g_mdsets g1)). rewrite L. clear - ms. pose proof (find_next _ ms) as Q. revert Q. generalize (number ms). induction l as [|q l IH]; cbn; [rewrite Z.eqb_refl; auto|]. destruct (_ =? _); [discriminate|auto]. }
  cbn [orphan stopped closes_file]. fold c. fold g1.
  assert (Le : (if c then length (flush_effects doff (s_g s)) else 0%nat) = length fe) by (subst fe; destruct c; reflexivity). rewrite Le.
  destruct (Nat.ltb_spec (S (length fe)) (length fe)) as [|_]; [lia|]. replace (S (length fe) - length fe)%nat with 1%nat by lia.
  constructor; auto; cbn [x_sys x_disk x_dead s_g s_idx stopped_meta g_mdsets g_metadirty dk_mds]; auto.
  rewrite nth_error_app2, Nat.sub_diag by lia. cbn [nth_error]. change (Zlen (g_mdsets g1)) with (Z.of_nat (length (g_mdsets g1))). rewrite Fk. cbn [fst snd]. rewrite get_zero. reflexivity.
Qed.
Lemma lost_write_meta : forall e cfg np f0 ops s outs doff calls rest x os, run e (init cfg np f0) ops = Ok (s, outs) ->
  frun e (fstart cfg np f0) (map fine ops ++ Call puts_meta (ORead doff calls) :: rest) = Ok (x, map Some outs ++ None :: os) ->
  Forall2 (fun f o => is_close f = true -> o <> None) rest os -> Forall2 (fun f o => reads f -> o = None) rest os.
Proof.
  intros e cfg np f0 ops s outs doff calls rest x os R H N. destruct (fine_mid _ _ _ _ _ _ _ _ _ _ _ _ R H) as (dk & x1 & _ & Y & S1 & S2). destruct (zero_read _ _ _ _ _ _ Y S1) as (m & size & Zx). eapply zero_run; eauto.
Qed.

(** ** The same, when H5Fclose does not find the metadata dataset *)
Definition heavy (ws : list wreq) : Prop := Forall (fun w => 28 <= h_size (w_hdr w)) ws.
Definition weights (g : gfile) : list (list Z) := map (fun st => map (fun w => h_size (w_hdr w)) (k_wreqs st)) (g_ranks g).
Lemma mk_heavy : forall cfg did dip md sels, 28 <= h_size (w_hdr (mk_wreq cfg did dip md sels)).
Proof.
  intros cfg did dip md sels. unfold mk_wreq. cbn [w_hdr h_size]. change (Z.of_nat HDR) with 28. set (rec := is_rec dip sels). set (ed := if rec then (di_ndim dip - 1)%nat else di_ndim dip).
  assert (A : 0 <= (if rec then 8 else 0)) by (destruct rec; lia). set (a := if rec then 8 else 0) in *. assert (B : 0 <= (if (1 <? length sels)%nat then 4 else 0)) by (destruct (_ <? _)%nat; lia). set (b := if (1 <? length sels)%nat then 4 else 0) in *. clearbody a b.
  destruct (1 <? length sels)%nat; cbn [andb]; [|nia]. destruct (Nat.ltb_spec 1 ed); cbn [andb]; [|nia]. destruct (has cfg CFG_SEL_ENCODE); nia.
Qed.
Lemma finish_heavy : forall z cfg st r r' tbl zb, finish_meta z cfg st r = Ok (r', tbl, zb) -> 28 <= h_size (w_hdr r) -> 28 <= h_size (w_hdr r').
Proof.
  intros z cfg st r r' tbl zb H Hr. unfold finish_meta in H. destruct (dedup cfg st r) as [[[r1 t1] sz1]| |] eqn:D; cbn [bind] in H; try discriminate.
  destruct (compress_sel_eq z (k_zbsize st) r1 sz1) as (f & zb' & EC & _). rewrite EC in H. injection H as <- _ _. unfold shrink. cbn [set_flag w_selpos w_hdr h_size].
  assert (G : 28 <= h_size (w_hdr r1) /\ (sz1 = selsize_of r1 \/ sz1 = 8)).
  { unfold dedup in D. destruct (_ && _); [|injection D as <- _ <-; auto]. destruct (hash_find _ _) as [[t|]| |]; cbn [bind] in D; try discriminate; injection D as <- _ <-; auto. }
  destruct G as [G1 G2]. destruct (Z.ltb_spec (Z.of_nat HDR + Z.of_nat (w_selpos r1) + sz1) (h_size (w_hdr r1))) as [L|_]; cbn [w_resize set_flag w_hdr h_size]; [|auto]. unfold selsize_of in G2. change (Z.of_nat HDR) with 28 in *. destruct G2; lia.
Qed.
Lemma write_heavy : forall z cfg infos st did sels data st', ds_write z cfg infos st did sels data = Ok st' -> heavy (k_wreqs st) -> heavy (k_wreqs st') /\ (sels <> [] -> k_wreqs st' <> []).
Proof.
  intros z cfg infos st did sels data st' H Q. unfold ds_write in H. destruct sels as [|b bs]; [injection H as <-; split; auto; congruence|]. destruct (nth_error _ _) as [[d|]|]; try discriminate.
  destruct (finish_meta _ _ _ _) as [[[r tbl] zb]| |] eqn:F; cbn [bind] in H; try discriminate. injection H as <-. cbn [k_wreqs]. split; [|intros _ E; destruct (k_wreqs st); discriminate].
  apply Forall_app. split; auto. constructor; auto. cbn. eapply finish_heavy; eauto. apply mk_heavy.
Qed.
Lemma assign_weights : forall ws off, map (fun w => h_size (w_hdr w)) (assign_foff off ws) = map (fun w => h_size (w_hdr w)) ws.
Proof. induction ws; intros; cbn; f_equal; auto. Qed.
Lemma flush_weights : forall doff g, weights (flush_writes doff g) = weights g.
Proof.
  intros doff g. unfold weights, flush_writes. destruct (_ =? 0); cbn [g_ranks].
  - rewrite map_map. apply map_ext. intros st. cbn. rewrite map_app, assign_weights, <- map_app. unfold flushed, unflushed. rewrite firstn_skipn. reflexivity.
  - set (bases := map (fun o => o + doff) _). assert (L : length bases = length (g_ranks g)).
    { subst bases. rewrite map_length. assert (Q : forall l a, length (exscan a l) = length l) by (induction l; intros; cbn; auto). rewrite Q, map_length. reflexivity. }
    clearbody bases. revert bases L. induction (g_ranks g) as [|st l IH]; intros [|b bs] L; cbn in *; auto; try discriminate. f_equal; [|apply IH; lia].
    rewrite map_app, map_map. cbn. rewrite assign_weights, <- map_app. unfold flushed, unflushed. rewrite firstn_skipn. reflexivity.
Qed.
Definition heavy_g (g : gfile) : Prop := Forall (Forall (fun n => 28 <= n)) (weights g).
Lemma heavy_step : forall e s o s' out, step e s o = Ok (s', out) -> heavy_g (s_g s) -> heavy_g (s_g s').
Proof.
  assert (E0 : forall l : list rank, Forall (Forall (fun n => 28 <= n)) (map (fun st => map (fun w => h_size (w_hdr w)) (k_wreqs st)) (map (fun st => mkrank [] 0 0 [] (k_zbsize st)) l))) by (intros l; rewrite map_map; apply Forall_map, Forall_forall; constructor).
  intros e s o s' out H Q. destruct o; cbn [step] in H.
  - destruct (create_info _ _); cbn [bind] in H; try discriminate. injection H as <- <-. exact Q.
  - destruct (info_at _ _) as [[d|]|]; try discriminate. destruct (set_extent _ _ _) as [d' []]; try discriminate. injection H as <- <-. exact Q.
  - destruct (nth_error _ _) as [st|] eqn:N; try discriminate. destruct (ds_write _ _ _ _ _ _ _) as [st'| |] eqn:D; cbn [bind] in H; try discriminate. injection H as <- <-.
    unfold heavy_g, weights in *. cbn [s_g set_ranks g_ranks]. rewrite Forall_map in *. apply Forall_forall. intros y Hy. rewrite Forall_forall in Q.
    assert (y = st' \/ In y (g_ranks (s_g s))) as [->|Hi].
    { clear - Hy. revert rk Hy. induction (g_ranks (s_g s)) as [|a l IH]; intros [|k] Hi; cbn in Hi; [tauto..| |]; destruct Hi as [<-|Hi]; auto; cbn; auto. destruct (IH _ Hi); auto. }
    + apply Forall_map. apply (write_heavy _ _ _ _ _ _ _ _ D). apply nth_error_In in N. apply Q in N. rewrite Forall_map in N. exact N.
    + auto.
  - injection H as <- <-. cbn [s_g]. destruct (any_pending _); auto. unfold heavy_g. rewrite flush_weights. exact Q.
  - set (g1 := if e_coll e && any_pending (s_g s) then flush_writes doff (s_g s) else s_g s) in *. assert (Q1 : heavy_g g1) by (subst g1; destruct (_ && _); auto; unfold heavy_g; rewrite flush_weights; exact Q).
    destruct (read_each _ _ _ _); cbn [bind] in H; try discriminate. injection H as <- <-. cbn [s_g]. destruct (g_metadirty g1); auto. apply E0.
  - destruct (reopen_infos _ _); cbn [bind] in H; try discriminate. injection H as <- <-. unfold heavy_g, weights. cbn. apply Forall_map, Forall_forall. intros y Hy. apply repeat_spec in Hy. subst. constructor.
Qed.
Lemma heavy_run : forall e ops s s' outs, run e s ops = Ok (s', outs) -> heavy_g (s_g s) -> heavy_g (s_g s').
Proof.
  intros e. induction ops as [|o ops IH]; intros s s' outs R Q; cbn [run] in R; [injection R as <- <-; auto|]. destruct (step e s o) as [[s1 p]| |] eqn:E; cbn [bind fst snd] in R; try discriminate.
  destruct (run e s1 ops) as [[s2 q]| |] eqn:E2; cbn [bind fst snd] in R; try discriminate. injection R as <- <-. eapply IH; eauto. eapply heavy_step; eauto.
Qed.
Lemma heavy_total : forall g, heavy_g g -> (exists l, In l (weights g) /\ l <> []) -> 8 * (Zlen (g_ranks g) + 1) < Zsum (meta_sizes (g_ranks g)).
Proof.
  intros g Q (l & L1 & L2). assert (E : Zsum (meta_sizes (g_ranks g)) = 8 * (Zlen (g_ranks g) + 1) + Zsum (map Zsum (weights g))).
  { unfold meta_sizes, weights. rewrite map_map. change (map (fun x => Zsum (map (fun w => h_size (w_hdr w)) (k_wreqs x))) (g_ranks g)) with (map meta_len (g_ranks g)).
    destruct (map meta_len (g_ranks g)) as [|a b] eqn:Em; [|unfold Zsum; cbn [fold_right]; lia]. exfalso. unfold weights in L1. destruct (g_ranks g); [destruct L1|discriminate]. }
  rewrite E. clear E. assert (G : 0 < Zsum (map Zsum (weights g))); [|lia]. unfold heavy_g in Q. clear -Q L1 L2.
  assert (P : forall l, Forall (fun n => 28 <= n) l -> 0 <= Zsum l /\ (l <> [] -> 0 < Zsum l)).
  { induction l0 as [|a l0 IH]; intros F; [cbn; split; [lia|congruence]|]. inversion F; subst. destruct (IH H2) as [I1 _]. unfold Zsum in *. cbn [fold_right]. split; intros; lia. }
  assert (P2 : forall ls, Forall (Forall (fun n => 28 <= n)) ls -> 0 <= Zsum (map Zsum ls)).
  { induction ls as [|a ls IH]; intros F; [cbn; lia|]. inversion F; subst. specialize (IH H2). destruct (P _ H1) as [I1 _]. unfold Zsum in *. cbn [map fold_right]. lia. }
  induction (weights g) as [|a ls IH]; [destruct L1|]. inversion Q; subst. pose proof (P2 _ H2). destruct (P _ H1) as [I1 I2]. unfold Zsum at 1. cbn [map fold_right]. fold (Zsum (map Zsum ls)).
  destruct L1 as [->|L1]; [specialize (I2 L2); lia|specialize (IH H2 L1); lia].
Qed.

Lemma run_snoc : forall e ops s o s' outs, run e s (ops ++ [o]) = Ok (s', outs) -> exists s0 outs0, run e s ops = Ok (s0, outs0) /\ step e s0 o = Ok (s', last outs []).
Proof.
  intros e. induction ops as [|a ops IH]; intros s o s' outs R; cbn [app run] in R.
  - destruct (step e s o) as [[s1 p]| |] eqn:E; cbn [bind fst snd run] in R; try discriminate. injection R as <- <-. exists s, []. auto.
  - destruct (step e s a) as [[s1 p]| |] eqn:E; cbn [bind fst snd] in R; try discriminate. destruct (run e s1 (ops ++ [o])) as [[s2 q]| |] eqn:E2; cbn [bind fst snd] in R; try discriminate. injection R as <- <-.
    destruct (IH _ _ _ _ E2) as (s0 & o0 & I1 & I2). exists s0, (p :: o0). cbn [run]. rewrite E. cbn [bind fst snd]. rewrite I1. split; auto. rewrite I2. destruct q; [|reflexivity].
    exfalso. clear - E2. destruct ops; cbn [app run] in E2; destruct (step _ _ _); cbn [bind] in E2; try discriminate; destruct (run _ _ _); cbn [bind] in E2; discriminate.
Qed.
Lemma lost_close_meta : forall e cfg np f0 ops rk did sels data s outs doff np2 rest x os, run e (init cfg np f0) (ops ++ [OWrite rk did sels data]) = Ok (s, outs) -> sels <> [] ->
  frun e (fstart cfg np f0) (map fine (ops ++ [OWrite rk did sels data]) ++ LostMeta doff np2 :: rest) = Ok (x, map Some outs ++ Some [] :: os) ->
  Forall2 (fun f o => is_close f = true -> o <> None) rest os -> Forall2 (fun f o => reads f -> o = None) rest os.
Proof.
  intros e cfg np f0 ops rk did sels data s outs doff np2 rest x os R Hs H N. destruct (fine_mid _ _ _ _ _ _ _ _ _ _ _ _ R H) as (dk & x1 & _ & Y & S1 & S2).
  assert (Hv : heavy_g (s_g s)).
  { eapply heavy_run; [exact R|]. unfold heavy_g, weights. cbn. apply Forall_map, Forall_forall. intros y Hy. apply repeat_spec in Hy. subst. constructor. }
  assert (Hn : exists l, In l (weights (s_g s)) /\ l <> []).
  { destruct (run_snoc _ _ _ _ _ _ R) as (s0 & o1 & R1 & R2). cbn [step] in R2. destruct (nth_error _ _) as [st|] eqn:Nt; cbn [bind] in R2; try discriminate.
    destruct (ds_write _ _ _ _ _ _ _) as [st'| |] eqn:D; cbn [bind fst snd] in R2; try discriminate. injection R2 as <- _. cbn [s_g]. unfold weights. cbn [set_ranks g_ranks].
    exists (map (fun w => h_size (w_hdr w)) (k_wreqs st')). split.
    - apply in_map_iff. exists st'. split; auto. clear - Nt. revert rk Nt. induction (g_ranks (s_g s0)) as [|a l IH]; intros [|k] Nt; cbn in *; try discriminate; auto.
    - unfold ds_write in D. destruct sels; [congruence|]. destruct (nth_error (g_infos _) _) as [[d|]|]; try discriminate. destruct (finish_meta _ _ _ _) as [[[r tbl] zb]| |]; cbn [bind] in D; try discriminate. injection D as <-. cbn [k_wreqs]. rewrite map_app. destruct (map _ (k_wreqs st)); discriminate. }
  unfold fstep in S1. cbn [x_sys x_disk x_dead] in S1. set (g1 := flush_writes doff (s_g s)) in *.
  assert (Lt : 8 * (Zlen (g_ranks g1) + 1) < Zsum (meta_sizes (g_ranks g1))) by (apply heavy_total; subst g1; unfold heavy_g; rewrite flush_weights; auto).
  destruct (flush_synced doff _ _ Y) as (dk1 & F1 & F2 & _). fold g1 in F2. rewrite apply_app, F1 in S1. cbn [bind] in S1. unfold meta_nowhere_effects in S1.
  replace (8 * (Zlen (g_ranks g1) + 1) <? Zsum (meta_sizes (g_ranks g1))) with true in S1 by (symmetry; apply Z.ltb_lt; auto). cbn [app apply_all apply] in S1. destruct (y_mds _ _ F2) as (ms & M1 & M2).
  assert (L : Zlen (g_mdsets g1) = Zlen ms) by (rewrite <- M2; unfold Zlen; rewrite map_length; reflexivity). rewrite L, M1, find_next in S1. cbn [bind] in S1.
  destruct (recover np2 _) as [s2| |] eqn:Rc; cbn [bind] in S1; try discriminate. injection S1 as <-.
  eapply (zero_run e rest _ _ _ (length (g_mdsets g1)) (Zsum (meta_sizes (g_ranks g1)))); [|exact S2|exact N]. eapply zero_reopen; [unfold Zlen in Lt; lia| | |exact Rc]; cbn [dk_mds dk_att at_nmdset].
  - change (Z.of_nat (length (g_mdsets g1))) with (Zlen (g_mdsets g1)). rewrite L. clear - ms. pose proof (find_next _ ms) as Q. revert Q. generalize (number ms). induction l as [|q l IH]; cbn; [rewrite Z.eqb_refl; auto|]. destruct (_ =? _); [discriminate|auto].
  - assert (Q : g_mdsets (metaflush g1) = g_mdsets g1 ++ [md_content (g_ranks g1)]).
    { change (g_mdsets (metaflush g1)) with (if 8 * (Zlen (g_ranks g1) + 1) <? Zsum (meta_sizes (g_ranks g1)) then g_mdsets g1 ++ [md_content (g_ranks g1)] else g_mdsets g1).
      destruct (Z.ltb_spec (8 * (Zlen (g_ranks g1) + 1)) (Zsum (meta_sizes (g_ranks g1)))); auto. lia. }
    change (Z.of_nat (length (g_mdsets g1)) < Zlen (g_mdsets (metaflush g1))). rewrite Q. unfold Zlen. rewrite app_length. cbn [length]. lia.
Qed.

(** ** A dataset created in part *)
(** An anchor without id that is not the next dataset. *)
Definition partial_set (x : fstate) : Prop := exists k a, k < 0 /\ In (k, a) (dk_sets (x_disk x)) /\ an_id a = None.
Definition own_key (x : effect) : Prop := match x with XId k _ => 0 <= k | _ => True end.
Lemma apply_partial : forall k a dk x dk', own_key x -> k < 0 -> In (k, a) (dk_sets dk) -> an_id a = None -> apply dk x = Ok dk' -> exists a', In (k, a') (dk_sets dk') /\ an_id a' = None.
Proof.
  assert (At : forall k a k' (f : anchor -> anchor) l, In (k, a) l -> an_id a = None -> (k' = k -> an_id (f a) = None) -> exists a', In (k, a') (at_key k' f l) /\ an_id a' = None).
  { intros k a k' f l H N F. unfold at_key. destruct (Z.eq_dec k' k) as [->|Ne].
    - exists (f a). split; auto. apply in_map_iff. exists (k, a). cbn. rewrite Z.eqb_refl. auto.
    - exists a. split; auto. apply in_map_iff. exists (k, a). cbn. destruct (Z.eqb_spec k k'); [congruence|]. auto. }
  intros k a dk x dk' O K H N A. destruct x; cbn [apply own_key] in *; try (injection A as <-; cbn [dk_sets]; eauto; fail).
  - destruct (find_key _ _); [discriminate|]. injection A as <-. exists a. split; auto. apply in_or_app. auto.
  - injection A as <-. apply (At k a _ _ _ H N). intros; lia.
  - destruct (existsb _ _); [discriminate|]. injection A as <-. eauto.
  - destruct (find_key _ _); [discriminate|]. injection A as <-. eauto.
Qed.
Lemma attempt_partial : forall bad xs n k a dk dk' r, Forall own_key xs -> k < 0 -> In (k, a) (dk_sets dk) -> an_id a = None -> attempt bad n dk xs = (dk', r) -> exists a', In (k, a') (dk_sets dk') /\ an_id a' = None.
Proof.
  induction xs as [|x xs IH]; intros n k a dk dk' r O K H N A; cbn [attempt] in A; [injection A as <- <-; eauto|]. inversion O as [|? ? O1 O2]; subst. destruct (bad x); [injection A as <- <-; eauto|].
  destruct (apply dk x) as [d| |] eqn:E; try (injection A as <- <-; eauto; fail). destruct (apply_partial _ _ _ _ _ O1 K H N E) as (a' & A1 & A2). eapply IH; eauto.
Qed.
Lemma own_effects : forall e s o, Forall own_key (effects e s o).
Proof.
  assert (F : forall doff g, Forall own_key (flush_effects doff g)) by (intros; unfold flush_effects; destruct (_ =? 0); constructor; cbn; auto; apply Forall_map, Forall_forall; intros; exact Logic.I).
  assert (M : forall g, Forall own_key (meta_effects g)) by (intros; unfold meta_effects; destruct (_ <? _); constructor; cbn; auto; apply Forall_map, Forall_forall; intros; exact Logic.I).
  intros e s o. destruct o; cbn [effects].
  - repeat constructor. cbn. unfold Zlen. lia.
  - destruct (info_at _ _) as [[d|]|]; repeat constructor.
  - constructor.
  - destruct (any_pending _); auto.
  - apply Forall_app. split; [destruct (_ && _); auto|destruct (g_metadirty _); auto].
  - apply Forall_app. split; auto. apply Forall_app. split; auto. repeat constructor.
Qed.
Lemma orphan_partial : forall g o k a dk, k < 0 -> In (k, a) (dk_sets dk) -> In (k, a) (dk_sets (orphan g o dk)).
Proof.
  intros g o k a dk K H. destruct o; auto. cbn [orphan dk_sets]. apply in_map_iff. exists (k, a). cbn [fst]. split; auto. destruct (Z.eqb_spec k (Zlen (g_infos g))); auto. unfold Zlen in *. lia.
Qed.
Lemma partial_recover : forall np dk s k a, In (k, a) (dk_sets dk) -> an_id a = None -> recover np dk <> Ok s.
Proof.
  intros np dk s k a H N R. unfold recover in R. destruct (open_anchors _ _ _) as [i| |] eqn:E; cbn [bind] in R; try discriminate. eapply open_stranger; [exact H| |exact E]. auto.
Qed.
Lemma partial_step : forall e x f x1 o, partial_set x -> fstep e x f = Ok (x1, o) -> partial_set x1 /\ (is_close f = true -> o = None).
Proof.
  intros e x f x1 o (k & a & K & H & N) S. unfold fstep in S.
  assert (R : forall np dk dk' b p a', In (k, a') (dk_sets dk) -> an_id a' = None -> (do s' <- recover np dk; Ok (mkfs s' dk' b, p)) = Ok (x1, o) -> False).
  { intros np dk dk' b p a' Hi Ha E. destruct (recover np dk) as [s'| |] eqn:Er; cbn [bind] in E; try discriminate. eapply partial_recover; eauto. }
  destruct f as [bad op| |doff np].
  - assert (Kc : (if refused (x_sys x) op then Ok (mkfs (stopped e (x_sys x) op 0 (x_disk x)) (x_disk x) (x_dead x), None)
      else match attempt bad 0 (x_disk x) (effects e (x_sys x) op) with
           | (dk', Some k) => Ok (mkfs (stopped e (x_sys x) op k dk') (orphan (s_g (x_sys x)) op dk') (x_dead x || closes_file op), None)
           | (dk', None) => match op with OReopen _ np => do s' <- recover np dk'; Ok (mkfs s' dk' false, Some []) | _ => do p <- step e (x_sys x) op; Ok (mkfs (fst p) dk' (x_dead x), Some (snd p)) end
           end) = Ok (x1, o) -> partial_set x1 /\ (is_close (Call bad op) = true -> o = None)).
    { intros E. destruct (refused _ _); [injection E as <- <-; split; auto; exists k, a; auto|]. destruct (attempt _ _ _ _) as [dk' r] eqn:A. destruct (attempt_partial _ _ _ _ _ _ _ _ (own_effects e _ _) K H N A) as (a' & A1 & A2). destruct r as [j|].
      - injection E as <- <-. split; auto. exists k, a'. split; auto. split; auto. cbn [x_disk]. apply orphan_partial; auto.
      - destruct op; try (destruct (step e _ _) as [[s2 b2]| |]; cbn [bind fst snd] in E; try discriminate; injection E as <- <-; split; [exists k, a'; auto|intros Q; discriminate Q]). exfalso. eapply R; eauto. }
    destruct op; try (apply Kc; exact S). destruct (x_dead x); [exfalso; eapply R; eauto|]. apply Kc. exact S.
  - split; [|intros Q; discriminate Q]. destruct (any_pending _); [|injection S as <- <-; exists k, a; auto].
    assert (O : Forall own_key (nowhere_effects (s_g (x_sys x)))) by (unfold nowhere_effects; destruct (_ =? 0); repeat constructor).
    destruct (attempt _ _ _ _) as [dk' r] eqn:A. destruct (attempt_partial _ _ _ _ _ _ _ _ O K H N A) as (a' & A1 & A2). destruct r; injection S as <- <-; exists k, a'; auto.
  - exfalso. destruct (x_dead x); [eapply R; eauto|]. match type of S with context [apply_all ?d ?l] => destruct (apply_all d l) as [dk'| |] eqn:A; cbn [bind] in S; try discriminate; pose proof (attempt_ok (fun _ => false) l 0%nat _ _ (fun _ _ => eq_refl) A) as A1; assert (O : Forall own_key l) end.
    { apply Forall_app. split; [unfold flush_effects; destruct (_ =? 0); constructor; cbn; auto; apply Forall_map, Forall_forall; intros; exact Logic.I|]. apply Forall_app. split; [|repeat constructor]. unfold meta_nowhere_effects. destruct (_ <? _); repeat constructor. }
    destruct (attempt_partial _ _ _ _ _ _ _ _ O K H N A1) as (a' & A3 & A2). eapply R; eauto.
Qed.
Lemma partial_run : forall e fs x x1 os, partial_set x -> frun e x fs = Ok (x1, os) -> Forall2 (fun f o => is_close f = true -> o = None) fs os.
Proof.
  intros e. induction fs as [|f fs IH]; intros x x1 os P H; cbn [frun] in H; [injection H as <- <-; constructor|]. destruct (fstep e x f) as [[x2 o]| |] eqn:E; cbn [bind fst snd] in H; try discriminate.
  destruct (frun e x2 fs) as [[x3 o3]| |] eqn:E3; cbn [bind fst snd] in H; try discriminate. injection H as <- <-. destruct (partial_step _ _ _ _ _ P E). constructor; eauto.
Qed.
Lemma create_in_part : forall e cfg np f0 ops s outs bad d rest x os, run e (init cfg np f0) ops = Ok (s, outs) ->
  (forall k d, bad (XAnchor k d) = false) ->
  frun e (fstart cfg np f0) (map fine ops ++ Call bad (OCreate d) :: rest) = Ok (x, map Some outs ++ None :: os) ->
  Forall2 (fun f o => is_close f = true -> o = None) rest os.
Proof.
  intros e cfg np f0 ops s outs bad d rest x os R B H. destruct (fine_mid _ _ _ _ _ _ _ _ _ _ _ _ R H) as (dk & x1 & _ & Y & S1 & S2). eapply partial_run; [|exact S2].
  unfold fstep in S1. cbn [x_sys x_disk x_dead refused orb closes_file] in S1. destruct (attempt _ _ _ _) as [dk' [k|]] eqn:A.
  2:{ destruct (step _ _ _); cbn [bind] in S1; discriminate. }
  injection S1 as <-. unfold partial_set. cbn [x_disk orphan]. set (n := Zlen (g_infos (s_g s))) in *. exists (-1 - Zlen (dk_sets dk')).
  assert (Q : exists a, In (n, a) (dk_sets dk') /\ an_id a = None).
  { destruct (y_sets _ _ Y) as (l & L1 & L2). assert (Ln : Zlen l = n) by (subst n; unfold Zlen; destruct L2 as [L2 _]; rewrite L2; reflexivity).
    cbn [effects] in A. fold n in A. cbn [attempt] in A. rewrite B in A. cbn [apply] in A. rewrite L1, <- Ln, find_next in A. rewrite Ln in A.
    assert (U : forall f : anchor -> anchor, forall l0 : list (Z * anchor), (exists a, In (n, a) l0 /\ an_id a = None) -> (forall a, an_id a = None -> an_id (f a) = None) -> exists a, In (n, a) (at_key n f l0) /\ an_id a = None).
    { intros f l0 (a & A1 & A2) F. exists (f a). split; auto. apply in_map_iff. exists (n, a). cbn. rewrite Z.eqb_refl. auto. }
    set (l1 := number l ++ [(n, mkan d None None None)]) in *. assert (E1 : exists a, In (n, a) l1 /\ an_id a = None) by (eexists; split; [subst l1; apply in_or_app; right; left; reflexivity|reflexivity]). clearbody l1.
    destruct (bad (XDims _ _)); [injection A as <- _; exact E1|]. cbn [dk_sets] in A. set (l2 := at_key n _ l1) in A. assert (E2 : exists a, In (n, a) l2 /\ an_id a = None) by (apply U; auto). clearbody l2.
    destruct (bad (XMdims _ _)); [injection A as <- _; exact E2|]. cbn [dk_sets] in A. set (l3 := at_key n _ l2) in A. assert (E3 : exists a, In (n, a) l3 /\ an_id a = None) by (apply U; auto). clearbody l3.
    destruct (bad (XId _ _)); [injection A as <- _; exact E3|]. discriminate. }
  destruct Q as (a & A1 & A2). exists a. split; [unfold Zlen; lia|]. split; auto. cbn [dk_sets]. apply in_map_iff. exists (n, a). cbn [fst snd]. rewrite Z.eqb_refl. auto.
Qed.
