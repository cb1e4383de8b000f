(** A read after only some groups have written never returns (C53). *)
From Coq Require Import String ZifyNat.
From Verif Require Import Base BaseProofs Spec MetaModel QueueModel FlushModel IndexModel ReadModel SysModel SubModel SubSpec SubToolModel SubToolSpec SubAgainSpec SubProofs SubClaims SubCloseProofs SubAgainClaims.
Open Scope list_scope. Open Scope Z_scope.

Definition hg (sg : sgroup) : Prop := gwf sg /\ qpos (s_g (sg_sys sg)) /\ sg_nld sg = g_nldset (s_g (sg_sys sg)).
Definition live (sg : sgroup) : Prop := full sg \/ g_metadirty (s_g (sg_sys sg)) = true.
(** [w]: the call writes in this group; [d]: it writes bytes. *)
Definition hstep (w d : Prop) (a b : sgroup) : Prop :=
  hg b /\ (idle (s_g (sg_sys b)) <-> idle (s_g (sg_sys a)) /\ ~ w) /\ (live a -> live b) /\ (d -> live b).

Lemma hstep_refl : forall a, hg a -> hstep False False a a.
Proof. intros a H. split; [exact H|]. split; [tauto|]. split; [tauto|]. intros []. Qed.

Lemma quiet_hstep : forall e o a b, quiet o -> hg a -> group_step e o a = SOk b -> hstep False False a b.
Proof.
  intros e o a b Hq ((W1 & W2) & Hp & Hn) H. destruct (quiet_group _ _ _ _ Hq H) as (A & B & C).
  unfold group_step in H. destruct (step e (sg_sys a) o) as [[s' x]| |] eqn:E; try discriminate H. cbn in H.
  assert (M : g_metadirty (s_g s') = g_metadirty (s_g (sg_sys a))).
  { destruct o as [d|did dims| | | |]; try contradiction Hq; cbn [step] in E.
    - destruct (create_info _ d); try discriminate E. cbn in E. injection E as <- _. reflexivity.
    - destruct (info_at _ did) as [[d|]|]; try discriminate E. destruct (set_extent _ d dims) as [d' [|]]; try discriminate E. injection E as <- _. reflexivity. }
  destruct (step_qs e (sg_sys a) o s' x) as [Q1 Q2]; [destruct o; try contradiction Hq; exact Logic.I|exact E|exact Hp|].
  injection H as <-. cbn [sg_sys s_g sg_nld fst] in *. split; [|split; [|split; [|intros []]]].
  - split; [split; cbn; [rewrite A; exact W1|rewrite B; exact W2]|]. split; [exact Q1|]. cbn. rewrite B. exact Hn.
  - cbn. rewrite Q2. destruct o; try contradiction Hq; cbn; tauto.
  - unfold live, full, group_size. cbn. rewrite A, M. tauto.
Qed.

Lemma write_hstep : forall e rk did sels data a b, hg a -> group_step e (OWrite rk did sels data) a = SOk b -> hstep (sels <> []) (sels <> [] /\ data <> []) a b.
Proof.
  intros e rk did sels data a b (W & Hp & Hn) H. destruct (write_group _ _ _ _ _ _ _ H W) as (A & B & C & D).
  unfold group_step in H. destruct (step e (sg_sys a) (OWrite rk did sels data)) as [[s' x]| |] eqn:E; try discriminate H. cbn in H.
  destruct (step_qs e (sg_sys a) (OWrite rk did sels data) s' x Logic.I E Hp) as [Q1 Q2].
  assert (M : g_metadirty (s_g s') = g_metadirty (s_g (sg_sys a))).
  { cbn [step] in E. destruct (nth_error (g_ranks (s_g (sg_sys a))) rk) as [st|]; [|discriminate E]. destruct (ds_write _ _ _ _ _ _ _); try discriminate E. cbn in E. injection E as <- _. reflexivity. }
  injection H as <-. cbn [sg_sys s_g sg_nld fst] in *. pose proof (size_nn a W) as N. split; [|split; [|split]].
  - split; [exact A|]. split; [exact Q1|]. cbn. rewrite C. exact Hn.
  - cbn. rewrite Q2. assert (T : writes (OWrite rk did sels data) <-> sels <> []) by (destruct sels as [|x0 l]; cbn; [split; [intros []|intros Z; apply Z; reflexivity]|split; [discriminate|intros _; exact Logic.I]]).
    rewrite T. tauto.
  - unfold live, full. cbn. rewrite D, M. intros [L|L]; [left|right; exact L]. destruct sels; unfold Zlen; lia.
  - intros [S1 S2]. left. unfold full. cbn. rewrite D. destruct sels as [|x0 sels]; [contradiction S1; reflexivity|]. destruct data; [contradiction S2; reflexivity|]. unfold Zlen. cbn [length]. lia.
Qed.

Lemma flush_hstep : forall all doff a, hg a -> exists b, flush_group all doff a = SOk b /\ hstep False False a b /\ (live a -> g_metadirty (s_g (sg_sys b)) = true).
Proof.
  intros all doff a (W & Hp & Hn). assert (E : exists b, flush_group all doff a = SOk b).
  { unfold flush_group. destruct (group_size (s_g (sg_sys a)) =? 0); [eexists; reflexivity|]. rewrite Hn, Z.ltb_irrefl. eexists. reflexivity. }
  destruct E as [b E]. exists b. split; [exact E|]. destruct (flush_one_again _ _ _ _ E W) as (A & _ & _). unfold flush_group in E.
  destruct (group_size (s_g (sg_sys a)) =? 0) eqn:Z0.
  - apply Z.eqb_eq in Z0. injection E as <-.
    assert (Q : qs (mkg (g_cfg (s_g (sg_sys a))) (g_infos (s_g (sg_sys a))) (map rank_assign (g_ranks (s_g (sg_sys a)))) (g_file (s_g (sg_sys a))) (g_mdsets (s_g (sg_sys a)))
      (g_nldset (s_g (sg_sys a))) (if all =? 0 then g_metadirty (s_g (sg_sys a)) else true)) = qs (s_g (sg_sys a))).
    { unfold qs. cbn. rewrite map_map. apply map_ext. intros st. apply szs_rank_assign. }
    assert (D : live a -> (if all =? 0 then g_metadirty (s_g (sg_sys a)) else true) = true).
    { intros [L|L]; [unfold full in L; lia|]. rewrite L. destruct (all =? 0); reflexivity. }
    split; [|exact D]. split; [|split; [|split; [|intros []]]].
    + split; [exact A|]. cbn [sg_sys s_g sg_nld]. unfold qpos. rewrite Q. split; [exact Hp|exact Hn].
    + cbn [sg_sys s_g]. unfold idle. rewrite Q. tauto.
    + intros L. right. exact (D L).
  - apply Z.eqb_neq in Z0. rewrite Hn, Z.ltb_irrefl in E. injection E as <-.
    assert (M : g_metadirty (flush_writes doff (s_g (sg_sys a))) = true /\ g_nldset (flush_writes doff (s_g (sg_sys a))) = g_nldset (s_g (sg_sys a)) + 1).
    { unfold flush_writes. fold (group_size (s_g (sg_sys a))). rewrite (proj2 (Z.eqb_neq _ _) Z0). split; reflexivity. }
    destruct M as [M1 M2]. split; [|intros _; exact M1]. split; [|split; [|split; [|intros []]]].
    + split; [exact A|]. cbn [sg_sys s_g sg_nld]. unfold qpos. rewrite qs_flush, M2. split; [exact Hp|reflexivity].
    + cbn [sg_sys s_g]. unfold idle. rewrite qs_flush. tauto.
    + intros _. right. exact M1.
Qed.

Definition hwf (n : nat) (s : sfile) : Prop := length (sf_groups s) = n /\ Forall hg (sf_groups s).

Lemma flush_hang : forall n doffs s, hwf n s -> length doffs = n -> exists s', sub_flush doffs s = SOk s' /\ sf_cfg s' = sf_cfg s /\
  Forall2 (fun a b => hstep False False a b /\ (live a -> g_metadirty (s_g (sg_sys b)) = true)) (sf_groups s) (sf_groups s').
Proof.
  intros n doffs s [L W] Ld. unfold sub_flush. generalize (size_all s). intros all.
  assert (G : forall gs ds, length ds = length gs -> Forall hg gs -> exists bs, smap (fun p => flush_group all (fst p) (snd p)) (combine ds gs) = SOk bs /\
    Forall2 (fun a b => hstep False False a b /\ (live a -> g_metadirty (s_g (sg_sys b)) = true)) gs bs).
  { induction gs as [|g gs IH]; intros [|d ds] E F; cbn in E; try discriminate E; [exists []; split; [reflexivity|constructor]|].
    inversion F; subst. destruct (flush_hstep all d g H1) as (b & B1 & B2). destruct (IH ds) as (bs & C1 & C2); [lia|assumption|].
    exists (b :: bs). cbn. rewrite B1. cbn. rewrite C1. split; [reflexivity|]. constructor; assumption. }
  destruct (G (sf_groups s) doffs) as (bs & B1 & B2); [lia|exact W|]. rewrite B1. cbn. eexists. split; [reflexivity|]. split; [reflexivity|exact B2].
Qed.

Lemma pre_hang : forall n doffs s, hwf n s -> length doffs = n -> exists s', (if sub_pending s then sub_flush doffs s else SOk s) = SOk s' /\ sf_cfg s' = sf_cfg s /\
  Forall2 (fun a b => hstep False False a b /\ (live a -> g_metadirty (s_g (sg_sys b)) = true)) (sf_groups s) (sf_groups s').
Proof.
  intros n doffs s W L. destruct (sub_pending s) eqn:P; [exact (flush_hang n doffs s W L)|]. exists s. split; [reflexivity|]. split; [reflexivity|]. destruct W as [_ W].
  apply F2_refl. apply Forall_forall. intros sg Hin. split; [apply hstep_refl; rewrite Forall_forall in W; exact (W sg Hin)|]. intros [Q|Q]; [|exact Q]. exfalso.
  apply full_pending in Q. unfold sub_pending in P. assert (existsb (fun sg => any_pending (s_g (sg_sys sg))) (sf_groups s) = true) by (apply existsb_exists; exists sg; split; assumption). congruence.
Qed.

Lemma hstep_ext : forall (w d w' d' : Prop) a b, hstep w d a b -> (w <-> w') -> (d' -> d) -> hstep w' d' a b.
Proof. intros w d w' d' a b (A & B & C & D) H K. split; [exact A|]. split; [rewrite B; tauto|]. split; [exact C|]. intros X. exact (D (K X)). Qed.

Lemma step_hang : forall e n s o s' out, hwf n s -> writing_op n o -> sub_step e s o = SOk (s', out) ->
  hwf n s' /\ sf_cfg s' = sf_cfg s /\
  forall k sg, nth_error (sf_groups s) k = Some sg -> exists sg', nth_error (sf_groups s') k = Some sg' /\ hstep (SubToolSpec.wrote k [o]) (writes_bytes k [o]) sg sg'.
Proof.
  intros e n s o s' out W Ho H. pose proof W as [W1 W2].
  assert (QN : forall o', (forall k rk did sels data, o' <> SWrite k rk did sels data) -> forall k, ~ SubToolSpec.wrote k [o'] /\ ~ writes_bytes k [o']).
  { intros o' N k. split; [intros (rk & did & sels & data & [I|[]] & _)|intros (rk & did & sels & data & [I|[]] & _)]; exact (N _ _ _ _ _ I). }
  assert (Q : forall o' gs', (forall k rk did sels data, o' <> SWrite k rk did sels data) -> Forall2 (hstep False False) (sf_groups s) gs' ->
    (length gs' = n /\ Forall hg gs') /\ forall k sg, nth_error (sf_groups s) k = Some sg -> exists sg', nth_error gs' k = Some sg' /\ hstep (SubToolSpec.wrote k [o']) (writes_bytes k [o']) sg sg').
  { intros o' gs' N F. split; [split; [rewrite (F2_length' _ _ _ _ _ F); exact W1|apply (F2_right _ _ _ _ _ _ F); intros x y [A _]; exact A]|].
    intros k sg Hk. destruct (F2_at _ _ _ _ _ _ _ F Hk) as (sg' & A & B). exists sg'. split; [exact A|]. destruct (QN o' N k) as [N1 N2]. apply (hstep_ext False False); [exact B|tauto|tauto]. }
  destruct o as [d|did dims|gid rk did sels data|doffs|doffs calls|doffs nps]; try contradiction Ho; cbn [sub_step] in H.
  - destruct (smap (group_step e (OCreate d)) (sf_groups s)) as [gs| | |] eqn:E; try discriminate H. cbn in H. injection H as <- <-.
    destruct (Q (SCreate d) gs) as [Q1 Q2]; [discriminate| |split; [exact Q1|split; [reflexivity|exact Q2]]].
    apply smap_F2 in E. eapply F2_impl; [exact (F2_wf _ _ _ _ _ E W2)|]. intros x y [A B]. exact (quiet_hstep e (OCreate d) x y Logic.I A B).
  - destruct (smap (group_step e (OSetExtent did dims)) (sf_groups s)) as [gs| | |] eqn:E; try discriminate H. cbn in H. injection H as <- <-.
    destruct (Q (SSetExtent did dims) gs) as [Q1 Q2]; [discriminate| |split; [exact Q1|split; [reflexivity|exact Q2]]].
    apply smap_F2 in E. eapply F2_impl; [exact (F2_wf _ _ _ _ _ E W2)|]. intros x y [A B]. exact (quiet_hstep e (OSetExtent did dims) x y Logic.I A B).
  - destruct (nth_error (sf_groups s) gid) as [sg|] eqn:En; [|discriminate H].
    destruct (group_step e (OWrite rk did sels data) sg) as [sg'| | |] eqn:E; try discriminate H. cbn in H. injection H as <- <-.
    assert (Hg : hg sg) by (rewrite Forall_forall in W2; apply W2; exact (nth_error_In _ _ En)).
    pose proof (write_hstep _ _ _ _ _ _ _ Hg E) as F. split; [|split; [reflexivity|]].
    + split; cbn [sf_groups with_groups]; [rewrite BaseProofs.upd_nth_length; exact W1|]. apply Forall_upd_nth; [exact W2|]. exact (proj1 F).
    + intros k x Hk. cbn [sf_groups with_groups]. destruct (Nat.eq_dec k gid) as [->|Ne].
      * assert (x = sg) by congruence. subst x. exists sg'. split; [apply nth_error_upd_nth_eq; apply nth_error_Some; congruence|].
        apply (hstep_ext _ _ _ _ _ _ F).
        -- split; [intros S; exists rk, did, sels, data; split; [left; reflexivity|exact S]|]. intros (r & i & l & v & [I|[]] & S). injection I as <- <- <- <-. exact S.
        -- intros (r & i & l & v & [I|[]] & S). injection I as <- <- <- <-. exact S.
      * exists x. split; [rewrite nth_error_upd_nth_ne by congruence; exact Hk|]. apply (hstep_ext False False); [apply hstep_refl; rewrite Forall_forall in W2; apply W2; exact (nth_error_In _ _ Hk)| |].
        -- split; [tauto|]. intros (r & i & l & v & [I|[]] & S). congruence.
        -- intros (r & i & l & v & [I|[]] & S). congruence.
  - destruct (pre_hang n doffs s W Ho) as (s1 & P1 & P2 & P3). rewrite P1 in H. cbn in H. injection H as <- <-.
    destruct (Q (SFlush doffs) (sf_groups s1)) as [Q1 Q2]; [discriminate| |split; [exact Q1|split; [exact P2|exact Q2]]].
    eapply F2_impl; [exact P3|]. intros x y [A _]. exact A.
Qed.

Lemma wrote_cons : forall k o ops, SubToolSpec.wrote k (o :: ops) <-> SubToolSpec.wrote k [o] \/ SubToolSpec.wrote k ops.
Proof.
  intros k o ops. split.
  - intros (r & i & l & v & [I|I] & S); [left|right]; exists r, i, l, v; (split; [|exact S]); [left; exact I|exact I].
  - intros [(r & i & l & v & [I|[]] & S)|(r & i & l & v & I & S)]; exists r, i, l, v; (split; [|exact S]); [left; exact I|right; exact I].
Qed.
Lemma bytes_cons : forall k o ops, writes_bytes k (o :: ops) -> writes_bytes k [o] \/ writes_bytes k ops.
Proof. intros k o ops (r & i & l & v & [I|I] & S); [left|right]; exists r, i, l, v; (split; [|exact S]); [left; exact I|exact I]. Qed.

Lemma run_hang : forall e n ops s s' outs, hwf n s -> Forall (writing_op n) ops -> sub_run e s ops = SOk (s', outs) ->
  hwf n s' /\ sf_cfg s' = sf_cfg s /\
  forall k sg, nth_error (sf_groups s) k = Some sg -> exists sg', nth_error (sf_groups s') k = Some sg' /\ hstep (SubToolSpec.wrote k ops) (writes_bytes k ops) sg sg'.
Proof.
  intros e n ops. induction ops as [|o ops IH]; intros s s' outs W Ho R; cbn [sub_run] in R.
  - injection R as <- <-. split; [exact W|]. split; [reflexivity|]. intros k sg Hk. exists sg. split; [exact Hk|].
    apply (hstep_ext False False); [apply hstep_refl; destruct W as [_ W]; rewrite Forall_forall in W; apply W; exact (nth_error_In _ _ Hk)| |].
    + split; [tauto|]. intros (r & i & l & v & [] & _).
    + intros (r & i & l & v & [] & _).
  - destruct (sub_step e s o) as [[s1 out]| | |] eqn:E; try discriminate R. cbn [sbind fst snd] in R.
    destruct (sub_run e s1 ops) as [[s2 r]| | |] eqn:R1; try discriminate R. cbn in R. injection R as <- <-. inversion Ho as [|x y Ho1 Ho2]; subst.
    destruct (step_hang e n s o s1 out W Ho1 E) as (W' & C & F). destruct (IH s1 s2 r W' Ho2 R1) as (W'' & C' & F'). split; [exact W''|]. split; [congruence|].
    intros k sg Hk. destruct (F k sg Hk) as (sg1 & K1 & (A1 & A2 & A3 & A4)). destruct (F' k sg1 K1) as (sg2 & K2 & (B1 & B2 & B3 & B4)). exists sg2. split; [exact K2|].
    split; [exact B1|]. split; [rewrite B2, A2, (wrote_cons k o ops); tauto|]. split; [intros X; exact (B3 (A3 X))|]. intros D. destruct (bytes_cons _ _ _ D) as [D'|D']; auto.
Qed.

Lemma init_hwf : forall name cfg nps f0, hwf (length nps) (sub_init name cfg nps f0) /\ Forall (fun sg => idle (s_g (sg_sys sg))) (sf_groups (sub_init name cfg nps f0)).
Proof.
  intros name cfg nps f0. pose proof (init_swf name cfg nps f0) as (S1 & S2 & S3). split; [split; [exact S1|]|].
  - cbn. apply Forall_map. apply Forall_forall. intros np Hin. split; [|split].
    + cbn in S3. rewrite Forall_map in S3. rewrite Forall_forall in S3. exact (S3 np Hin).
    + unfold qpos, qs. cbn. rewrite Forall_map. apply Forall_forall. intros st Hst. apply repeat_spec in Hst. subst st. constructor.
    + reflexivity.
  - cbn. apply Forall_map. apply Forall_forall. intros np Hin. unfold idle, qs. cbn. rewrite Forall_map. apply Forall_forall. intros st Hst. apply repeat_spec in Hst. subst st. reflexivity.
Qed.

Lemma uneven_read : forall e name cfg nps f0 ops a b s outs doffs calls, e_coll e = true -> has cfg CFG_SINGLE_SUBFILE_READ = true ->
  Forall (writing_op (length nps)) ops -> (b < length nps)%nat -> writes_bytes a ops -> ~ SubToolSpec.wrote b ops ->
  sub_run e (sub_init name cfg nps f0) ops = SOk (s, outs) -> length doffs = length nps -> sub_step e s (SRead doffs calls) = SHang.
Proof.
  intros e name cfg nps f0 ops a b s outs doffs calls He Hc Ho Hb Wa Wb R L.
  destruct (init_hwf name cfg nps f0) as [W I]. destruct (run_hang _ _ _ _ _ _ W Ho R) as (Ws & C & F).
  assert (Ha : (a < length nps)%nat).
  { destruct Wa as (rk & did & sels & data & Hin & _). rewrite Forall_forall in Ho. exact (Ho _ Hin). }
  assert (Wa' : SubToolSpec.wrote a ops) by (destruct Wa as (rk & did & sels & data & Hin & S & _); exists rk, did, sels, data; split; assumption).
  destruct (nth_error_lt_some _ (sf_groups (sub_init name cfg nps f0)) a) as [ga Ga]; [rewrite (proj1 W); exact Ha|].
  destruct (nth_error_lt_some _ (sf_groups (sub_init name cfg nps f0)) b) as [gb Gb]; [rewrite (proj1 W); exact Hb|].
  destruct (F a ga Ga) as (sa & Sa & (A1 & A2 & A3 & A4)). destruct (F b gb Gb) as (sb & Sb & (B1 & B2 & B3 & B4)).
  assert (Ib : idle (s_g (sg_sys gb))) by (rewrite Forall_forall in I; exact (I _ (nth_error_In _ _ Gb))).
  cbn [sub_step]. rewrite He. cbn [andb]. destruct (pre_hang _ doffs s Ws L) as (s1 & P1 & P2 & P3). rewrite P1. cbn [sbind]. unfold sub_read. rewrite P2, C.
  change (sf_cfg (sub_init name cfg nps f0)) with cfg. rewrite Hc.
  destruct (F2_at _ _ _ _ _ _ _ P3 Sa) as (ta & Ta & ((D1 & D2 & _) & D3)). destruct (F2_at _ _ _ _ _ _ _ P3 Sb) as (tb & Tb & ((E1 & E2 & _) & _)).
  assert (existsb (fun sg => g_metadirty (s_g (sg_sys sg))) (sf_groups s1) = true) as ->.
  { apply existsb_exists. exists ta. split; [exact (nth_error_In _ _ Ta)|]. exact (D3 (A4 Wa)). }
  assert (Na : has_entries (s_g (sg_sys ta)) = true).
  { destruct (has_entries (s_g (sg_sys ta))) eqn:E; [reflexivity|]. exfalso. apply (entries_qs _ (proj1 (proj2 D1))) in E. apply D2 in E. destruct E as [E _]. apply A2 in E. exact (proj2 E Wa'). }
  assert (Nb : has_entries (s_g (sg_sys tb)) = false).
  { apply (entries_qs _ (proj1 (proj2 E1))). apply E2. split; [|tauto]. apply B2. split; assumption. }
  unfold sub_metaflush.
  assert (existsb (fun b => b) (map (fun sg => has_entries (s_g (sg_sys sg))) (sf_groups s1)) = true) as ->.
  { apply existsb_exists. exists true. split; [|reflexivity]. apply in_map_iff. exists ta. split; [exact Na|exact (nth_error_In _ _ Ta)]. }
  assert (forallb (fun b => b) (map (fun sg => has_entries (s_g (sg_sys sg))) (sf_groups s1)) = false) as ->.
  { apply Bool.not_true_is_false. intros T. rewrite forallb_forall in T. specialize (T false). discriminate T. apply in_map_iff. exists tb. split; [exact Nb|exact (nth_error_In _ _ Tb)]. }
  reflexivity.
Qed.
