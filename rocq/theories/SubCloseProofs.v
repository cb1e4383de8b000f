(** Closing a file with subfiles. *)
From Coq Require Import Ascii String ZifyNat.
From Verif Require Import Base BaseProofs Spec MetaModel QueueModel FlushModel IndexModel ReadModel SysModel SysSpec History HistoryProofs ClaimProofs AnyProofs
  SubModel SubSpec SubProofs SubClaims DumpModel ReplayDataModel SubToolModel SubToolSpec SubToolProofs.
Open Scope list_scope. Open Scope Z_scope.

(** ** Sizes of the queued entries *)
Definition szs (st : rank) : list Z := map (fun w => h_size (w_hdr w)) (k_wreqs st).
Definition qs (g : gfile) : list (list Z) := map szs (g_ranks g).

Lemma szs_assign : forall ws off, map (fun w => h_size (w_hdr w)) (assign_foff off ws) = map (fun w => h_size (w_hdr w)) ws.
Proof. induction ws as [|w ws IH]; intros off; [reflexivity|]. cbn [assign_foff map]. rewrite IH. reflexivity. Qed.
Lemma flushed_unflushed : forall st, flushed st ++ unflushed st = k_wreqs st.
Proof. intros st. apply firstn_skipn. Qed.
Lemma szs_rank_assign : forall st, szs (rank_assign st) = szs st.
Proof. intros st. unfold szs, rank_assign. cbn [k_wreqs]. rewrite map_app, szs_assign, <- map_app, flushed_unflushed. reflexivity. Qed.
Lemma szs_rank_flushed : forall b st, szs (rank_flushed b st) = szs st.
Proof.
  intros b st. unfold szs, rank_flushed. cbv zeta. cbn [k_wreqs]. rewrite map_app, map_map. cbn [set_foff w_hdr h_size]. rewrite szs_assign, <- map_app, flushed_unflushed. reflexivity.
Qed.
Lemma exscan_len : forall l a, length (exscan a l) = length l.
Proof. induction l; intros; cbn; auto. Qed.
Lemma qs_flush : forall doff g, qs (flush_writes doff g) = qs g.
Proof.
  intros doff g. unfold flush_writes, qs. destruct (_ =? 0); cbn [g_ranks]; rewrite map_map.
  - apply map_ext. apply szs_rank_assign.
  - set (bases := map (fun o => o + doff) _). assert (HL : length bases = length (g_ranks g)) by (unfold bases; rewrite map_length, exscan_len, map_length; reflexivity).
    clearbody bases. revert bases HL. induction (g_ranks g) as [|st l IH]; intros [|b bs] HL; try discriminate; [reflexivity|]. cbn [combine map fst snd]. rewrite szs_rank_flushed. f_equal. apply IH. cbn in HL. lia.
Qed.

Lemma mk_size : forall cfg did d md sels, 0 < h_size (w_hdr (mk_wreq cfg did d md sels)).
Proof.
  intros. unfold mk_wreq. cbv zeta. cbn [w_hdr h_size]. change (Z.of_nat HDR) with 28.
  set (rec := is_rec d sels). destruct (1 <? length sels)%nat eqn:E1; cbn [andb].
  - apply Nat.ltb_lt in E1. match goal with |- context [if ?b && _ then _ else _] => destruct b eqn:E2 end; cbn [andb]; [destruct (has cfg CFG_SEL_ENCODE)|]; destruct rec; try nia.
    all: try apply Nat.ltb_lt in E2; nia.
  - destruct rec; nia.
Qed.
Lemma finish_size : forall z cfg st r r' tbl zb, 0 < h_size (w_hdr r) -> finish_meta z cfg st r = Ok (r', tbl, zb) -> 0 < h_size (w_hdr r').
Proof.
  intros z cfg st r r' tbl zb H HF. unfold finish_meta in HF. destruct (dedup cfg st r) as [[[r1 t1] sz1]| |] eqn:ED; try discriminate. cbn [bind] in HF.
  assert (K : h_size (w_hdr r1) = h_size (w_hdr r) /\ (r1 = r /\ sz1 = selsize_of r \/ sz1 = 8)).
  { unfold dedup in ED. cbv zeta in ED. destruct (_ && _) in ED.
    - destruct (hash_find r (k_hash st)) as [[tgt|]| |]; try discriminate; cbn [bind] in ED; injection ED as <- <- <-; auto.
    - injection ED as <- <- <-. auto. }
  destruct K as [K1 K2]. destruct (compress_sel z (k_zbsize st) r1 sz1) as [[r2 sz2] zb2] eqn:EC. injection HF as <- <- <-.
  assert (C : h_size (w_hdr r2) = h_size (w_hdr r1) /\ w_selpos r2 = w_selpos r1 /\ (sz2 = sz1 \/ 0 <= sz2)).
  { unfold compress_sel in EC. destruct (has _ _).
    - destruct (z_deflate _ _ _) as [okc out]. cbv zeta in EC. destruct (_ && _) eqn:EB.
      + apply andb_prop in EB. destruct EB as [B1 B2]. destruct okc; [discriminate|]. apply Z.ltb_lt in B2. lia.
      + injection EC as <- <- <-. cbn. auto.
    - injection EC as <- <- <-. auto. }
  destruct C as (C1 & C2 & C3). unfold shrink. cbv zeta. destruct (Z.ltb_spec (Z.of_nat HDR + Z.of_nat (w_selpos r2) + sz2) (h_size (w_hdr r2))) as [L|L]; cbn [w_resize w_hdr h_size]; [|lia].
  change (Z.of_nat HDR) with 28 in *. destruct C3 as [->|C3]; [|lia]. destruct K2 as [[-> ->]| ->]; [|lia]. unfold selsize_of. change (Z.of_nat HDR) with 28. rewrite C2. lia.
Qed.

(** ** Who has something queued *)
Definition qpos (g : gfile) : Prop := Forall (Forall (fun n => 0 < n)) (qs g).
Definition idle (g : gfile) : Prop := Forall (fun l => l = []) (qs g).
Definition writing (o : op) : Prop := match o with ORead _ _ | OReopen _ _ => False | _ => True end.
Definition writes (o : op) : Prop := match o with OWrite _ _ (_ :: _) _ => True | _ => False end.

Lemma upd_idle : forall (l : list (list Z)) k x, (k < length l)%nat -> x <> [] -> ~ Forall (fun a => a = []) (upd_nth k x l).
Proof.
  intros l k x Hk Hx H. rewrite Forall_forall in H. apply Hx, H. apply (nth_error_In _ k). apply nth_error_upd_nth_eq. exact Hk.
Qed.
Lemma write_qs : forall z cfg infos st did sels data st', ds_write z cfg infos st did sels data = Ok st' ->
  match sels with [] => st' = st | _ => exists n, 0 < n /\ szs st' = szs st ++ [n] end.
Proof.
  intros z cfg infos st did sels data st' H. unfold ds_write in H. destruct sels as [|b sels]; [congruence|].
  destruct (nth_error infos _) as [[dip|]|]; try discriminate.
  destruct (finish_meta z cfg st (mk_wreq cfg did dip (k_mdsize st) (b :: sels))) as [[[r tbl] zb]| |] eqn:E; try discriminate. cbn [bind] in H. injection H as <-.
  exists (h_size (w_hdr r)). split; [apply (finish_size _ _ _ _ _ _ _ (mk_size _ _ _ _ _) E)|]. unfold szs. cbn [k_wreqs]. rewrite map_app. reflexivity.
Qed.
Lemma step_qs : forall e s o s' x, writing o -> step e s o = Ok (s', x) -> qpos (s_g s) ->
  qpos (s_g s') /\ (idle (s_g s') <-> idle (s_g s) /\ ~ writes o).
Proof.
  intros e [g i] o s' x Ho HS HQ. destruct o as [d|did dims|rk did sels data|doff|doff calls|doff np]; cbn [writing] in Ho; try (exfalso; exact Ho); cbn [step s_g s_idx] in *.
  - destruct (create_info _ d); try discriminate. injection HS as <- _. unfold qpos, idle, qs in *. cbn. tauto.
  - destruct (info_at _ did) as [[d|]|]; try discriminate. destruct (set_extent _ d dims) as [d' [|]]; try discriminate. injection HS as <- _. unfold qpos, idle, qs in *. cbn. tauto.
  - destruct (nth_error (g_ranks g) rk) as [st|] eqn:EK; try discriminate. destruct (ds_write _ _ _ _ _ _ _) as [st'| |] eqn:EW; try discriminate. cbn [bind] in HS. injection HS as <- _.
    apply write_qs in EW. unfold qpos, idle, qs in *. cbn [s_g set_ranks g_ranks]. rewrite !map_upd_nth.
    assert (EN : nth_error (map szs (g_ranks g)) rk = Some (szs st)) by (rewrite nth_error_map, EK; reflexivity).
    destruct sels as [|b sels].
    + subst st'. rewrite SysProofs.upd_nth_same by exact EN. cbn [writes]. tauto.
    + destruct EW as (n & Hn & EW). rewrite EW. cbn [writes]. split.
      * apply Forall_upd_nth; [exact HQ|]. apply Forall_app. split; [|constructor; auto]. rewrite Forall_forall in HQ. apply HQ. apply (nth_error_In _ rk). exact EN.
      * split; [|tauto]. intros H. exfalso. refine (upd_idle _ _ _ _ _ H); [apply nth_error_lt in EN; exact EN|]. destruct (szs st); discriminate.
  - injection HS as <- _. cbn [s_g]. unfold qpos, idle in *. destruct (any_pending g); rewrite ?qs_flush; cbn [writes]; tauto.
Qed.
Lemma run_qs : forall e ops s s' outs, Forall writing ops -> run e s ops = Ok (s', outs) -> qpos (s_g s) ->
  qpos (s_g s') /\ (idle (s_g s') <-> idle (s_g s) /\ Forall (fun o => ~ writes o) ops).
Proof.
  intros e ops. induction ops as [|o ops IH]; intros s s' outs HF HR HQ; cbn [run] in HR.
  - injection HR as <- _. split; [exact HQ|]. split; [intros; split; auto|tauto].
  - inversion HF as [|? ? Ho HF']; subst. destruct (step e s o) as [[s1 x]| |] eqn:E; try discriminate. cbn [bind fst snd] in HR.
    destruct (run e s1 ops) as [[s2 y]| |] eqn:R; try discriminate. cbn [bind fst snd] in HR. injection HR as <- _.
    destruct (step_qs _ _ _ _ _ Ho E HQ) as [Q1 Q2]. destruct (IH _ _ _ HF' R Q1) as [Q3 Q4]. split; [exact Q3|]. rewrite Q4, Q2. split.
    + intros [[A B] C]. split; [exact A|]. constructor; auto.
    + intros [A B]. inversion B; subst. auto.
Qed.

Lemma zsum_pos : forall l, Forall (fun n => 0 < n) l -> 0 <= Zsum l /\ (Zsum l = 0 <-> l = []).
Proof.
  unfold Zsum. induction 1 as [|n l Hn _ [I1 I2]]; cbn [fold_right]; [split; [lia|tauto]|]. split; [lia|]. split; [lia|discriminate].
Qed.
Lemma zsum_cons : forall a l, Zsum (a :: l) = a + Zsum l.
Proof. reflexivity. Qed.
Lemma entries_qs : forall g, qpos g -> has_entries g = false <-> idle g.
Proof.
  intros g H. unfold has_entries, qpos, idle, qs in *.
  assert (HL : forall st, meta_len st = Zsum (szs st)) by reflexivity.
  assert (HS : Zsum (meta_sizes (g_ranks g)) = (match g_ranks g with [] => 0 | _ => 8 * (Zlen (g_ranks g) + 1) end) + Zsum (map (fun st => Zsum (szs st)) (g_ranks g))).
  { unfold meta_sizes. destruct (g_ranks g) as [|st l]; [reflexivity|]. cbn [map]. rewrite !zsum_cons. change (map meta_len l) with (map (fun st => Zsum (szs st)) l). rewrite (HL st). lia. }
  rewrite HS. clear HS HL.
  assert (K : 0 <= Zsum (map (fun st => Zsum (szs st)) (g_ranks g)) /\ (Zsum (map (fun st => Zsum (szs st)) (g_ranks g)) = 0 <-> Forall (fun l : list Z => l = []) (map szs (g_ranks g)))).
  { induction (g_ranks g) as [|st l IH]; cbn [map]; [split; [cbn; lia|split; [constructor|reflexivity]]|]. cbn [map] in H. inversion H; subst. destruct (IH H3) as [I1 I2].
    destruct (zsum_pos _ H2) as [Z1 Z2]. rewrite !zsum_cons. split; [lia|]. split.
    - intros E. constructor; [apply Z2; lia|apply I2; lia].
    - intros E. inversion E as [|? ? E1 E2]; subst. rewrite (proj2 Z2 E1), (proj2 I2 E2). reflexivity. }
  destruct K as [K1 K2]. rewrite <- K2. rewrite Z.ltb_ge. destruct (g_ranks g) as [|st l] eqn:ER.
  - cbn. lia.
  - lia.
Qed.

(** ** Closing *)
Lemma qs_clean : forall g g', clean g = clean g' -> qs g = qs g'.
Proof. intros g g' H. unfold qs. destruct (clean_eq _ _ H) as (_ & _ & -> & _). reflexivity. Qed.
Lemma entries_clean : forall g g', clean g = clean g' -> has_entries g = has_entries g'.
Proof. intros g g' H. unfold has_entries. destruct (clean_eq _ _ H) as (_ & _ & -> & _). reflexivity. Qed.
Lemma metaflush_clean' : forall g g', clean g = clean g' -> metaflush g = metaflush g'.
Proof. intros g g' H. unfold metaflush. destruct (clean_eq _ _ H) as (-> & -> & -> & -> & -> & ->). reflexivity. Qed.
Lemma metaflush_sim : forall sg s, sim sg s -> exists sg1, metaflush_group sg = SOk sg1 /\ s_g (sg_sys sg1) = metaflush (s_g s) /\ sg_nmd sg1 = length (g_mdsets (metaflush (s_g s))).
Proof.
  intros sg s (H1 & H2 & H3). unfold metaflush_group. cbv zeta. rewrite (entries_clean _ _ H1). destruct (clean_eq _ _ H1) as (_ & _ & _ & _ & C5 & _).
  assert (HM : g_mdsets (metaflush (s_g s)) = if has_entries (s_g s) then g_mdsets (s_g s) ++ [md_content (g_ranks (s_g s))] else g_mdsets (s_g s)) by reflexivity.
  destruct (has_entries (s_g s)).
  - destruct (Nat.ltb_spec (sg_nmd sg) (length (g_mdsets (s_g (sg_sys sg))))); [rewrite C5 in *; lia|]. eexists. split; [reflexivity|]. cbn [sg_sys s_g sg_nmd].
    split; [apply metaflush_clean'; exact H1|]. rewrite HM, app_length. cbn. lia.
  - eexists. split; [reflexivity|]. cbn [sg_sys s_g sg_nmd]. split; [apply metaflush_clean'; exact H1|]. rewrite HM. exact H3.
Qed.

(** What is left of a file on disk. *)
Definition left_on_disk (g : gfile) : gfile := mkg (g_cfg g) (g_infos g) [] (g_file g) (g_mdsets g) (g_nldset g) false.

Lemma idle_clean : forall doff g g', clean g' = clean (flush_writes doff g) -> qs g' = qs g.
Proof. intros doff g g' H. rewrite (qs_clean _ _ H). apply qs_flush. Qed.
Lemma close_sim : forall s st doffs, length doffs = length (sf_groups s) -> sims (sf_groups s) st ->
  (forall k, (k < length (sf_groups s))%nat -> qpos (s_g (st k))) ->
  (forall k, (k < length (sf_groups s))%nat -> idle (s_g (st k))) \/ (forall k, (k < length (sf_groups s))%nat -> ~ idle (s_g (st k))) ->
  exists fs, sub_close doffs s = SOk (mkcl (sf_name s) (length (sf_groups s)) (combine (sf_created s) fs)) /\ length fs = length (sf_groups s) /\
    forall k f, nth_error fs k = Some f -> f = left_on_disk (close_file (nth k doffs 0) (s_g (st k))).
Proof.
  intros s st doffs HL HS HQ HI. unfold sub_close. destruct (flush_sims s doffs st HL HS) as (s1 & F1 & F2 & F3 & F4 & F5 & F6). rewrite F1. cbn [sbind].
  assert (HE : forall k sg, nth_error (sf_groups s1) k = Some sg -> has_entries (s_g (sg_sys sg)) = false <-> idle (s_g (st k))).
  { intros k sg Hk. assert (Hlt : (k < length (sf_groups s))%nat) by (apply nth_error_lt in Hk; lia). destruct (F6 _ _ Hk) as (C & _). cbn [s_g] in C.
    pose proof (idle_clean _ _ _ C) as E. unfold qpos, idle in *. rewrite <- E. specialize (HQ k Hlt). rewrite <- E in HQ. apply entries_qs. exact HQ. }
  unfold sub_metaflush. cbv zeta. set (w := map (fun sg => has_entries (s_g (sg_sys sg))) (sf_groups s1)).
  assert (HW : existsb (fun b => b) w && negb (forallb (fun b => b) w) = false).
  { destruct HI as [HI|HI].
    - assert (existsb (fun b => b) w = false) as ->; [|reflexivity]. apply Bool.not_true_is_false. intros T. apply existsb_exists in T. destruct T as (b & T1 & T2). subst b.
      apply in_map_iff in T1. destruct T1 as (sg & T1 & T2). apply In_nth_error in T2. destruct T2 as [k T2].
      pose proof (proj2 (HE _ _ T2) (HI k ltac:(apply nth_error_lt in T2; lia))). congruence.
    - assert (forallb (fun b => b) w = true) as ->; [|apply Bool.andb_false_r]. apply forallb_forall. intros b T1. apply in_map_iff in T1. destruct T1 as (sg & T1 & T2). subst b.
      apply In_nth_error in T2. destruct T2 as [k T2]. destruct (has_entries (s_g (sg_sys sg))) eqn:E; [reflexivity|]. exfalso. apply (HI k ltac:(apply nth_error_lt in T2; lia)). apply (HE _ _ T2). exact E. }
  rewrite HW.
  destruct (smap_all _ _ metaflush_group (sf_groups s1)) as (gs & G1 & G2 & G3).
  { apply all_exists. intros k sg Hk. destruct (metaflush_sim _ _ (F6 _ _ Hk)) as (sg1 & M & _). eauto. }
  rewrite G1. cbn [sbind]. exists (map on_disk gs). rewrite map_length. split; [f_equal; f_equal; lia|]. split; [lia|].
  intros k f Hf. rewrite nth_error_map in Hf. destruct (nth_error gs k) as [sg1|] eqn:E1; [|discriminate]. cbn in Hf. injection Hf as <-.
  destruct (nth_error_lt_some _ (sf_groups s1) k) as [sg Hsg]; [apply nth_error_lt in E1; lia|].
  destruct (G3 _ _ Hsg) as (b & B1 & B2). assert (b = sg1) by congruence. subst b.
  destruct (metaflush_sim _ _ (F6 _ _ Hsg)) as (sg2 & M1 & M2 & M3). assert (sg2 = sg1) by congruence. subst sg2. cbn [s_g] in M2, M3.
  unfold on_disk, left_on_disk, close_file. cbv zeta. rewrite M3, M2, firstn_all. reflexivity.
Qed.
Lemma close_hang : forall s st doffs a b, length doffs = length (sf_groups s) -> sims (sf_groups s) st ->
  (forall k, (k < length (sf_groups s))%nat -> qpos (s_g (st k))) ->
  (a < length (sf_groups s))%nat -> (b < length (sf_groups s))%nat -> ~ idle (s_g (st a)) -> idle (s_g (st b)) -> sub_close doffs s = SHang.
Proof.
  intros s st doffs a b HL HS HQ Ha Hb NA NB. unfold sub_close. destruct (flush_sims s doffs st HL HS) as (s1 & F1 & F2 & F3 & F4 & F5 & F6). rewrite F1. cbn [sbind].
  assert (HE : forall k sg, nth_error (sf_groups s1) k = Some sg -> has_entries (s_g (sg_sys sg)) = false <-> idle (s_g (st k))).
  { intros k sg Hk. assert (Hlt : (k < length (sf_groups s))%nat) by (apply nth_error_lt in Hk; lia). destruct (F6 _ _ Hk) as (C & _). cbn [s_g] in C.
    pose proof (idle_clean _ _ _ C) as E. unfold qpos, idle in *. rewrite <- E. specialize (HQ k Hlt). rewrite <- E in HQ. apply entries_qs. exact HQ. }
  unfold sub_metaflush. cbv zeta. set (w := map (fun sg => has_entries (s_g (sg_sys sg))) (sf_groups s1)).
  destruct (nth_error_lt_some _ (sf_groups s1) a) as [sa Hsa]; [lia|]. destruct (nth_error_lt_some _ (sf_groups s1) b) as [sb Hsb]; [lia|].
  assert (existsb (fun b => b) w = true) as ->.
  { apply existsb_exists. exists true. split; [|reflexivity]. apply in_map_iff. exists sa. split; [|apply nth_error_In in Hsa; exact Hsa].
    destruct (has_entries (s_g (sg_sys sa))) eqn:E; [reflexivity|]. exfalso. apply NA. apply (HE _ _ Hsa). exact E. }
  assert (forallb (fun b => b) w = false) as ->.
  { apply Bool.not_true_is_false. intros T. rewrite forallb_forall in T. specialize (T (has_entries (s_g (sg_sys sb)))). apply nth_error_In in Hsb as HI.
    rewrite (proj2 (HE _ _ Hsb) NB) in T. discriminate T. apply in_map_iff. exists sb. split; [|exact HI]. apply (HE _ _ Hsb). exact NB. }
  reflexivity.
Qed.

(** ** Whole sessions *)
Lemma own_writing : forall ng gid ops, Forall (writing_op ng) ops -> Forall writing (own_part gid ops).
Proof.
  intros ng gid ops H. unfold own_part. induction H as [|o ops Ho _ IH]; [constructor|]. cbn [flat_map]. apply Forall_app. split; [|exact IH].
  destruct o; cbn [own writing_op session_op] in *; try tauto; try (repeat constructor). destruct (_ =? _)%nat; repeat constructor.
Qed.
Lemma own_wrote : forall gid ops, Forall (fun o => ~ writes o) (own_part gid ops) <-> ~ wrote gid ops.
Proof.
  intros gid ops. rewrite Forall_forall. split.
  - intros H (rk & did & sels & data & W1 & W2). apply (H (OWrite rk did sels data)).
    + unfold own_part. apply in_flat_map. exists (SWrite gid rk did sels data). split; [exact W1|]. cbn [own]. rewrite Nat.eqb_refl. left. reflexivity.
    + destruct sels; [congruence|exact Logic.I].
  - intros H o Ho Hw. unfold own_part in Ho. apply in_flat_map in Ho. destruct Ho as (so & S1 & S2). destruct so; cbn [own] in S2.
    3: { destruct (Nat.eqb_spec gid0 gid) as [->|N]; [|destruct S2]. destruct S2 as [<-|[]]. cbn in Hw. apply H. exists rk, did, sels, data. split; [exact S1|]. destruct sels; [destruct Hw|discriminate]. }
    all: destruct S2 as [<-|[]]; exact Hw.
Qed.

Definition stk (e : env) (cfg : Z) (nps : list nat) (f0 : bytemap) (ops : list sop) (k : nat) : sys :=
  match run e (init (Z.land cfg 15) (nth k nps 0%nat) f0) (own_part k ops) with Ok p => fst p | _ => init 0 0 f0 end.
Lemma init_sims : forall name cfg nps f0, sims (sf_groups (sub_init name cfg nps f0)) (fun k => init (Z.land cfg 15) (nth k nps 0%nat) f0).
Proof.
  intros name cfg nps f0 k sg Hk. unfold sub_init in Hk. cbn [sf_groups] in Hk. rewrite nth_error_map in Hk. destruct (nth_error nps k) as [np|] eqn:E; [|discriminate].
  cbn in Hk. injection Hk as <-. rewrite (nth_error_nth nps k 0%nat E). repeat split.
Qed.
Lemma session : forall e name cfg nps f0 ops, Forall (writing_op (length nps)) ops ->
  (forall k, (k < length nps)%nat -> exists p, run e (init (Z.land cfg 15) (nth k nps 0%nat) f0) (own_part k ops) = Ok p) ->
  exists s outs, sub_run e (sub_init name cfg nps f0) ops = SOk (s, outs) /\ length (sf_groups s) = length nps /\ sf_name s = name /\
    sf_created s = map (create_path name) (seq 0 (length nps)) /\ sims (sf_groups s) (stk e cfg nps f0 ops) /\
    forall k, (k < length nps)%nat -> qpos (s_g (stk e cfg nps f0 ops k)) /\ (idle (s_g (stk e cfg nps f0 ops k)) <-> ~ wrote k ops).
Proof.
  intros e name cfg nps f0 ops HF HR.
  assert (HN : length (sf_groups (sub_init name cfg nps f0)) = length nps) by (unfold sub_init; cbn [sf_groups]; apply map_length).
  destruct (sub_run_sim e ops (sub_init name cfg nps f0) _ ltac:(rewrite HN; exact HF) (init_sims name cfg nps f0) ltac:(rewrite HN; exact HR)) as (s & outs & R1 & R2 & R3 & R4 & R5 & R6).
  exists s, outs. split; [exact R1|]. split; [lia|]. split; [exact R3|]. split; [exact R4|]. split.
  - intros k sg Hk. destruct (R6 _ _ Hk) as (p & P1 & P2). unfold stk. rewrite P1. exact P2.
  - intros k Hk. destruct (HR k Hk) as [[sk ok] Hp]. unfold stk. rewrite Hp. cbn [fst].
    destruct (run_qs _ _ _ _ _ (own_writing _ _ _ HF) Hp) as [Q1 Q2].
    { unfold qpos, qs, init. cbn [s_g g_ranks]. apply Forall_forall. intros l Hl. apply in_map_iff in Hl. destruct Hl as (st & <- & Hl). apply repeat_spec in Hl. subst st. constructor. }
    split; [exact Q1|]. rewrite Q2, own_wrote. split; [tauto|]. intros H. split; [|exact H].
    unfold idle, qs, init. cbn [s_g g_ranks]. apply Forall_forall. intros l Hl. apply in_map_iff in Hl. destruct Hl as (st & <- & Hl). apply repeat_spec in Hl. subst st. reflexivity.
Qed.
