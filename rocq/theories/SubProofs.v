(** Files with subfiles: each group refines a file of its own. *)
From Coq Require Import Ascii String.
From Verif Require Import Base BaseProofs Spec MetaModel QueueModel FlushModel IndexModel ReadModel SysModel SysSpec History
  GeomProofs MetaProofs QueueProofs IndexProofs ReadProofs HitProofs MdProofs StoreProofs FlushProofs ReadOneProofs SysProofs HistoryProofs ClaimProofs SubModel SubSpec.
From Coq Require Import ZifyNat ZifyN Permutation.
Open Scope list_scope. Open Scope Z_scope.

(** ** Lists *)
Lemma smap_all : forall A B (f : A -> sres B) l, Forall (fun a => exists b, f a = SOk b) l ->
  exists bs, smap f l = SOk bs /\ length bs = length l /\
    forall k a, nth_error l k = Some a -> exists b, nth_error bs k = Some b /\ f a = SOk b.
Proof.
  induction 1 as [|a l (b & Hb) _ IH]; cbn [smap].
  - exists []. split; [|split]; auto. intros [|k] a H; discriminate.
  - destruct IH as (bs & B1 & B2 & B3). rewrite Hb, B1. cbn [sbind]. exists (b :: bs). split; [reflexivity|]. split; [cbn; lia|].
    intros [|k] x H; cbn in *; [injection H as <-; eauto|]. apply B3; auto.
Qed.

Lemma smap_ok : forall A B (f : A -> sres B) l bs, smap f l = SOk bs -> length bs = length l /\
  forall k a, nth_error l k = Some a -> exists b, nth_error bs k = Some b /\ f a = SOk b.
Proof.
  induction l as [|a l IH]; cbn [smap]; intros bs H.
  - injection H as <-. split; auto. intros [|k] a H; discriminate.
  - destruct (f a) as [b| | |] eqn:E; try discriminate. cbn [sbind] in H. destruct (smap f l) as [r| | |]; try discriminate. cbn [sbind] in H.
    injection H as <-. destruct (IH _ eq_refl) as [I1 I2]. split; [cbn; lia|]. intros [|k] x Hx; cbn in *; [injection Hx as <-; eauto|]. apply I2; auto.
Qed.

Lemma combine_at : forall A B k (a : list A) (b : list B) x y, nth_error a k = Some x -> nth_error b k = Some y -> nth_error (combine a b) k = Some (x, y).
Proof. intros A B k. induction k as [|k IH]; intros [|a l] [|b l'] x y H1 H2; cbn in *; try discriminate; [congruence|auto]. Qed.

Lemma combine_from : forall A B k (a : list A) (b : list B) p, nth_error (combine a b) k = Some p -> nth_error a k = Some (fst p) /\ nth_error b k = Some (snd p).
Proof. intros A B k. induction k as [|k IH]; intros [|a l] [|b l'] p H; cbn in *; try discriminate; [injection H as <-; auto|auto]. Qed.

(** ** One group *)
Definition with_dirty (s : sys) (b : bool) : sys :=
  mksys (mkg (g_cfg (s_g s)) (g_infos (s_g s)) (g_ranks (s_g s)) (g_file (s_g s)) (g_mdsets (s_g s)) (g_nldset (s_g s)) b) (s_idx s).

Lemma inv_dirty : forall e cfg cv s sp h n C ms grs, inv e cfg cv s sp h n C ms grs ->
  inv e cfg cv (with_dirty s true) sp h n C ms grs.
Proof. intros e cfg cv s sp h n C ms grs I. constructor; cbn [with_dirty s_g s_idx g_cfg g_infos g_ranks g_file g_mdsets g_metadirty]; try (apply I). discriminate. Qed.

Definition queued (g : gfile) : Z := Zsum (map meta_len (g_ranks g)).

Lemma inv_queued : forall e cfg cv s sp h n C ms grs, inv e cfg cv s sp h n C ms grs ->
  0 <= queued (s_g s) /\ (queued (s_g s) = 0 <-> flat_map gr_fl grs = [] /\ all_pd grs = []) /\
  has_entries (s_g s) = negb (queued (s_g s) =? 0).
Proof.
  intros e cfg cv s sp h n C ms grs I. pose proof (v_ranks _ _ _ _ _ _ _ _ _ _ I) as HR. pose proof (v_np _ _ _ _ _ _ _ _ _ _ I) as [N1 _].
  assert (HQ : 0 <= queued (s_g s) /\ (queued (s_g s) = 0 <-> flat_map gr_fl grs = [] /\ all_pd grs = [])).
  { unfold queued, all_pd. clear - HR. induction HR as [|st gr l l' H1 H2 [IH1 IH2]]; [split; [cbn; lia|split; [auto|reflexivity]]|].
    cbn [map Zsum fold_right flat_map]. change (fold_right Z.add 0 (map meta_len l)) with (Zsum (map meta_len l)).
    pose proof (meta_len_nonneg _ _ _ _ _ _ H1) as P. split; [lia|].
    assert (E : meta_len st = 0 <-> gr_fl gr = [] /\ gr_pd gr = []).
    { destruct H1 as ([Q _ _] & _). pose proof (qrep_length _ _ _ _ _ _ _ Q) as QL. destruct (qrep_bytes_len _ _ _ _ _ _ _ Q) as [B1 B2].
      unfold meta_len in *. rewrite app_length, map_length in QL. split.
      - intros E. rewrite <- B1 in E. unfold Zlen in *. destruct (gr_fl gr), (gr_pd gr); cbn in *; try lia. auto.
      - intros [E1 E2]. rewrite E1, E2 in QL. destruct (k_wreqs st); [reflexivity|discriminate]. }
    split.
    - intros Z. assert (meta_len st = 0) by lia. assert (Zsum (map meta_len l) = 0) by lia. destruct (proj1 E H) as [E1 E2]. destruct (proj1 IH2 H0) as [E3 E4]. rewrite E1, E2, E3, E4. auto.
    - intros [Z1 Z2]. apply app_eq_nil in Z1, Z2. assert (meta_len st = 0) by tauto. assert (Zsum (map meta_len l) = 0) by tauto. lia. }
  split; [tauto|]. split; [tauto|].
  assert (HS : Zsum (meta_sizes (g_ranks (s_g s))) = 8 * (Zlen (g_ranks (s_g s)) + 1) + queued (s_g s)).
  { pose proof (Forall2_length _ _ _ _ _ HR) as HL. unfold meta_sizes, queued. destruct (g_ranks (s_g s)) as [|r rs]; [cbn in HL; lia|]. cbn [map Zsum fold_right]. lia. }
  unfold has_entries. rewrite HS. destruct (Z.ltb_spec (8 * (Zlen (g_ranks (s_g s)) + 1)) (8 * (Zlen (g_ranks (s_g s)) + 1) + queued (s_g s))), (Z.eqb_spec (queued (s_g s)) 0); try reflexivity; lia.
Qed.

(** Group [sg] is, for its own processes, a file with specification state [sp]; the history goes on
    with the calls [fut]. *)
Record gok (e : env) (cfg : Z) (cv : conv) (sg : sgroup) (t : trace) (fut : list op) : Prop := {
  k_ex : exists sp h n C ms grs, inv e cfg cv (sg_sys sg) sp h n C ms grs /\ hrel sp t /\
    ok_run e cfg cv sp h fut /\ n + Z.of_nat (length fut) < 2 ^ 30 }.

Definition counted (sg : sgroup) : Prop :=
  sg_nld sg = g_nldset (s_g (sg_sys sg)) /\ sg_nmd sg = length (g_mdsets (s_g (sg_sys sg))).

(** Calls that only concern the table of datasets or the queue. *)
Lemma gok_local : forall e cfg cv sg t o fut, e_coll e = true -> is_sort (e_sort e) ->
  match o with OCreate _ | OSetExtent _ _ | OWrite _ _ _ _ => True | _ => False end ->
  gok e cfg cv sg t (o :: fut) ->
  exists sg', group_step e o sg = SOk sg' /\ gok e cfg cv sg' (tstep true t o) fut /\ (counted sg -> counted sg') /\
    g_nldset (s_g (sg_sys sg')) = g_nldset (s_g (sg_sys sg)) /\ sg_nld sg' = sg_nld sg /\ g_cfg (s_g (sg_sys sg')) = g_cfg (s_g (sg_sys sg)) /\
    (match o with OWrite _ _ (_ :: _) _ => queued (s_g (sg_sys sg')) <> 0 | _ => True end) /\
    (queued (s_g (sg_sys sg)) <> 0 -> queued (s_g (sg_sys sg')) <> 0) /\
    (match o with OWrite _ _ (_ :: _) _ => True | _ => queued (s_g (sg_sys sg')) = queued (s_g (sg_sys sg)) end) /\
    (match o with OWrite _ _ (_ :: _) _ => group_size (s_g (sg_sys sg')) <> 0 | _ => True end).
Proof.
  intros e cfg cv sg t o fut HE HSo Ho [(sp & h & n & C & ms & grs & I & R & (O1 & O2) & Hn)].
  cbn [length] in Hn. pose proof (hrel_step _ _ _ _ _ _ _ R O1) as R1. rewrite HE in R1, O2.
  assert (HK : forall s' out, step e (sg_sys sg) o = Ok (s', out) ->
     g_nldset (s_g s') = g_nldset (s_g (sg_sys sg)) /\ g_mdsets (s_g s') = g_mdsets (s_g (sg_sys sg)) /\ g_cfg (s_g s') = g_cfg (s_g (sg_sys sg)) /\
     (match o with OWrite _ _ _ _ => True | _ => g_ranks (s_g s') = g_ranks (s_g (sg_sys sg)) end)).
  { intros s' out Hs. destruct o; try tauto; cbn [step] in Hs.
    - destruct (create_info _ d); try discriminate. cbn [bind] in Hs. injection Hs as <- <-. auto.
    - destruct (info_at _ did) as [[d|]|]; try discriminate. destruct (set_extent _ d dims) as [d' []]; try discriminate. injection Hs as <- <-. auto.
    - destruct (nth_error _ rk); try discriminate. destruct (ds_write _ _ _ _ _ _ _); try discriminate. cbn [bind] in Hs. injection Hs as <- <-. auto. }
  destruct (step_ok _ _ _ _ _ _ _ _ _ _ o I HSo O1 ltac:(lia)) as (s' & C' & ms' & grs' & S1 & S2). rewrite HE in S1, S2.
  assert (S3 : snd (sstep true sp o) = []) by (destruct o; try tauto; reflexivity). rewrite S3 in S1.
  destruct (HK _ _ S1) as (K1 & K2 & K3 & K4).
  unfold group_step. rewrite S1. cbn [lift sbind fst]. eexists. split; [reflexivity|]. cbn [sg_sys sg_nld sg_nmd].
  split. { constructor. exists (fst (sstep true sp o)), (hstep e sp h o), (n + 1), C', ms', grs'. cbn [sg_sys]. repeat (split; auto). lia. }
  split. { unfold counted. cbn [sg_sys sg_nld sg_nmd]. rewrite K1, K2. auto. }
  split; auto. split; auto. split; auto.
  destruct o as [d|did dims|rk did sels data| | |]; try tauto.
  1,2: unfold queued; rewrite K4; auto.
  (* writes *)
  destruct (step_write _ _ _ _ _ _ _ _ _ _ rk did sels data I O1 ltac:(lia)) as (s2 & W1 & W2). rewrite HE in W2. set (grs2 := gwrite rk (mkawr did sels data) grs) in *.
  assert (s2 = s') by congruence. subst s2.
  pose proof (inv_queued _ _ _ _ _ _ _ _ _ _ I) as (Q0 & Q1 & _). pose proof (inv_queued _ _ _ _ _ _ _ _ _ _ W2) as (Q0' & Q1' & _).
  pose proof (inv_pend _ _ _ _ _ _ _ _ _ _ I) as (_ & P2 & _). pose proof (inv_pend _ _ _ _ _ _ _ _ _ _ W2) as (PB & P2' & _).
  destruct O1 as (seen & Hseen & _).
  assert (Hrk : (rk < length (ss_pend sp))%nat).
  { rewrite (v_pend _ _ _ _ _ _ _ _ _ _ I), map_length, (Forall2_length _ _ _ _ _ (v_seen _ _ _ _ _ _ _ _ _ _ I)). apply nth_error_Some. congruence. }
  assert (HB : group_size (s_g s') = abytes (all_pd grs2)).
  { unfold group_size. destruct (sizes_eq _ _ _ _ _ _ (v_ranks _ _ _ _ _ _ _ _ _ _ W2)) as (Z1 & _). rewrite Z1. apply abytes_all. }
  destruct sels as [|b sels].
  - cbn [sstep fst] in *. assert (s' = sg_sys sg).
    { cbn [step] in S1. destruct (nth_error (g_ranks (s_g (sg_sys sg))) rk) as [st|] eqn:Er; [|discriminate]. unfold ds_write in S1. cbn [bind] in S1.
      injection S1 as <-. replace st with (nth rk (g_ranks (s_g (sg_sys sg))) st) at 1 by (apply nth_error_nth; auto). rewrite upd_nth_same by auto. destruct (sg_sys sg) as [[] ?]; reflexivity. }
    subst s'. auto.
  - cbn [sstep fst] in P2'. cbn [ss_pend] in P2'.
    assert (Hne : all_pd grs2 <> []).
    { intros Q. rewrite Q in P2'. cbn [map] in P2'.
      assert (HI : In (mkpw did (b :: sels) data) (concat (upd_nth rk (nth rk (ss_pend sp) [] ++ [mkpw did (b :: sels) data]) (ss_pend sp)))).
      { apply in_concat. exists (nth rk (ss_pend sp) [] ++ [mkpw did (b :: sels) data]). split; [|apply in_or_app; cbn; auto].
        apply (nth_error_In _ rk). apply nth_error_upd_nth_eq. auto. }
      rewrite P2' in HI. destruct HI. }
    split; [tauto|]. split; [tauto|]. split; auto.
    rewrite HB. pose proof (abytes_pos _ _ _ (v_pok _ _ _ _ _ _ _ _ _ _ W2) Hne). lia.
Qed.

(** ** Flush and metadata flush of one group *)
Lemma inv_size : forall e cfg cv s sp h n C ms grs, inv e cfg cv s sp h n C ms grs -> group_size (s_g s) = abytes (all_pd grs).
Proof.
  intros e cfg cv s sp h n C ms grs I. unfold group_size. destruct (sizes_eq _ _ _ _ _ _ (v_ranks _ _ _ _ _ _ _ _ _ _ I)) as (Z1 & _).
  rewrite Z1. apply abytes_all.
Qed.

Lemma inv_nopd : forall e cfg cv s sp h n C ms grs, inv e cfg cv s sp h n C ms grs ->
  (group_size (s_g s) = 0 <-> all_pd grs = []) /\ (any_pending (s_g s) = false <-> all_pd grs = []).
Proof.
  intros e cfg cv s sp h n C ms grs I. rewrite (inv_size _ _ _ _ _ _ _ _ _ _ I). destruct (inv_pend _ _ _ _ _ _ _ _ _ _ I) as (_ & _ & P). rewrite P. split; split.
  - intros E. destruct (all_pd grs) eqn:Q; auto. rewrite <- Q in E. pose proof (abytes_pos _ _ _ (v_pok _ _ _ _ _ _ _ _ _ _ I) ltac:(congruence)). lia.
  - intros ->. reflexivity.
  - intros E. destruct (all_pd grs); auto. discriminate.
  - intros ->. reflexivity.
Qed.

Lemma flush_one : forall e cfg cv all sg sp h n C ms grs doff, inv e cfg cv (sg_sys sg) sp h n C ms grs -> ok_flush sp h doff -> counted sg ->
  exists sg' C' grs', flush_group all doff sg = SOk sg' /\ inv e cfg cv (sg_sys sg') (sflush sp) (hflush sp h doff) n C' ms grs' /\
    all_pd grs' = [] /\ counted sg' /\ queued (s_g (sg_sys sg')) = queued (s_g (sg_sys sg)).
Proof.
  intros e cfg cv all sg sp h n C ms grs doff I Hf [K1 K2].
  destruct (inv_flush _ _ _ _ _ _ _ _ _ _ doff I Hf) as (C' & grs' & I1 & I2).
  pose proof (flush_noop _ _ _ _ _ _ _ _ _ _ doff I) as FN. destruct (inv_nopd _ _ _ _ _ _ _ _ _ _ I) as [N1 N2].
  unfold flush_group. destruct (Z.eqb_spec (group_size (s_g (sg_sys sg))) 0) as [E|E].
  - assert (HA : any_pending (s_g (sg_sys sg)) = false) by tauto. rewrite HA in I1, FN.
    assert (HM : map rank_assign (g_ranks (s_g (sg_sys sg))) = g_ranks (s_g (sg_sys sg))).
    { unfold flush_writes in FN. fold (group_size (s_g (sg_sys sg))) in FN. rewrite E in FN. cbn [Z.eqb] in FN. apply (f_equal g_ranks) in FN. exact FN. }
    eexists _, C', grs'. split; [reflexivity|]. cbn [sg_sys sg_nld sg_nmd]. rewrite HM. split; [|split; [auto|split; [split; auto|reflexivity]]].
    destruct (sg_sys sg) as [[c i r f m nl d] ix]. cbn [s_g s_idx g_cfg g_infos g_ranks g_file g_mdsets g_nldset g_metadirty] in *.
    destruct (all =? 0); [exact I1|]. exact (inv_dirty _ _ _ _ _ _ _ _ _ _ I1).
  - assert (HA : any_pending (s_g (sg_sys sg)) = true) by (destruct (any_pending (s_g (sg_sys sg))); auto; exfalso; tauto). rewrite HA in I1.
    rewrite K1. destruct (Z.ltb_spec (g_nldset (s_g (sg_sys sg))) (g_nldset (s_g (sg_sys sg)))); [lia|].
    eexists _, C', grs'. split; [reflexivity|]. cbn [sg_sys sg_nld sg_nmd s_g]. split; [exact I1|]. split; [auto|]. split.
    + unfold counted. cbn [sg_sys sg_nld sg_nmd s_g]. unfold flush_writes. fold (group_size (s_g (sg_sys sg))). destruct (Z.eqb_spec (group_size (s_g (sg_sys sg))) 0); [tauto|]. cbn [g_nldset g_mdsets]. split; congruence.
    + pose proof (inv_pend _ _ _ _ _ _ _ _ _ _ I) as (P1 & _). rewrite (inv_size _ _ _ _ _ _ _ _ _ _ I) in E. unfold ok_flush in Hf. rewrite P1 in Hf. destruct (Hf E) as [Hf1 Hf2].
      pose proof (v_hi0 _ _ _ _ _ _ _ _ _ _ I) as Hhi0.
      pose proof (sizes_eq _ _ _ _ _ _ (v_ranks _ _ _ _ _ _ _ _ _ _ I)) as (Z1 & _).
      destruct (ranks_flush _ _ _ _ _ _ doff (v_ranks _ _ _ _ _ _ _ _ _ _ I) ltac:(lia) Hf2) as [R1 R2].
      unfold queued, flush_writes. rewrite Z1, abytes_all, exscan_shift. cbn [Z.add].
      destruct (Z.eqb_spec (abytes (all_pd grs)) 0); [lia|]. cbn [g_ranks]. rewrite R2. reflexivity.
Qed.

Lemma meta_one : forall e cfg cv sg sp h n C ms grs, inv e cfg cv (sg_sys sg) sp h n C ms grs -> all_pd grs = [] -> n <= 2 ^ 30 -> counted sg ->
  exists sg' ms' grs', metaflush_group sg = SOk sg' /\ inv e cfg cv (sg_sys sg') sp h n C ms' grs' /\
    all_pd grs' = [] /\ flat_map gr_fl grs' = [] /\ counted sg'.
Proof.
  intros e cfg cv sg sp h n C ms grs I HP Hn [K1 K2].
  destruct (inv_metaflush _ _ _ _ _ _ _ _ _ _ (inv_dirty _ _ _ _ _ _ _ _ _ _ I) HP Hn) as (ms' & grs' & I1 & I2 & I3).
  cbn [with_dirty s_g g_metadirty] in I1.
  assert (I4 : inv e cfg cv (mksys (metaflush (s_g (sg_sys sg))) None) sp h n C ms' grs') by exact I1.
  assert (HL : length (g_mdsets (metaflush (s_g (sg_sys sg)))) = if has_entries (s_g (sg_sys sg)) then S (sg_nmd sg) else sg_nmd sg).
  { unfold metaflush, has_entries. cbn [g_mdsets]. destruct (_ <? _); [rewrite app_length; cbn; lia|auto]. }
  unfold metaflush_group. destruct (has_entries (s_g (sg_sys sg))) eqn:E.
  - rewrite K2, Nat.ltb_irrefl. eexists _, ms', grs'. split; [reflexivity|]. cbn [sg_sys]. split; auto. split; auto. split; auto. split; cbn [sg_sys sg_nld sg_nmd s_g]; [exact K1|congruence].
  - eexists _, ms', grs'. split; [reflexivity|]. cbn [sg_sys]. split; auto. split; auto. split; auto. split; cbn [sg_sys sg_nld sg_nmd s_g]; [exact K1|congruence].
Qed.

(** ** All groups *)
Definition ginv (e : env) (cfg : Z) (cv : nat -> conv) (gs : list sgroup) (tr : nat -> trace) (w : list bool) (rest : list sop) : Prop :=
  length w = length gs /\
  forall k sg, nth_error gs k = Some sg ->
    gok e cfg (cv k) sg (tr k) (own_part k rest) /\ counted sg /\ (nth k w false = true <-> queued (s_g (sg_sys sg)) <> 0).

Lemma all_exists : forall A (P : A -> Prop) (l : list A), (forall k a, nth_error l k = Some a -> P a) -> Forall P l.
Proof. intros A P l H. apply Forall_forall. intros a Ha. apply In_nth_error in Ha. destruct Ha as [k Hk]. eauto. Qed.

Lemma nth_error_lt_some : forall A (l : list A) k, (k < length l)%nat -> exists a, nth_error l k = Some a.
Proof. intros A l k H. destruct (nth_error l k) eqn:E; eauto. apply nth_error_None in E. lia. Qed.

Lemma nth_map_false : forall A (w : list A) k, nth k (map (fun _ => false) w) false = false.
Proof. intros A w. induction w; intros [|k]; cbn; auto. Qed.

(** Creation and extension in every group. *)
Lemma smap_local : forall e cfg cv gs tr w rest o so, e_coll e = true -> is_sort (e_sort e) ->
  match o with OCreate _ | OSetExtent _ _ => True | _ => False end -> (forall k, own k so = [o]) ->
  ginv e cfg cv gs tr w (so :: rest) ->
  exists gs', smap (group_step e o) gs = SOk gs' /\ length gs' = length gs /\ ginv e cfg cv gs' (fun k => fold_left (tstep true) (own k so) (tr k)) w rest.
Proof.
  intros e cfg cv gs tr w rest o so HE HS Ho Hown [HL HG].
  assert (K : forall k sg, nth_error gs k = Some sg -> exists sg', group_step e o sg = SOk sg' /\ gok e cfg (cv k) sg' (tstep true (tr k) o) (own_part k rest) /\ counted sg' /\
    queued (s_g (sg_sys sg')) = queued (s_g (sg_sys sg))).
  { intros k sg Hk. destruct (HG k sg Hk) as (G1 & G2 & G3). unfold own_part in G1. cbn [flat_map] in G1. rewrite Hown in G1. cbn [app] in G1.
    assert (Ho' : match o with OCreate _ | OSetExtent _ _ | OWrite _ _ _ _ => True | _ => False end) by (destruct o; solve [exact Logic.I | destruct Ho]).
    destruct (gok_local _ _ _ _ _ _ _ HE HS Ho' G1) as (sg' & L1 & L2 & L3 & _ & _ & _ & _ & _ & L4 & _).
    exists sg'. split; auto. split; auto. split; auto. destruct o; solve [exact L4 | destruct Ho]. }
  destruct (smap_all _ _ (group_step e o) gs) as (gs' & B1 & B2 & B3).
  { apply all_exists. intros k sg Hk. destruct (K k sg Hk) as (sg' & L1 & _). eauto. }
  exists gs'. split; auto. split; auto. split; [lia|]. intros k sg' Hk.
  destruct (nth_error_lt_some _ gs k) as [sg Hsg]. { rewrite <- B2. apply nth_error_Some. congruence. }
  destruct (B3 k sg Hsg) as (b & Hb & Eb). assert (b = sg') by congruence. subst b.
  destruct (K k sg Hsg) as (sg2 & L1 & L2 & L3 & L4). assert (sg2 = sg') by congruence. subst sg2.
  rewrite Hown. cbn [fold_left]. split; auto. split; auto. rewrite L4. apply (HG k sg Hsg).
Qed.

Lemma sub_pending_spec : forall s, sub_pending s = false -> forall k sg, nth_error (sf_groups s) k = Some sg -> any_pending (s_g (sg_sys sg)) = false.
Proof.
  unfold sub_pending. intros s H k sg Hk. apply nth_error_In in Hk. destruct (any_pending (s_g (sg_sys sg))) eqn:E; auto.
  assert (existsb (fun sg0 => any_pending (s_g (sg_sys sg0))) (sf_groups s) = true) by (apply existsb_exists; exists sg; auto). congruence.
Qed.

(** A collective flush, of all groups or of none. *)
Lemma flush_all : forall e cfg cv s (doffs : list Z), length doffs = length (sf_groups s) ->
  forall st, (forall k sg, nth_error (sf_groups s) k = Some sg -> counted sg /\ exists C ms grs, inv e cfg (cv k) (sg_sys sg) (fst (fst (st k))) (snd (fst (st k))) (snd (st k)) C ms grs /\ ok_flush (fst (fst (st k))) (snd (fst (st k))) (nth k doffs 0)) ->
  exists s', (if sub_pending s then sub_flush doffs s else SOk s) = SOk s' /\ length (sf_groups s') = length (sf_groups s) /\
    sf_name s' = sf_name s /\ sf_cfg s' = sf_cfg s /\ sf_hdr s' = sf_hdr s /\ sf_created s' = sf_created s /\
    forall k sg', nth_error (sf_groups s') k = Some sg' -> exists sg C ms grs, nth_error (sf_groups s) k = Some sg /\
      counted sg' /\ queued (s_g (sg_sys sg')) = queued (s_g (sg_sys sg)) /\
      inv e cfg (cv k) (sg_sys sg') (sflush (fst (fst (st k)))) (hflush (fst (fst (st k))) (snd (fst (st k))) (nth k doffs 0)) (snd (st k)) C ms grs /\ all_pd grs = [].
Proof.
  intros e cfg cv s doffs HL st HG. destruct (sub_pending s) eqn:EP.
  - unfold sub_flush.
    assert (K : forall k sg, nth_error (sf_groups s) k = Some sg -> exists sg' C ms grs, flush_group (size_all s) (nth k doffs 0) sg = SOk sg' /\
      counted sg' /\ queued (s_g (sg_sys sg')) = queued (s_g (sg_sys sg)) /\
      inv e cfg (cv k) (sg_sys sg') (sflush (fst (fst (st k)))) (hflush (fst (fst (st k))) (snd (fst (st k))) (nth k doffs 0)) (snd (st k)) C ms grs /\ all_pd grs = []).
    { intros k sg Hk. destruct (HG k sg Hk) as (G1 & C & ms & grs & G2 & G3).
      destruct (flush_one _ _ _ (size_all s) _ _ _ _ _ _ _ _ G2 G3 G1) as (sg' & C' & grs' & F1 & F2 & F3 & F4 & F5). exists sg', C', ms, grs'. auto. }
    assert (HC : forall k p, nth_error (combine doffs (sf_groups s)) k = Some p -> nth_error (sf_groups s) k = Some (snd p) /\ fst p = nth k doffs 0).
    { intros k p Hp. destruct (combine_from _ _ _ _ _ _ Hp) as [C1 C2]. split; auto. symmetry. apply nth_error_nth. auto. }
    destruct (smap_all _ _ (fun p => flush_group (size_all s) (fst p) (snd p)) (combine doffs (sf_groups s))) as (gs' & B1 & B2 & B3).
    { apply all_exists. intros k p Hp. destruct (HC k p Hp) as [C1 C2]. destruct (K k _ C1) as (sg' & _ & _ & _ & F & _). rewrite C2. eauto. }
    rewrite combine_length in B2.
    rewrite B1. cbn [sbind]. eexists. split; [reflexivity|]. cbn [with_groups sf_groups sf_name sf_cfg sf_hdr sf_created].
    split; [lia|]. repeat (split; [reflexivity|]). intros k sg' Hk.
    destruct (nth_error_lt_some _ (sf_groups s) k) as [sg Hsg]. { apply nth_error_lt in Hk. lia. }
    destruct (nth_error_lt_some _ doffs k) as [d Hd]. { apply nth_error_lt in Hk. lia. }
    destruct (B3 k (d, sg) (combine_at _ _ _ _ _ _ _ Hd Hsg)) as (b & Hb & Eb). assert (b = sg') by congruence. subst b. cbn [fst snd] in Eb.
    destruct (K k sg Hsg) as (sg2 & C & ms & grs & F1 & F2). assert (HD : nth k doffs 0 = d) by (apply nth_error_nth; auto). rewrite HD in F1. assert (sg2 = sg') by congruence. subst sg2.
    exists sg, C, ms, grs. tauto.
  - exists s. split; auto. split; auto. repeat (split; [reflexivity|]). intros k sg Hk. destruct (HG k sg Hk) as (G1 & C & ms & grs & G2 & G3).
    pose proof (sub_pending_spec s EP k sg Hk) as Hno.
    destruct (inv_flush _ _ _ _ _ _ _ _ _ _ (nth k doffs 0) G2 G3) as (C' & grs' & I1 & I2). rewrite Hno in I1.
    exists sg, C', ms, grs'. split; auto. split; auto. split; auto. split; auto. destruct (sg_sys sg); exact I1.
Qed.

Lemma existsb_dirty : forall gs, existsb (fun sg => g_metadirty (s_g (sg_sys sg))) gs = false ->
  forall k sg, nth_error gs k = Some sg -> g_metadirty (s_g (sg_sys sg)) = false.
Proof.
  intros gs H k sg Hk. apply nth_error_In in Hk. destruct (g_metadirty (s_g (sg_sys sg))) eqn:E; auto.
  assert (existsb (fun sg0 => g_metadirty (s_g (sg_sys sg0))) gs = true) by (apply existsb_exists; exists sg; auto). congruence.
Qed.

Lemma no_hang : forall (gs : list sgroup) (w : list bool), length w = length gs ->
  (forall k sg, nth_error gs k = Some sg -> (nth k w false = true <-> has_entries (s_g (sg_sys sg)) = true)) ->
  (Forall (fun b => b = true) w \/ Forall (fun b => b = false) w) ->
  existsb (fun b => b) (map (fun sg => has_entries (s_g (sg_sys sg))) gs) && negb (forallb (fun b => b) (map (fun sg => has_entries (s_g (sg_sys sg))) gs)) = false.
Proof.
  intros gs w HL HG HW.
  assert (E : map (fun sg => has_entries (s_g (sg_sys sg))) gs = w).
  { clear HW. revert w HL HG. induction gs as [|sg gs IH]; intros [|b w] HL HG; try discriminate; [reflexivity|]. cbn [map]. f_equal.
    - pose proof (HG 0%nat sg eq_refl) as H. cbn in H. destruct b, (has_entries (s_g (sg_sys sg))); auto; destruct H as [H1 H2]; [apply H1; auto|symmetry; apply H2; auto].
    - apply IH; [cbn in HL; lia|]. intros k x Hk. apply (HG (S k) x Hk). }
  rewrite E. destruct HW as [H|H].
  - replace (forallb (fun b => b) w) with true; [apply Bool.andb_false_r|]. symmetry. apply forallb_forall. rewrite Forall_forall in H. auto.
  - replace (existsb (fun b => b) w) with false; [reflexivity|]. symmetry. apply not_true_is_false. intros Q. apply existsb_exists in Q. destruct Q as (b & Q1 & Q2). rewrite Forall_forall in H. rewrite (H b Q1) in Q2. discriminate.
Qed.

Lemma visible_all : forall sg, counted sg -> visible sg = s_g (sg_sys sg).
Proof. intros sg [_ K]. unfold visible. rewrite K, firstn_all. destruct (s_g (sg_sys sg)); reflexivity. Qed.

(** Metadata flush of all groups after a flush: no group waits for another. *)
Lemma metaflush_all : forall e cfg cv gs (w : list bool), length w = length gs ->
  (Forall (fun b => b = true) w \/ Forall (fun b => b = false) w) ->
  forall st, (forall k sg, nth_error gs k = Some sg -> counted sg /\ (nth k w false = true <-> queued (s_g (sg_sys sg)) <> 0) /\ snd (st k) <= 2 ^ 30 /\
     exists C ms grs, inv e cfg (cv k) (sg_sys sg) (fst (fst (st k))) (snd (fst (st k))) (snd (st k)) C ms grs /\ all_pd grs = []) ->
  exists gs', (if existsb (fun sg => g_metadirty (s_g (sg_sys sg))) gs then sub_metaflush gs else SOk gs) = SOk gs' /\ length gs' = length gs /\
    forall k sg', nth_error gs' k = Some sg' -> counted sg' /\ queued (s_g (sg_sys sg')) = 0 /\
      exists C ms grs, inv e cfg (cv k) (sg_sys sg') (fst (fst (st k))) (snd (fst (st k))) (snd (st k)) C ms grs /\ all_pd grs = [] /\ flat_map gr_fl grs = [].
Proof.
  intros e cfg cv gs w HL HW st HG. destruct (existsb _ gs) eqn:ED.
  - unfold sub_metaflush. rewrite (no_hang gs w HL); auto.
    2:{ intros k sg Hk. destruct (HG k sg Hk) as (_ & G & _ & C & ms & grs & I & _). rewrite G. destruct (inv_queued _ _ _ _ _ _ _ _ _ _ I) as (_ & _ & ->).
        destruct (Z.eqb_spec (queued (s_g (sg_sys sg))) 0); cbn; split; congruence. }
    assert (K : forall k sg, nth_error gs k = Some sg -> exists sg', metaflush_group sg = SOk sg' /\ counted sg' /\ queued (s_g (sg_sys sg')) = 0 /\
      exists C ms grs, inv e cfg (cv k) (sg_sys sg') (fst (fst (st k))) (snd (fst (st k))) (snd (st k)) C ms grs /\ all_pd grs = [] /\ flat_map gr_fl grs = []).
    { intros k sg Hk. destruct (HG k sg Hk) as (G1 & _ & G2 & C & ms & grs & I & P).
      destruct (meta_one _ _ _ _ _ _ _ _ _ _ I P G2 G1) as (sg' & ms' & grs' & M1 & M2 & M3 & M4 & M5).
      exists sg'. split; auto. split; auto. split; [|eauto 8]. destruct (inv_queued _ _ _ _ _ _ _ _ _ _ M2) as (_ & Q & _). tauto. }
    destruct (smap_all _ _ metaflush_group gs) as (gs' & B1 & B2 & B3).
    { apply all_exists. intros k sg Hk. destruct (K k sg Hk) as (sg' & M & _). eauto. }
    exists gs'. split; auto. split; auto. intros k sg' Hk.
    destruct (nth_error_lt_some _ gs k) as [sg Hsg]. { apply nth_error_lt in Hk. lia. }
    destruct (B3 k sg Hsg) as (b & Hb & Eb). assert (b = sg') by congruence. subst b.
    destruct (K k sg Hsg) as (sg2 & M1 & M2). assert (sg2 = sg') by congruence. subst sg2. exact M2.
  - exists gs. split; auto. split; auto. intros k sg Hk. destruct (HG k sg Hk) as (G1 & _ & G2 & C & ms & grs & I & P).
    pose proof (existsb_dirty gs ED k sg Hk) as Hd. pose proof (v_dirty _ _ _ _ _ _ _ _ _ _ I Hd) as Hfl.
    split; auto. split; [|eauto 8]. destruct (inv_queued _ _ _ _ _ _ _ _ _ _ I) as (_ & Q & _). tauto.
Qed.

(** ** One call *)
Lemma choose_states : forall A (P : nat -> A -> Prop) n (d : A), (forall k, (k < n)%nat -> exists a, P k a) -> exists f, forall k, (k < n)%nat -> P k (f k).
Proof.
  intros A P n d. induction n as [|n IH]; intros H.
  - exists (fun _ => d). lia.
  - destruct IH as [f Hf]. { intros k Hk. apply H. lia. } destruct (H n ltac:(lia)) as [a Ha].
    exists (fun k => if (k =? n)%nat then a else f k). intros k Hk. destruct (Nat.eqb_spec k n); [subst; auto|]. apply Hf. lia.
Qed.

Definition read_right (ng : nat) (tr : nat -> trace) (o : sop) (out : list (list (list Z))) : Prop :=
  match o with
  | SRead _ calls => length out = ng /\ forall k cs, nth_error calls k = Some cs -> exists bufs, nth_error out k = Some bufs /\ Forall2 (correct_read (tr k)) cs bufs
  | _ => True
  end.

Definition bal_next (w : list bool) (o : sop) : list bool :=
  match o with
  | SWrite g _ _ sels _ => match sels with [] => w | _ => upd_nth g true w end
  | SRead _ _ => map (fun _ => false) w
  | _ => w
  end.

Lemma balanced_step : forall w o rest, balanced w (o :: rest) ->
  match o with SRead _ _ => Forall (fun b => b = true) w \/ Forall (fun b => b = false) w | _ => True end /\ balanced (bal_next w o) rest.
Proof. intros w o rest H. destruct o; cbn in *; tauto. Qed.

Lemma nth_upd_bool : forall (w : list bool) g k, (g < length w)%nat -> nth k (upd_nth g true w) false = if (g =? k)%nat then true else nth k w false.
Proof.
  intros w g k H. destruct (Nat.eqb_spec g k) as [->|E].
  - apply nth_error_nth. apply nth_error_upd_nth_eq. auto.
  - destruct (nth_error w k) as [b|] eqn:Q.
    + rewrite (nth_error_nth w k false Q). apply nth_error_nth. rewrite nth_error_upd_nth_ne by auto. auto.
    + rewrite !nth_overflow; auto; [apply nth_error_None; auto|]. rewrite upd_nth_length'. apply nth_error_None; auto.
Qed.

Definition same_file (s s' : sfile) : Prop :=
  length (sf_groups s') = length (sf_groups s) /\ sf_name s' = sf_name s /\ sf_cfg s' = sf_cfg s /\ sf_hdr s' = sf_hdr s /\ sf_created s' = sf_created s.

Lemma session_step : forall e cfg cv s tr w o rest, e_coll e = true -> is_sort (e_sort e) -> has (sf_cfg s) CFG_SINGLE_SUBFILE_READ = true ->
  session_op (length (sf_groups s)) o -> balanced w (o :: rest) -> ginv e cfg cv (sf_groups s) tr w (o :: rest) ->
  exists s' out, sub_step e s o = SOk (s', out) /\ same_file s s' /\
    ginv e cfg cv (sf_groups s') (fun k => fold_left (tstep true) (own k o) (tr k)) (bal_next w o) rest /\
    read_right (length (sf_groups s)) (fun k => fold_left (tstep true) (own k o) (tr k)) o out.
Proof.
  intros e cfg cv s tr w o rest HE HS HC Hop HB HG. apply balanced_step in HB. destruct HB as [HB _].
  destruct o as [d|did dims|g rk did sels data|doffs|doffs calls|doffs nps]; cbn [sub_step bal_next read_right session_op] in *; try tauto.
  - destruct (smap_local _ _ _ _ _ _ _ (OCreate d) (SCreate d) HE HS Logic.I (fun _ => eq_refl) HG) as (gs' & B1 & B2 & B3).
    rewrite B1. cbn [sbind]. eexists _, _. split; [reflexivity|]. split; [repeat (split; auto)|]. split; auto.
  - destruct (smap_local _ _ _ _ _ _ _ (OSetExtent did dims) (SSetExtent did dims) HE HS Logic.I (fun _ => eq_refl) HG) as (gs' & B1 & B2 & B3).
    rewrite B1. cbn [sbind]. eexists _, _. split; [reflexivity|]. split; [repeat (split; auto)|]. split; auto.
  - (* write *)
    destruct HG as [HL HG]. destruct (nth_error_lt_some _ _ _ Hop) as [sg Hsg]. rewrite Hsg.
    destruct (HG g sg Hsg) as (G1 & G2 & G3). unfold own_part in G1. cbn [flat_map own] in G1. rewrite Nat.eqb_refl in G1. cbn [app] in G1.
    destruct (gok_local _ _ _ _ _ (OWrite rk did sels data) _ HE HS Logic.I G1) as (sg' & L1 & L2 & L3 & _ & _ & _ & L4 & L5 & L6 & _).
    rewrite L1. cbn [sbind]. eexists _, _. split; [reflexivity|]. cbn [with_groups sf_groups].
    split; [repeat (split; auto); cbn; apply upd_nth_length'|]. split; [|exact I].
    split. { rewrite upd_nth_length'. destruct sels; auto. rewrite upd_nth_length'. auto. }
    intros k x Hk. destruct (Nat.eq_dec g k) as [->|E].
    + rewrite nth_error_upd_nth_eq in Hk by auto. injection Hk as <-. cbn [own]. rewrite Nat.eqb_refl. cbn [fold_left]. split; auto. split; auto.
      destruct sels as [|b sels]; [rewrite L6; exact G3|]. rewrite nth_upd_bool by lia. rewrite Nat.eqb_refl. tauto.
    + rewrite nth_error_upd_nth_ne in Hk by auto. destruct (HG k x Hk) as (H1 & H2 & H3). unfold own_part in H1. cbn [flat_map own] in H1 |- *.
      destruct (Nat.eqb_spec g k) as [Q|_]; [contradiction|]. cbn [app fold_left] in *. split; auto. split; auto.
      destruct sels as [|b sels]; auto. rewrite nth_upd_bool by lia. destruct (Nat.eqb_spec g k) as [Q|_]; [contradiction|]. auto.
  - (* flush *)
    destruct HG as [HL HG].
    destruct (choose_states _ (fun k p => forall sg, nth_error (sf_groups s) k = Some sg -> exists C ms grs, inv e cfg (cv k) (sg_sys sg) (fst (fst p)) (snd (fst p)) (snd p) C ms grs /\
       hrel (fst (fst p)) (tr k) /\ ok_run e cfg (cv k) (fst (fst p)) (snd (fst p)) (own_part k (SFlush doffs :: rest)) /\ snd p + Z.of_nat (length (own_part k (SFlush doffs :: rest))) < 2 ^ 30)
       (length (sf_groups s)) (sinit 0, mkhs 0 [], 0)) as [st Hst].
    { intros k Hk. destruct (nth_error_lt_some _ _ _ Hk) as [sg Hsg]. destruct (HG k sg Hsg) as ([(sp & h & n & C & ms & grs & G)] & _).
      exists (sp, h, n). intros sg' Hsg'. assert (sg' = sg) by congruence. subst sg'. exists C, ms, grs. exact G. }
    destruct (flush_all e cfg cv s doffs Hop st) as (s' & F1 & F2 & F3 & F4 & F5 & F6 & F7).
    { intros k sg Hk. split; [apply (HG k sg Hk)|]. destruct (Hst k (nth_error_lt _ _ _ _ Hk) sg Hk) as (C & ms & grs & I1 & I2 & (I3 & _) & _). exists C, ms, grs. split; auto. }
    rewrite F1. cbn [sbind]. eexists _, _. split; [reflexivity|]. split; [repeat (split; auto)|]. split; [|exact I].
    split; [lia|]. intros k sg' Hk. destruct (F7 k sg' Hk) as (sg & C & ms & grs & Hsg & C1 & C2 & C3 & C4).
    destruct (Hst k (nth_error_lt _ _ _ _ Hsg) sg Hsg) as (_ & _ & _ & _ & R1 & (R2 & R3) & R4). cbn [own_part flat_map own app length] in R3, R4. fold (own_part k rest) in R3, R4.
    split; [|split; [auto|rewrite C2; apply (HG k sg Hsg)]]. constructor.
    exists (sflush (fst (fst (st k)))), (hflush (fst (fst (st k))) (snd (fst (st k))) (nth k doffs 0)), (snd (st k)), C, ms, grs. split; auto.
    cbn [own fold_left]. split; [|split; [exact R3|cbn [length app] in R4; lia]].
    pose proof (hrel_step _ _ _ _ _ _ _ R1 R2) as R5. rewrite HE in R5. exact R5.
  - (* read *)
    destruct HG as [HL HG]. destruct Hop as [Hop1 Hop2].
    destruct (choose_states _ (fun k p => forall sg, nth_error (sf_groups s) k = Some sg -> exists C ms grs, inv e cfg (cv k) (sg_sys sg) (fst (fst p)) (snd (fst p)) (snd p) C ms grs /\
       hrel (fst (fst p)) (tr k) /\ ok_run e cfg (cv k) (fst (fst p)) (snd (fst p)) (own_part k (SRead doffs calls :: rest)) /\ snd p + Z.of_nat (length (own_part k (SRead doffs calls :: rest))) < 2 ^ 30)
       (length (sf_groups s)) (sinit 0, mkhs 0 [], 0)) as [st Hst].
    { intros k Hk. destruct (nth_error_lt_some _ _ _ Hk) as [sg Hsg]. destruct (HG k sg Hsg) as ([(sp & h & n & C & ms & grs & G)] & _).
      exists (sp, h, n). intros sg' Hsg'. assert (sg' = sg) by congruence. subst sg'. exists C, ms, grs. exact G. }
    rewrite HE. cbn [andb].
    destruct (flush_all e cfg cv s doffs Hop1 st) as (s1 & F1 & F2 & F3 & F4 & F5 & F6 & F7).
    { intros k sg Hk. split; [apply (HG k sg Hk)|]. destruct (Hst k (nth_error_lt _ _ _ _ Hk) sg Hk) as (C & ms & grs & I1 & I2 & (I3 & _) & _). exists C, ms, grs. split; auto.
      cbn [own ok_op] in I3. destruct I3 as (I3 & _). rewrite HE in I3. exact I3. }
    rewrite F1. cbn [sbind]. unfold sub_read. rewrite F4, HC.
    set (st1 := fun k => (sflush (fst (fst (st k))), hflush (fst (fst (st k))) (snd (fst (st k))) (nth k doffs 0), snd (st k))).
    destruct (metaflush_all e cfg cv (sf_groups s1) w ltac:(lia) HB st1) as (gs2 & M1 & M2 & M3).
    { intros k sg Hk. destruct (F7 k sg Hk) as (sg0 & C & ms & grs & Hsg & C1 & C2 & C3 & C4). split; auto. split; [rewrite C2; apply (HG k sg0 Hsg)|].
      destruct (Hst k (nth_error_lt _ _ _ _ Hsg) sg0 Hsg) as (_ & _ & _ & _ & _ & _ & R4). unfold st1. cbn [fst snd]. split; [lia|]. exists C, ms, grs. auto. }
    rewrite M1. cbn [sbind].
    assert (K : forall k sg cs, nth_error gs2 k = Some sg -> nth_error calls k = Some cs -> exists sg' bufs, read_own e sg cs = SOk (sg', bufs) /\
       gok e cfg (cv k) sg' (fold_left (tstep true) (own k (SRead doffs calls)) (tr k)) (own_part k rest) /\ counted sg' /\ queued (s_g (sg_sys sg')) = 0 /\
       Forall2 (correct_read (fold_left (tstep true) (own k (SRead doffs calls)) (tr k))) cs bufs).
    { intros k sg cs Hk Hc. destruct (M3 k sg Hk) as (C1 & C2 & C & ms & grs & I1 & I2 & I3).
      assert (Hlt : (k < length (sf_groups s))%nat) by (apply nth_error_lt in Hk; lia).
      destruct (nth_error_lt_some _ _ _ Hlt) as [sg0 Hsg0]. destruct (Hst k Hlt sg0 Hsg0) as (C0 & ms0 & grs0 & J1 & R1 & (R2 & R3) & R4).
      pose proof (hrel_step _ _ _ _ _ _ _ R1 R2) as R5. rewrite HE in R5, R3.
      cbn [own ok_op] in R2. destruct R2 as (R2a & R2b & R2c & R2d). rewrite (nth_error_nth calls k [] Hc) in R2d, R2c.
      cbn [own hstep sstep fst] in R3, R5. rewrite HE in R3.
      assert (Hcall : Forall (ok_call e (sflush (fst (fst (st k))))) cs) by (revert R2d; apply Forall_impl; intros c Q; exact Q).
      unfold st1 in I1. cbn [fst snd] in I1.
      assert (Hlim : e_limit e <> None -> C <> []).
      { intros Hl. apply (v_hi1 _ _ _ _ _ _ _ _ _ _ I1). destruct (R2b Hl) as [Q|Q].
        - unfold hflush. destruct (Z.eqb_spec (pend_bytes (fst (fst (st k)))) 0); auto. cbn [hs_hi].
          pose proof (v_hi0 _ _ _ _ _ _ _ _ _ _ J1). rewrite HE in R2a. destruct (R2a n) as [Q1 _].
          pose proof (inv_pend _ _ _ _ _ _ _ _ _ _ J1) as (P1 & _). pose proof (abytes_nonneg (all_pd grs0)). lia.
        - pose proof (inv_pend _ _ _ _ _ _ _ _ _ _ J1) as (P1 & P2 & _). rewrite P2 in Q.
          pose proof (abytes_pos _ _ _ (v_pok _ _ _ _ _ _ _ _ _ _ J1) ltac:(intros E; rewrite E in Q; apply Q; reflexivity)) as Pos.
          unfold hflush. rewrite P1. destruct (Z.eqb_spec (abytes (all_pd grs0)) 0); [lia|]. cbn [hs_hi].
          pose proof (v_hi0 _ _ _ _ _ _ _ _ _ _ J1). rewrite HE in R2a. unfold ok_flush in R2a. rewrite P1 in R2a. destruct (R2a n) as [Q1 _]. lia. }
      destruct (read_each_ok _ _ _ _ _ _ _ _ _ _ I1 HS I3 Hlim cs (s_idx (sg_sys sg)) Hcall ltac:(apply (v_idx _ _ _ _ _ _ _ _ _ _ I1))) as (idx' & E1 & E2).
      unfold read_own. rewrite (visible_all _ C1), E1. cbn [lift sbind fst snd].
      eexists _, _. split; [reflexivity|]. cbn [sg_sys sg_nld sg_nmd s_g]. split.
      - constructor. exists (sflush (fst (fst (st k)))), (hflush (fst (fst (st k))) (snd (fst (st k))) (nth k doffs 0)), (snd (st k)), C, ms, grs.
        split; [|split; [exact R5|split; [exact R3|cbn [own_part flat_map own app length] in R4; fold (own_part k rest) in R4; lia]]].
        constructor; cbn [sg_sys s_g s_idx]; try (apply I1). exact E2.
      - split; [exact C1|]. split; [exact C2|]. cbn [own fold_left]. clear - R5 Hcall. rewrite <- (map_id cs) at 1. induction Hcall as [|c l H1 H2 IH]; cbn [map]; constructor; auto. eapply sread_correct; eauto. }
    assert (HLc : length calls = length gs2) by lia.
    destruct (smap_all _ _ (fun p => read_own e (fst p) (snd p)) (combine gs2 calls)) as (r & B1 & B2 & B3).
    { apply all_exists. intros k p Hp. destruct (combine_from _ _ _ _ _ _ Hp) as [Q1 Q2]. destruct (K k _ _ Q1 Q2) as (sg' & bufs & Q & _). eauto. }
    rewrite combine_length in B2. rewrite B1. cbn [sbind]. eexists _, _. split; [reflexivity|].
    split. { repeat split; cbn [with_groups sf_groups sf_name sf_cfg sf_hdr sf_created]; auto. rewrite map_length. lia. }
    assert (K2 : forall k cs, nth_error calls k = Some cs -> exists sg' bufs, nth_error r k = Some (sg', bufs) /\
       gok e cfg (cv k) sg' (fold_left (tstep true) (own k (SRead doffs calls)) (tr k)) (own_part k rest) /\ counted sg' /\ queued (s_g (sg_sys sg')) = 0 /\
       Forall2 (correct_read (fold_left (tstep true) (own k (SRead doffs calls)) (tr k))) cs bufs).
    { intros k cs Hc. destruct (nth_error_lt_some _ gs2 k) as [sg Hsg]. { apply nth_error_lt in Hc. lia. }
      destruct (K k sg cs Hsg Hc) as (sg' & bufs & Q1 & Q2). destruct (B3 k (sg, cs) (combine_at _ _ _ _ _ _ _ Hsg Hc)) as (b & Hb & Eb). cbn [fst snd] in Eb.
      exists sg', bufs. split; [congruence|auto]. }
    split.
    + split. { cbn [with_groups sf_groups]. rewrite !map_length. lia. }
      intros k sg' Hk. cbn [with_groups sf_groups] in Hk. rewrite nth_error_map in Hk. destruct (nth_error r k) as [p|] eqn:Er; [|discriminate]. cbn in Hk. injection Hk as <-.
      destruct (nth_error_lt_some _ calls k) as [cs Hcs]. { apply nth_error_lt in Er. lia. }
      destruct (K2 k cs Hcs) as (sg' & bufs & Q1 & Q2 & Q3 & Q4 & Q5). assert (p = (sg', bufs)) by congruence. subst p. cbn [fst]. split; [exact Q2|]. split; [exact Q3|].
      rewrite nth_map_false. split; [discriminate|]. intros Q. contradiction.
    + split; [rewrite map_length; lia|]. intros k cs Hc. destruct (K2 k cs Hc) as (sg' & bufs & Q1 & Q2 & Q3 & Q4 & Q5). exists bufs. split; auto.
      rewrite nth_error_map, Q1. reflexivity.
Qed.
