(** The metadata dataset: what metaflush stores, and what loading it whole or in parts yields. *)
From Verif Require Import Base BaseProofs Spec MetaModel QueueModel FlushModel IndexModel
  GeomProofs MetaProofs QueueProofs IndexProofs SearchProofs ReadModel ReadProofs HitProofs.
From Coq Require Import ZifyNat ZifyN Permutation.

(** ** Pieces written one behind the other *)
Definition lay (f : bytemap) (a : Z) (ps : list (list Z)) : bytemap :=
  fold_left (fun f p => put f (fst p) (snd p)) (combine (exscan a (map (@Zlen Z) ps)) ps) f.

Lemma lay_cons : forall f a p ps, lay f a (p :: ps) = lay (put f a p) (a + Zlen p) ps.
Proof. reflexivity. Qed.

Lemma lay_out : forall ps f a x, (x < a \/ a + Zlen (concat ps) <= x) -> lay f a ps x = f x.
Proof.
  induction ps as [|p ps IH]; intros f a x H; [reflexivity|]. rewrite lay_cons. cbn [concat] in H. rewrite Zlen_app in H.
  pose proof (Zlen_nonneg _ p). pose proof (Zlen_nonneg _ (concat ps)).
  rewrite IH by lia. apply put_out. lia.
Qed.

Lemma lay_get : forall ps f a, get (lay f a ps) a (length (concat ps)) = concat ps.
Proof.
  induction ps as [|p ps IH]; intros f a; [reflexivity|]. rewrite lay_cons. cbn [concat]. rewrite app_length, get_app.
  f_equal.
  - erewrite get_ext; [apply get_put_same|]. intros i Hi. apply lay_out. unfold Zlen. lia.
  - apply IH.
Qed.

Lemma lay_get_one : forall ps f a pre p post, ps = pre ++ p :: post ->
  get (lay f a ps) (a + Zlen (concat pre)) (length p) = p.
Proof.
  intros ps f a pre. revert ps f a. induction pre as [|q pre IH]; intros ps f a p post ->; cbn [app].
  - rewrite lay_cons. cbn [concat]. rewrite Zlen_nil, Z.add_0_r.
    erewrite get_ext; [apply get_put_same|]. intros i Hi. apply lay_out. unfold Zlen. lia.
  - rewrite lay_cons. cbn [concat]. rewrite Zlen_app, Z.add_assoc. eapply IH. reflexivity.
Qed.

Lemma exscan_shift : forall l a d, map (fun o => o + d) (exscan a l) = exscan (a + d) l.
Proof. induction l; intros; cbn; auto. f_equal. rewrite IHl. f_equal. lia. Qed.

Lemma fold_combine_map : forall A B C (f : C -> Z * B -> C) (g : A -> B) (bs : list Z) (l : list A) c,
  fold_left (fun c p => f c (fst p, g (snd p))) (combine bs l) c = fold_left f (combine bs (map g l)) c.
Proof. induction bs; destruct l; cbn; intros; auto. Qed.

(** ** The decomposition map *)
Definition sec_len (s : list wreq * list pwr) : Z := Zlen (sec_bytes s).
Definition md_offs (secs : list (list wreq * list pwr)) : list Z :=
  prefix_ends (8 * (Zlen secs + 1)) (map sec_len secs).
Definition md_bytes (secs : list (list wreq * list pwr)) : list Z :=
  words (Zlen secs :: md_offs secs) ++ flat_map sec_bytes secs.

Lemma prefix_ends_length : forall l a, length (prefix_ends a l) = length l.
Proof. induction l; cbn; auto. Qed.
Lemma prefix_ends_nth : forall l a j, (j < length l)%nat -> nth j (prefix_ends a l) 0 = a + Zsum (firstn (S j) l).
Proof.
  induction l as [|x l IH]; intros a j H; cbn in H; [lia|]. destruct j.
  - cbn. lia.
  - cbn [prefix_ends nth]. rewrite IH by lia. cbn [firstn Zsum fold_right]. fold (Zsum (firstn (S j) l)). 
    change (firstn (S (S j)) (x :: l)) with (x :: firstn (S j) l). cbn [Zsum fold_right]. unfold Zsum. lia.
Qed.
Lemma prefix_ends_bound : forall l a M, Forall (fun x => 0 <= x) l -> 0 <= a -> a + Zsum l <= M ->
  Forall (fun x => 0 <= x <= M) (prefix_ends a l).
Proof.
  induction l as [|x l IH]; intros a M HF Ha HM; cbn [prefix_ends]; constructor.
  - inversion HF; subst. pose proof (Zsum_nonneg l ltac:(auto)). unfold Zsum in *. cbn in HM. lia.
  - inversion HF; subst. apply IH; auto; [lia|]. unfold Zsum in *. cbn in HM. lia.
Qed.

Lemma sec_len_sum : forall secs, Zsum (map sec_len secs) = Zlen (flat_map sec_bytes secs).
Proof.
  induction secs; [reflexivity|]. cbn [map flat_map Zsum fold_right]. rewrite Zlen_app. unfold Zsum in IHsecs.
  rewrite IHsecs. reflexivity.
Qed.

Definition md_ok (secs : list (list wreq * list pwr)) : Prop :=
  secs <> [] /\ 8 * (Zlen secs + 1) + Zlen (flat_map sec_bytes secs) < 2 ^ 63.

Lemma md_offs_words : forall secs, md_ok secs -> Forall (fun w => 0 <= w < 2 ^ 63) (md_offs secs).
Proof.
  intros secs [_ H]. unfold md_offs. pose proof (Zlen_nonneg _ secs).
  eapply Forall_impl; [|apply (prefix_ends_bound _ _ (2 ^ 63 - 1))].
  - cbn beta. intros; lia.
  - apply Forall_map. apply Forall_forall. intros s _. apply Zlen_nonneg.
  - lia.
  - rewrite sec_len_sum. lia.
Qed.

Lemma md_hdr_len : forall secs, Zlen (words (Zlen secs :: md_offs secs)) = 8 * (Zlen secs + 1).
Proof. intros. unfold Zlen at 1. rewrite words_length. cbn [length]. unfold md_offs. rewrite prefix_ends_length, map_length. unfold Zlen. lia. Qed.

Lemma md_nsec : forall secs, md_ok secs -> rd_i64 (md_bytes secs) 0 = Some (Zlen secs).
Proof.
  intros secs [_ H]. pose proof (Zlen_nonneg _ secs). pose proof (Zlen_nonneg _ (flat_map sec_bytes secs)).
  unfold md_bytes. cbn [words flat_map]. eapply rd_i64_at with (pre := []); [|reflexivity|lia].
  cbn [app]. rewrite <- app_assoc. reflexivity.
Qed.

Lemma md_body_ok : forall secs, md_ok secs -> md_body (md_bytes secs) = Some (flat_map sec_bytes secs).
Proof.
  intros secs H. unfold md_body. rewrite md_nsec by auto.
  eapply rd_at with (pre := words (Zlen secs :: md_offs secs)) (post := []).
  - rewrite app_nil_r. reflexivity.
  - rewrite md_hdr_len. reflexivity.
  - unfold md_bytes. rewrite Zlen_app, md_hdr_len. unfold Zlen. lia.
Qed.

Lemma load_all_ok : forall z cfg infos ms i l,
  idx_rep (geom infos) i l -> Forall md_ok ms -> Forall (Forall (sec_ok (kind_of i) cfg (geom infos))) ms ->
  exists i', load_all z cfg infos i (map md_bytes ms) = Ok i' /\ kind_of i' = kind_of i /\
    idx_rep (geom infos) i' (l ++ flat_map (flat_map snd) ms).
Proof.
  induction ms as [|secs ms IH]; intros i l HI HM HS.
  - exists i. cbn. rewrite app_nil_r. auto.
  - inversion HM as [|? ? M1 M2]; subst. inversion HS as [|? ? S1 S2]; subst.
    cbn [map load_all]. rewrite md_body_ok by auto. cbn [or_ub bind].
    destruct (idx_parse_ok z cfg infos i l secs HI S1) as (i1 & E1 & K1 & R1). rewrite E1. cbn [bind].
    rewrite <- K1 in S2. destruct (IH i1 _ R1 M2 S2) as (i2 & E2 & K2 & R2).
    exists i2. rewrite E2. split; auto. split; [congruence|]. cbn [flat_map]. rewrite app_assoc. exact R2.
Qed.

(** ** Parts *)
Lemma fit_range : forall limit start offs i, (i <= fit limit start i offs <= i + length offs)%nat.
Proof.
  induction offs as [|o offs IH]; intros i; cbn; [lia|]. destruct (limit <? o - start); [lia|].
  specialize (IH (S i)). lia.
Qed.

Lemma firstn_sum : forall a b (l : list Z), (a <= b)%nat ->
  Zsum (firstn b l) = Zsum (firstn a l) + Zsum (firstn (b - a) (skipn a l)).
Proof.
  intros a b l H. rewrite <- Zsum_app. f_equal.
  transitivity (firstn (a + (b - a)) l); [f_equal; lia|].
  clear H. generalize (b - a)%nat as n. revert l. induction a; intros l n; [reflexivity|].
  destruct l; [rewrite !firstn_nil; reflexivity|]. cbn [Nat.add firstn skipn app]. f_equal. apply IHa.
Qed.

Lemma load_part_ok : forall limit ms md sec secs, Forall md_ok ms -> nth_error ms md = Some secs ->
  (sec < length secs)%nat ->
  exists n, (0 < n)%nat /\ (sec + n <= length secs)%nat /\
    load_part limit (map md_bytes ms) md sec =
    Ok (flat_map sec_bytes (firstn n (skipn sec secs)),
        if (length secs <=? sec + n)%nat
        then (if (length ms <=? S md)%nat then None else Some (S md, 0%nat))
        else Some (md, sec + n)%nat).
Proof.
  intros limit ms md sec secs HM Hn Hs. assert (HMs : md_ok secs) by (eapply Forall_forall; [exact HM|]; eapply nth_error_In; eauto).
  unfold load_part. rewrite nth_error_map, Hn. cbn [option_map]. rewrite md_nsec by auto. cbn [or_ub bind].
  assert (HO : rd_words (md_bytes secs) 8 (Z.to_nat (Zlen secs)) = Some (md_offs secs)).
  { eapply rd_words_at with (pre := le 8 (Zlen secs)) (post := flat_map sec_bytes secs).
    - unfold md_bytes. cbn [words flat_map]. rewrite <- app_assoc. reflexivity.
    - unfold Zlen at 1. rewrite le_length. reflexivity.
    - unfold md_offs. rewrite prefix_ends_length, map_length. unfold Zlen. lia.
    - eapply Forall_impl; [|apply md_offs_words; auto]. cbn. intros. lia. }
  rewrite HO. cbn [or_ub bind]. destruct (Z.leb_spec (Zlen secs) (Z.of_nat sec)) as [Hc|Hc]; [unfold Zlen in Hc; lia|].
  set (h := 8 * (Zlen secs + 1)). set (lens := map sec_len secs).
  assert (LL : length lens = length secs) by apply map_length.
  assert (Hst : (match sec with O => h | S s => nth s (md_offs secs) 0 end) = h + Zsum (firstn sec lens)).
  { destruct sec; [cbn; lia|]. unfold md_offs. rewrite prefix_ends_nth; [reflexivity|fold lens; lia]. }
  fold h in Hst |- *. rewrite Hst. set (start := h + Zsum (firstn sec lens)).
  pose proof (fit_range limit start (skipn (S sec) (md_offs secs)) (S sec)) as FR.
  set (i := fit limit start (S sec) (skipn (S sec) (md_offs secs))) in *.
  rewrite skipn_length in FR. unfold md_offs in FR at 1. rewrite prefix_ends_length, map_length in FR.
  assert (FRi : (S sec <= i <= length secs)%nat).
  { split; [lia|]. destruct FR as [_ FR]. unfold md_offs in FR. rewrite ?prefix_ends_length, ?map_length in FR. lia. }
  clear FR. exists (i - sec)%nat. split; [lia|]. split; [lia|].
  replace (sec + (i - sec))%nat with i by lia.
  assert (Hcnt : nth (i - 1) (md_offs secs) 0 - start = Zsum (firstn (i - sec) (skipn sec lens))).
  { unfold md_offs. rewrite prefix_ends_nth by (fold lens; lia). fold lens h. replace (S (i - 1)) with i by lia.
    unfold start. rewrite (firstn_sum sec i) by lia. lia. }
  rewrite Hcnt.
  assert (Hb : rd (md_bytes secs) start (Z.to_nat (Zsum (firstn (i - sec) (skipn sec lens)))) =
               Some (flat_map sec_bytes (firstn (i - sec) (skipn sec secs)))).
  { eapply rd_at with (pre := words (Zlen secs :: md_offs secs) ++ flat_map sec_bytes (firstn sec secs))
      (post := flat_map sec_bytes (skipn (i - sec) (skipn sec secs))).
    - unfold md_bytes. rewrite <- !app_assoc. f_equal. rewrite <- !flat_map_app. rewrite firstn_skipn, firstn_skipn. reflexivity.
    - rewrite Zlen_app, md_hdr_len. unfold start. fold h. f_equal. unfold lens. rewrite firstn_map, sec_len_sum. reflexivity.
    - unfold lens. rewrite skipn_map, firstn_map, sec_len_sum. unfold Zlen. lia. }
  destruct (Z.leb_spec (Zlen secs) (Z.of_nat i)) as [Hi|Hi].
  - rewrite Hb. cbn [or_ub bind]. rewrite map_length.
    replace (length secs <=? i)%nat with true by (symmetry; apply Nat.leb_le; unfold Zlen in Hi; lia). reflexivity.
  - rewrite Hb. cbn [or_ub bind]. rewrite map_length.
    replace (length secs <=? i)%nat with false by (symmetry; apply Nat.leb_gt; unfold Zlen in Hi; lia).
    replace (length ms <=? md)%nat with false; [reflexivity|].
    symmetry; apply Nat.leb_gt. apply nth_error_Some. congruence.
Qed.

(** ** Searching for a list of requests *)
Definition xreq_ok (infos : list (option dinfo)) (k : kind) (l : list pwr) (x : xreq) : Prop :=
  0 <= rq_did (snd x) /\ nth_error infos (Z.to_nat (rq_did (snd x))) = Some (Some (fst x)) /\
  Forall (fun b => length (b_start b) = di_ndim (fst x) /\ length (b_count b) = di_ndim (fst x)) (rq_sels (snd x)) /\
  idx_small k infos l (snd x).

Lemma idx_search_ok : forall infos i l xs, idx_rep (geom infos) i l -> Forall (xreq_ok infos (kind_of i) l) xs ->
  exists u, idx_search infos i (map snd xs) = Ok u /\ map core u = asearch_all l xs.
Proof.
  intros infos i l xs HI. unfold idx_search, asearch_all. induction xs as [|x xs IH]; intros HF; [exists []; auto|].
  inversion HF as [|? ? (H1 & H2 & H3 & H4) HB]; subst. destruct (IH HB) as (v & V1 & V2).
  destruct (idx_search1_core infos i l (fst x) (snd x) HI H1 H2 H3 H4) as (u & U1 & U2).
  exists (u ++ v). cbn [map res_flat flat_map]. rewrite U1. cbn [bind]. rewrite V1. cbn [bind].
  split; auto. rewrite map_app. congruence.
Qed.

Lemma asearch_app : forall l1 l2 dip r, Permutation (asearch (l1 ++ l2) dip r) (asearch l1 dip r ++ asearch l2 dip r).
Proof.
  intros. unfold asearch. generalize (with_soff (rq_esize r) 0 (rq_sels r)) as bs.
  induction bs as [|b bs IH]; [constructor|]. cbn [flat_map]. rewrite flat_map_app, <- !app_assoc.
  apply Permutation_app_head. 
  eapply Permutation_trans; [apply Permutation_app_head; exact IH|].
  rewrite !app_assoc. apply Permutation_app_tail. apply Permutation_app_comm.
Qed.

Lemma asearch_all_app : forall l1 l2 xs, Permutation (asearch_all (l1 ++ l2) xs) (asearch_all l1 xs ++ asearch_all l2 xs).
Proof.
  intros. unfold asearch_all. induction xs as [|x xs IH]; [constructor|]. cbn [flat_map].
  eapply Permutation_trans; [apply Permutation_app; [apply asearch_app|exact IH]|].
  rewrite <- !app_assoc. apply Permutation_app_head. rewrite !app_assoc. apply Permutation_app_tail.
  apply Permutation_app_comm.
Qed.

Lemma idx_small_incl : forall k infos l l' r, (forall p, In p l' -> In p l) -> idx_small k infos l r -> idx_small k infos l' r.
Proof.
  intros k infos l l' r Hi H Hk. destruct (H Hk) as [A B]. split; auto.
  rewrite Forall_forall in *. auto.
Qed.
Lemma xreq_ok_incl : forall infos k l l' x, (forall p, In p l' -> In p l) -> xreq_ok infos k l x -> xreq_ok infos k l' x.
Proof. intros infos k l l' x Hi (A & B & C & D). unfold xreq_ok. split; [auto|]. split; [auto|]. split; [auto|]. eapply idx_small_incl; eauto. Qed.

Lemma idx_rep_empty : forall G k, idx_rep G (idx_empty k) [].
Proof. intros G []; cbn; constructor. Qed.
Lemma kind_of_empty : forall k, kind_of (idx_empty k) = k.
Proof. intros []; reflexivity. Qed.

Lemma skipn_add : forall A a b (l : list A), skipn b (skipn a l) = skipn (a + b) l.
Proof. induction a; intros; cbn [skipn Nat.add]; auto. destruct l; [apply skipn_nil|]. apply IHa. Qed.

Lemma flat_map_firstn_In : forall A B (f : A -> list B) n l x, In x (flat_map f (firstn n l)) -> In x (flat_map f l).
Proof. intros. rewrite <- (firstn_skipn n l), flat_map_app. apply in_or_app. auto. Qed.

Lemma search_parts_ok : forall z cfg infos k limit ms xs,
  Forall md_ok ms -> Forall (Forall (sec_ok k cfg (geom infos))) ms ->
  forall fuel md sec secs, nth_error ms md = Some secs -> (sec < length secs)%nat ->
  (length (skipn sec secs) + length (concat (skipn (S md) ms)) <= fuel)%nat ->
  let l := flat_map snd (skipn sec secs) ++ flat_map (flat_map snd) (skipn (S md) ms) in
  Forall (xreq_ok infos k l) xs ->
  exists u, search_parts fuel z cfg infos k limit (map md_bytes ms) md sec (map snd xs) = Ok u /\
    Permutation (map core u) (asearch_all l xs).
Proof.
  intros z cfg infos k limit ms xs HM HS. induction fuel as [|fuel IH]; intros md sec secs Hn Hsec Hf l HX.
  { rewrite skipn_length in Hf. lia. }
  destruct (load_part_ok limit ms md sec secs HM Hn Hsec) as (n & Hn0 & Hn1 & HL).
  cbn [search_parts]. rewrite HL. cbn [bind fst snd].
  assert (HSs : Forall (sec_ok k cfg (geom infos)) secs) by exact (proj1 (Forall_forall _ _) HS secs (nth_error_In _ _ Hn)).
  set (part := firstn n (skipn sec secs)).
  assert (Hp : Forall (sec_ok (kind_of (idx_empty k)) cfg (geom infos)) part).
  { rewrite kind_of_empty. apply Forall_forall. intros s Hs. rewrite Forall_forall in HSs. apply HSs.
    unfold part in Hs. rewrite <- (firstn_skipn sec secs). apply in_or_app. right.
    rewrite <- (firstn_skipn n (skipn sec secs)). apply in_or_app. auto. }
  destruct (idx_parse_ok z cfg infos (idx_empty k) [] part (idx_rep_empty _ _) Hp) as (i & E1 & K1 & R1).
  rewrite E1. cbn [bind]. cbn [app] in R1. rewrite kind_of_empty in K1.
  assert (Hsplit : flat_map snd (skipn sec secs) = flat_map snd part ++ flat_map snd (skipn (sec + n) secs)).
  { unfold part. rewrite <- flat_map_app, <- skipn_add, firstn_skipn. reflexivity. }
  destruct (idx_search_ok infos i (flat_map snd part) xs R1) as (u & U1 & U2).
  { rewrite K1. revert HX. apply Forall_impl. intros x. apply xreq_ok_incl. intros p Hpp.
    unfold l. rewrite Hsplit. rewrite !in_app_iff. auto. }
  rewrite U1. cbn [bind].
  destruct (Nat.leb_spec (length secs) (sec + n)) as [HE|HE].
  - assert (Hrest : skipn (sec + n) secs = []) by (apply skipn_all2; lia).
    rewrite Hrest in Hsplit. cbn [flat_map] in Hsplit. rewrite app_nil_r in Hsplit.
    destruct (Nat.leb_spec (length ms) (S md)) as [HF|HF].
    + exists u. split; auto. unfold l. rewrite (skipn_all2 ms) by lia. cbn [flat_map]. rewrite app_nil_r, Hsplit, U2. apply Permutation_refl.
    + destruct (nth_error ms (S md)) as [secs'|] eqn:En; [|apply nth_error_None in En; lia].
      assert (Hs0 : (0 < length secs')%nat).
      { pose proof (proj1 (Forall_forall _ _) HM _ (nth_error_In _ _ En)) as [Q _]. destruct secs'; [congruence|cbn; lia]. }
      assert (Hsk : skipn (S md) ms = secs' :: skipn (S (S md)) ms).
      { clear - En. revert En. generalize (S md) as j. intros j. revert j. induction ms; intros [|j] H; cbn in H; try discriminate.
        - injection H as ->. reflexivity.
        - cbn [skipn]. rewrite (IHms j H). destruct ms; reflexivity. }
      destruct (IH (S md) 0%nat secs' En Hs0) as (v & V1 & V2).
      * rewrite (skipn_O secs'). rewrite Hsk in Hf. cbn [concat] in Hf. rewrite app_length in Hf.
        assert (0 < length (skipn sec secs))%nat by (rewrite skipn_length; lia). lia.
      * rewrite (skipn_O secs'). revert HX. apply Forall_impl. intros x. apply xreq_ok_incl. intros p Hpp.
        unfold l. rewrite Hsk. cbn [flat_map]. rewrite !in_app_iff in *. auto.
      * rewrite V1. cbn [bind]. exists (u ++ v). split; auto. rewrite map_app, U2.
        unfold l. rewrite Hsplit, Hsk. cbn [flat_map]. rewrite (skipn_O secs') in V2.
        eapply Permutation_trans; [|apply Permutation_sym; apply asearch_all_app].
        apply Permutation_app_head. exact V2.
  - destruct (IH md (sec + n)%nat secs Hn HE) as (v & V1 & V2).
    + rewrite !skipn_length in *. lia.
    + revert HX. apply Forall_impl. intros x. apply xreq_ok_incl. intros p Hpp.
      unfold l. rewrite Hsplit. rewrite !in_app_iff in *. tauto.
    + rewrite V1. cbn [bind]. exists (u ++ v). split; auto. rewrite map_app, U2.
      unfold l. rewrite Hsplit. rewrite <- app_assoc.
      eapply Permutation_trans; [|apply Permutation_sym; apply asearch_all_app].
      apply Permutation_app_head. exact V2.
Qed.

(** ** The search of a read, whatever the buffer limit *)
Lemma read_search_ok : forall z cfg infos k limit ms cached xs,
  let l := flat_map (flat_map snd) ms in
  Forall md_ok ms -> Forall (Forall (sec_ok k cfg (geom infos))) ms ->
  Forall (xreq_ok infos k l) xs ->
  (limit <> None -> ms <> []) ->
  (forall i, cached = Some i -> kind_of i = k /\ idx_rep (geom infos) i l) ->
  exists u c', read_search z cfg infos k limit (map md_bytes ms) cached (map snd xs) = Ok (u, c') /\
    Permutation (map core u) (asearch_all l xs) /\
    (forall i, c' = Some i -> kind_of i = k /\ idx_rep (geom infos) i l).
Proof.
  intros z cfg infos k limit ms cached xs l HM HS HX HL HC. unfold read_search. destruct limit as [lim|].
  - destruct ms as [|secs ms']; [exfalso; apply HL; congruence|].
    assert (Hs0 : (0 < length secs)%nat). { destruct (Forall_inv HM) as [Q _]. destruct secs; [congruence|cbn; lia]. }
    destruct (search_parts_ok z cfg infos k lim (secs :: ms') xs HM HS
      (S (length (concat (map md_bytes (secs :: ms'))))) 0 0 secs eq_refl Hs0) as (u & U1 & U2).
    + cbn [skipn].
      assert (HB : forall m, (length m <= length (md_bytes m))%nat).
      { intros m. unfold md_bytes. rewrite app_length, words_length. cbn [length]. unfold md_offs.
        rewrite prefix_ends_length, map_length. lia. }
      assert (HB2 : forall ms, (length (concat ms) <= length (concat (map md_bytes ms)))%nat).
      { induction ms; cbn [concat map]; [auto|]. rewrite !app_length. pose proof (HB a). lia. }
      pose proof (HB2 (secs :: ms')) as Q. cbn [concat] in Q. rewrite app_length in Q. lia.
    + exact HX.
    + rewrite U1. cbn [bind]. exists u, cached. auto.
  - assert (HI : exists i, match cached with Some i => Ok i | None => load_all z cfg infos (idx_empty k) (map md_bytes ms) end = Ok i
                 /\ kind_of i = k /\ idx_rep (geom infos) i l).
    { destruct cached as [i|].
      - exists i. destruct (HC i eq_refl). auto.
      - destruct (load_all_ok z cfg infos ms (idx_empty k) [] (idx_rep_empty _ _) HM) as (i & I1 & I2 & I3).
        + rewrite kind_of_empty. exact HS.
        + rewrite kind_of_empty in I2. exists i. auto. }
    destruct HI as (i & I1 & I2 & I3). rewrite I1. cbn [bind]. rewrite <- I2 in HX.
    destruct (idx_search_ok infos i l xs I3 HX) as (u & U1 & U2). rewrite U1. cbn [bind].
    exists u, (Some i). split; auto. split; [rewrite U2; apply Permutation_refl|].
    intros i' E. injection E as <-. auto.
Qed.
