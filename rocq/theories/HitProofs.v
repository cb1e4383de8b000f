(** The bytes a search and a read touch, in terms of element positions. *)
From Verif Require Import Base BaseProofs Spec MetaModel QueueModel FlushModel IndexModel ReadModel
  GeomProofs MetaProofs QueueProofs IndexProofs SearchProofs SortProofs ReadProofs.
From Coq Require Import ZifyNat ZifyN.

(** Regions with the counts a C int can hold. *)
Definition blk_small (nd : nat) (s n : list Z) : Prop :=
  length s = nd /\ length n = nd /\ Forall (fun x => 0 < x < 2 ^ 31) n.

(** ** Positions of elements in a selection *)
Lemma coords_length_size : forall nd b, blk_small nd (b_start b) (b_count b) ->
  Z.of_nat (length (coords b)) = block_size b /\ 0 < block_size b.
Proof.
  intros nd b (H1 & H2 & H3). unfold coords, block_size.
  assert (Hp : 0 < Zprod (b_count b)) by (apply Zprod_pos; revert H3; apply Forall_impl; intros; lia).
  rewrite coords_of_length; [lia|congruence|]. revert H3. apply Forall_impl. intros; lia.
Qed.

Lemma blk_nonneg : forall nd s n, blk_small nd s n -> nonneg n.
Proof. intros nd s n (_ & _ & H). revert H. apply Forall_impl. intros; lia. Qed.

Lemma nth_error_coords_block : forall nd b c, blk_small nd (b_start b) (b_count b) -> in_block b c ->
  nth_error (coords b) (Z.to_nat (rm (b_count b) (subv c (b_start b)))) = Some c /\
  0 <= rm (b_count b) (subv c (b_start b)) < block_size b.
Proof.
  intros nd b c Hb Hc. split.
  - apply nth_error_coords_of; auto. eapply blk_nonneg; eauto.
  - apply rm_inside; auto.
Qed.

Lemma soff_pos : forall nd es s d b o c, Forall (fun b => blk_small nd (b_start b) (b_count b)) s ->
  In (b, o) (with_soff es (es * d) s) -> in_block b c ->
  exists k, nth_error (sel_coords s) k = Some c /\
    o + es * rm (b_count b) (subv c (b_start b)) = es * (d + Z.of_nat k).
Proof.
  induction s as [|b0 s IH]; intros d b o c HF Hin Hc; [destruct Hin|].
  cbn [with_soff] in Hin. destruct (coords_length_size _ _ (Forall_inv HF)) as [L1 L2].
  unfold sel_coords. cbn [flat_map]. destruct Hin as [E|Hin].
  - injection E as <- <-. destruct (nth_error_coords_block _ _ _ (Forall_inv HF) Hc) as [N1 N2].
    exists (Z.to_nat (rm (b_count b0) (subv c (b_start b0)))). split; [|rewrite Z2Nat.id by lia; ring].
    rewrite nth_error_app1; auto. apply nth_error_Some. congruence.
  - replace (es * d + block_size b0 * es) with (es * (d + block_size b0)) in Hin by ring.
    destruct (IH _ _ _ _ (Forall_inv_tail HF) Hin Hc) as (k & K1 & K2).
    exists (length (coords b0) + k)%nat. split.
    + rewrite nth_error_app2 by lia. replace (length (coords b0) + k - length (coords b0))%nat with k by lia. auto.
    + rewrite K2. nia.
Qed.

Lemma soff_find : forall nd es s d k c, Forall (fun b => blk_small nd (b_start b) (b_count b)) s ->
  nth_error (sel_coords s) k = Some c ->
  exists b o, In (b, o) (with_soff es (es * d) s) /\ in_block b c /\
    o + es * rm (b_count b) (subv c (b_start b)) = es * (d + Z.of_nat k).
Proof.
  induction s as [|b0 s IH]; intros d k c HF Hk.
  - destruct k; discriminate.
  - cbn [with_soff]. destruct (coords_length_size _ _ (Forall_inv HF)) as [L1 L2].
    destruct (Forall_inv HF) as (B1 & B2 & B3).
    unfold sel_coords in Hk. cbn [flat_map] in Hk.
    destruct (Nat.lt_ge_cases k (length (coords b0))) as [Hlt|Hge].
    + rewrite nth_error_app1 in Hk by auto.
      apply nth_error_coords_rm in Hk; [|congruence|eapply blk_nonneg; exact (Forall_inv HF)].
      destruct Hk as [K1 K2]. exists b0, (es * d). split; [left; auto|]. split; auto. rewrite K2. ring.
    + rewrite nth_error_app2 in Hk by lia.
      destruct (IH (d + block_size b0) _ _ (Forall_inv_tail HF) Hk) as (b & o & O1 & O2 & O3).
      exists b, o. split.
      * right. replace (es * d + block_size b0 * es) with (es * (d + block_size b0)) by ring. auto.
      * split; auto. rewrite O3. f_equal; lia.
Qed.

Lemma add_doffs_soff : forall es s d,
  add_doffs es d s = map (fun bo => mkmsel (b_start (fst bo)) (b_count (fst bo)) (snd bo)) (with_soff es d s).
Proof.
  induction s; intros; cbn; auto. rewrite IHs. f_equal. do 2 f_equal. unfold block_size. ring.
Qed.

(** ** The pairs of one hit *)
Lemma coords_of_subv : forall os st oc, length os = length oc -> length st = length oc ->
  coords_of (subv os st) oc = map (fun c => subv c st) (coords_of os oc).
Proof.
  induction os as [|o os IH]; destruct st as [|s st], oc as [|n oc]; intros H1 H2; cbn [length] in *; try lia; auto.
  cbn [subv coords_of]. rewrite IH by lia. rewrite map_flat_map. apply flat_map_ext. intros i.
  rewrite !map_map. apply map_ext. intros c. cbn [subv]. f_equal. lia.
Qed.

Lemma sub32_subv : forall os oc sa ca, sub_region os oc sa ca -> Forall (fun x => 0 < x < 2 ^ 31) ca ->
  sub32 os sa = subv os sa.
Proof.
  induction 1; intros HF; [reflexivity|]. unfold sub32. cbn [combine map fst snd subv].
  pose proof (Forall_inv HF). cbn beta in *. rewrite i32_id by lia. f_equal. apply IHsub_region. eapply Forall_inv_tail; eauto.
Qed.
Lemma map_i32_id : forall l, Forall (fun x => 0 < x < 2 ^ 31) l -> map i32 l = l.
Proof. induction 1; cbn; auto. rewrite i32_id by lia. congruence. Qed.

Lemma sub_region_small : forall os oc sa ca, sub_region os oc sa ca -> Forall (fun x => 0 < x < 2 ^ 31) ca ->
  Forall (fun x => 0 < x < 2 ^ 31) oc.
Proof.
  induction 1; intros HF; constructor.
  - pose proof (Forall_inv HF). cbn beta in *. lia.
  - apply IHsub_region. eapply Forall_inv_tail; eauto.
Qed.

Definition hit_pairs (es fkey mkey : Z) (m b : block) (cs : list (list Z)) : list (Z * Z) :=
  flat_map (fun c => combine (byte_range (fkey + es * rm (b_count m) (subv c (b_start m))) es)
                             (byte_range (mkey + es * rm (b_count b) (subv c (b_start b))) es)) cs.

Lemma mk_sret_pairs : forall dip foff doff xbuf m b os oc nd,
  blk_small nd (b_start m) (b_count m) -> blk_small nd (b_start b) (b_count b) ->
  intersect (b_start m) (b_count m) (b_start b) (b_count b) = Some (os, oc) ->
  single_pairs (mk_sret dip foff 0 0 doff xbuf (b_start m) (b_count m) b os oc) =
  hit_pairs (di_esize dip) (foff + doff) xbuf m b (coords_of os oc).
Proof.
  intros dip foff doff xbuf m b os oc nd (M1 & M2 & M3) (B1 & B2 & B3) HI.
  destruct (intersect_sub (b_start m) (b_count m) (b_start b) (b_count b) os oc) as [S1 S2]; try congruence.
  destruct (sub_region_length _ _ _ _ S1) as (L1 & L2 & L3).
  unfold single_pairs, mk_sret, sr_key. cbn [sr_esize sr_foff sr_doff sr_xbuf sr_dsize sr_dstart sr_msize sr_mstart sr_count].
  rewrite (map_i32_id (b_count m)), (map_i32_id (b_count b)) by auto.
  rewrite (map_i32_id oc) by (eapply sub_region_small; eauto).
  rewrite (sub32_subv _ _ _ _ S1), (sub32_subv _ _ _ _ S2) by auto.
  unfold subarray. rewrite !coords_of_subv by congruence.
  rewrite !(flat_map_concat_map _ (map _ _)), !map_map, <- !flat_map_concat_map.
  rewrite combine_flat_map by (intros; rewrite !byte_range_length; auto).
  unfold hit_pairs. apply flat_map_ext. intros c. rewrite !lin_rm. reflexivity.
Qed.

Lemma In_byte_pairs : forall f m n q, In q (combine (byte_range f n) (byte_range m n)) <->
  exists i, 0 <= i < n /\ q = (f + i, m + i).
Proof.
  intros. unfold byte_range.
  replace (combine (map (fun i => f + i) (zseq n)) (map (fun i => m + i) (zseq n)))
    with (map (fun i => (f + i, m + i)) (zseq n)).
  - rewrite in_map_iff. split; intros (i & H1 & H2); exists i.
    + apply zseq_In in H2. auto.
    + split; auto. apply zseq_In. lia.
  - generalize (zseq n). induction l; cbn; congruence.
Qed.

Lemma In_hit_pairs : forall es fk mk m b cs q, In q (hit_pairs es fk mk m b cs) <->
  exists c i, In c cs /\ 0 <= i < es /\
    q = (fk + es * rm (b_count m) (subv c (b_start m)) + i, mk + es * rm (b_count b) (subv c (b_start b)) + i).
Proof.
  intros. unfold hit_pairs. rewrite in_flat_map. split.
  - intros (c & H1 & H2). apply In_byte_pairs in H2. destruct H2 as (i & H2 & H3). exists c, i. auto.
  - intros (c & i & H1 & H2 & H3). exists c. split; auto. apply In_byte_pairs. exists i. auto.
Qed.

Lemma map_fst_combine : forall A B (a : list A) (b : list B), length a = length b -> map fst (combine a b) = a.
Proof. induction a; destruct b; cbn; intros; try lia; auto. f_equal. auto. Qed.

Lemma NoDup_flat_map : forall A B (f : A -> list B) l, NoDup l -> (forall x, In x l -> NoDup (f x)) ->
  (forall x y z, In x l -> In y l -> In z (f x) -> In z (f y) -> x = y) -> NoDup (flat_map f l).
Proof.
  induction l as [|a l IH]; intros H1 H2 H3; cbn; [constructor|]. inversion H1; subst.
  apply NoDup_app_intro.
  - apply H2. left; auto.
  - apply IH; auto; intros; [apply H2; right; auto|]. eapply H3; eauto; right; auto.
  - intros z Hz1 Hz2. apply in_flat_map in Hz2. destruct Hz2 as (y & Hy & Hz2).
    assert (a = y) by (eapply H3; eauto; [left|right]; auto). subst. auto.
Qed.

Lemma byte_range_NoDup : forall x n, NoDup (byte_range x n).
Proof.
  intros. unfold byte_range. apply FinFun.Injective_map_NoDup; [|apply zseq_NoDup].
  intros a b H. lia.
Qed.
Lemma In_byte_range : forall x n a, In a (byte_range x n) <-> x <= a < x + n.
Proof.
  intros. unfold byte_range. rewrite in_map_iff. split.
  - intros (i & <- & Hi). apply zseq_In in Hi. lia.
  - intros H. exists (a - x). split; [lia|]. apply zseq_In. lia.
Qed.

Lemma elem_eq : forall es a b i j, 0 <= i < es -> 0 <= j < es -> es * a + i = es * b + j -> a = b /\ i = j.
Proof.
  intros es a b i j Hi Hj H.
  assert (a = b) by nia. subst. lia.
Qed.

Lemma hit_pairs_NoDup : forall es fk mk m b os oc nd, 0 < es ->
  blk_small nd (b_start m) (b_count m) -> sub_region os oc (b_start m) (b_count m) ->
  NoDup (map fst (hit_pairs es fk mk m b (coords_of os oc))).
Proof.
  intros es fk mk m b os oc nd He Hm HS. unfold hit_pairs. rewrite map_flat_map.
  destruct (sub_region_length _ _ _ _ HS) as (L1 & L2 & L3).
  rewrite (flat_map_ext _ (fun c => byte_range (fk + es * rm (b_count m) (subv c (b_start m))) es)).
  2:{ intros c. apply map_fst_combine. rewrite !byte_range_length. auto. }
  apply NoDup_flat_map.
  - apply coords_of_NoDup. congruence.
  - intros. apply byte_range_NoDup.
  - intros x y z Hx Hy Hz1 Hz2. apply In_byte_range in Hz1, Hz2.
    apply In_coords_of in Hx, Hy; try congruence.
    apply (rm_inj (b_start m) (b_count m)); [eapply blk_nonneg; eauto| | |nia];
      eapply sub_region_inside; eauto.
Qed.

(** ** Writes as elements of the log *)

(** Element [k] of write [p]: coordinate [c], at byte [fst p + es * k]. *)
Definition elem_at (p : pwr) (k : nat) (c : list Z) : Prop := nth_error (sel_coords (a_sels (snd p))) k = Some c.

Definition wsmall (G : Z -> option (nat * Z * bool)) (p : pwr) : Prop :=
  Forall (fun b => blk_small (ndim_of G (a_did (snd p))) (b_start b) (b_count b)) (a_sels (snd p)) /\
  0 < esize_of G (a_did (snd p)).

(** Extent of a write in the log. *)
Definition wbytes (G : Z -> option (nat * Z * bool)) (p : pwr) : Z :=
  esize_of G (a_did (snd p)) * sel_size (a_sels (snd p)).
Definition wbefore (G : Z -> option (nat * Z * bool)) (p q : pwr) : Prop := fst p + wbytes G p <= fst q.

Record log_ok (G : Z -> option (nat * Z * bool)) (l : list pwr) : Prop := {
  lo_small : Forall (wsmall G) l;
  lo_ne : Forall (fun p => a_sels (snd p) <> []) l;
  lo_disj : ForallOrdPairs (fun p q => wbefore G p q \/ wbefore G q p) l }.

(** A read request against the dataset table. *)
Definition rsmall (dip : dinfo) (r : rreq) : Prop :=
  Forall (fun b => blk_small (di_ndim dip) (b_start b) (b_count b) /\
                   last (b_count b) 1 * di_esize dip < 2 ^ 31) (rq_sels r) /\
  0 < di_esize dip /\ rq_esize r = di_esize dip.

Lemma In_asearch : forall l dip r s, In s (asearch l dip r) <->
  exists b o p m d os oc, In (b, o) (with_soff (rq_esize r) 0 (rq_sels r)) /\ In p l /\ a_did (snd p) = rq_did r /\
    In (m, d) (with_soff (di_esize dip) 0 (a_sels (snd p))) /\
    intersect (b_start m) (b_count m) (b_start b) (b_count b) = Some (os, oc) /\
    s = mk_sret dip (fst p) 0 0 d (rq_xbuf r + o) (b_start m) (b_count m) b os oc.
Proof.
  intros. unfold asearch. rewrite in_flat_map. split.
  - intros ([b o] & H1 & H2). apply in_flat_map in H2. destruct H2 as (p & H2 & H3). unfold aent in H3.
    destruct (Z.eqb_spec (a_did (snd p)) (rq_did r)) as [E|E]; [|destruct H3].
    apply in_flat_map in H3. destruct H3 as (ms & H3 & H4). rewrite add_doffs_soff in H3.
    apply in_map_iff in H3. destruct H3 as ([m d] & <- & H3). unfold ahit in H4. cbn [ms_start ms_count ms_doff fst snd] in H4.
    destruct (intersect _ _ _ _) as [[os oc]|] eqn:HI; [|destruct H4]. destruct H4 as [<-|[]].
    exists b, o, p, m, d, os, oc. auto 10.
  - intros (b & o & p & m & d & os & oc & H1 & H2 & H3 & H4 & H5 & ->).
    exists (b, o). split; auto. apply in_flat_map. exists p. split; auto. unfold aent.
    rewrite H3, Z.eqb_refl. apply in_flat_map. rewrite add_doffs_soff.
    exists (mkmsel (b_start m) (b_count m) d). split.
    + apply in_map_iff. exists (m, d). auto.
    + unfold ahit. cbn [ms_start ms_count ms_doff fst snd]. rewrite H5. left. auto.
Qed.

(** ** Lists of requests *)
Lemma FOP_In : forall A (R : A -> A -> Prop) l x y, ForallOrdPairs R l -> In x l -> In y l -> x = y \/ R x y \/ R y x.
Proof. intros. eapply ForallOrdPairs_In in H; eauto. Qed.

Lemma FOP_flat_map : forall A B (R : B -> B -> Prop) (f : A -> list B) l,
  (forall x, In x l -> ForallOrdPairs R (f x)) ->
  ForallOrdPairs (fun x y => forall a b, In a (f x) -> In b (f y) -> R a b) l ->
  ForallOrdPairs R (flat_map f l).
Proof.
  induction l as [|x l IH]; intros H1 H2; cbn; [constructor|]. inversion H2 as [|? ? HA HB]; subst.
  apply ForallOrdPairs_app. split; [apply H1; left; auto|]. split.
  - apply IH; auto. intros. apply H1. right. auto.
  - intros a b Ha Hb. apply in_flat_map in Hb. destruct Hb as (y & Hy & Hb).
    rewrite Forall_forall in HA. eapply HA; eauto.
Qed.

Lemma FOP_impl_In : forall A (R S : A -> A -> Prop) l, (forall x y, In x l -> In y l -> R x y -> S x y) ->
  ForallOrdPairs R l -> ForallOrdPairs S l.
Proof.
  intros A R S l. induction l; intros H1 H2; [constructor|]. inversion H2; subst. constructor.
  - rewrite Forall_forall in *. intros. apply H1; auto; [left|right]; auto.
  - apply IHl; auto. intros. apply H1; auto; right; auto.
Qed.

Lemma FOP_map : forall A B (f : A -> B) (R : B -> B -> Prop) l,
  ForallOrdPairs (fun x y => R (f x) (f y)) l -> ForallOrdPairs R (map f l).
Proof.
  induction 1; cbn; constructor; auto. apply Forall_map. auto.
Qed.

Definition small_sels (nd : nat) (s : list block) : Prop :=
  Forall (fun b => blk_small nd (b_start b) (b_count b)) s.

Lemma sel_size_nonneg : forall nd s, small_sels nd s -> 0 <= sel_size s.
Proof.
  induction 1; [cbn; lia|]. unfold sel_size in *. cbn [map Zsum fold_right].
  pose proof (coords_length_size _ _ H). fold (Zsum (map block_size l)). lia.
Qed.
Lemma sel_size_cons : forall b s, sel_size (b :: s) = block_size b + sel_size s.
Proof. reflexivity. Qed.

Lemma sel_coords_length : forall nd s, small_sels nd s -> Z.of_nat (length (sel_coords s)) = sel_size s.
Proof.
  induction 1; [reflexivity|]. unfold sel_coords. cbn [flat_map]. rewrite app_length, sel_size_cons.
  fold (sel_coords l). pose proof (coords_length_size _ _ H). lia.
Qed.

(** Offsets of the blocks of a selection increase. *)
Lemma soff_range : forall nd es s d b o, 0 < es -> small_sels nd s -> In (b, o) (with_soff es d s) ->
  d <= o /\ o + es * block_size b <= d + es * sel_size s /\ 0 < block_size b.
Proof.
  induction s as [|b0 s IH]; intros d b o He HF Hin; [destruct Hin|].
  destruct (coords_length_size _ _ (Forall_inv HF)) as [_ L]. pose proof (sel_size_nonneg _ _ (Forall_inv_tail HF)) as N.
  rewrite sel_size_cons. cbn [with_soff] in Hin. destruct Hin as [E|Hin].
  - injection E as <- <-. nia.
  - apply IH in Hin; auto; [|eapply Forall_inv_tail; eauto]. nia.
Qed.

Definition soff_before (es : Z) (x y : block * Z) : Prop := snd x + es * block_size (fst x) <= snd y.
Lemma soff_sorted : forall nd es s d, 0 < es -> small_sels nd s -> ForallOrdPairs (soff_before es) (with_soff es d s).
Proof.
  induction s as [|b0 s IH]; intros d He HF; cbn; constructor.
  - apply Forall_forall. intros [b o] Hin. eapply soff_range in Hin; eauto; [|eapply Forall_inv_tail; eauto].
    unfold soff_before. cbn. lia.
  - apply IH; auto. eapply Forall_inv_tail; eauto.
Qed.

(** Requests with the information of their dataset. *)
Definition xreq := (dinfo * rreq)%type.

Definition xbytes (x : xreq) : Z := di_esize (fst x) * sel_size (rq_sels (snd x)).
Record xs_ok (G : Z -> option (nat * Z * bool)) (xs : list xreq) : Prop := {
  xo_small : Forall (fun x => rsmall (fst x) (snd x)) xs;
  xo_geom : Forall (fun x => ndim_of G (rq_did (snd x)) = di_ndim (fst x) /\
                             esize_of G (rq_did (snd x)) = di_esize (fst x)) xs;
  xo_self : Forall (fun x => ForallOrdPairs disjoint_blocks (rq_sels (snd x))) xs;
  xo_pair : ForallOrdPairs (fun x y =>
     (rq_xbuf (snd x) + xbytes x <= rq_xbuf (snd y) \/ rq_xbuf (snd y) + xbytes y <= rq_xbuf (snd x)) /\
     (rq_did (snd x) = rq_did (snd y) ->
      forall a b, In a (rq_sels (snd x)) -> In b (rq_sels (snd y)) -> disjoint_blocks a b)) xs }.

Definition asearch_all (l : list pwr) (xs : list xreq) : list sret :=
  flat_map (fun x => asearch l (fst x) (snd x)) xs.

(** One hit, unfolded. *)
Record hit (l : list pwr) (x : xreq) (b : block) (o : Z) (p : pwr) (m : block) (d : Z) (os oc : list Z)
  : Prop := {
  hi_b : In (b, o) (with_soff (di_esize (fst x)) 0 (rq_sels (snd x)));
  hi_p : In p l;
  hi_did : a_did (snd p) = rq_did (snd x);
  hi_m : In (m, d) (with_soff (di_esize (fst x)) 0 (a_sels (snd p)));
  hi_i : intersect (b_start m) (b_count m) (b_start b) (b_count b) = Some (os, oc) }.

Definition hit_sret (x : xreq) (b : block) (o : Z) (p : pwr) (m : block) (d : Z) (os oc : list Z) : sret :=
  mk_sret (fst x) (fst p) 0 0 d (rq_xbuf (snd x) + o) (b_start m) (b_count m) b os oc.

Section Hits.
Context (G : Z -> option (nat * Z * bool)) (l : list pwr) (xs : list xreq).
Context (HL : log_ok G l) (HX : xs_ok G xs).

Lemma hit_of : forall x s, In x xs -> In s (asearch l (fst x) (snd x)) ->
  exists b o p m d os oc, hit l x b o p m d os oc /\ s = hit_sret x b o p m d os oc.
Proof.
  intros x s Hx Hs. apply In_asearch in Hs. destruct Hs as (b & o & p & m & d & os & oc & H1 & H2 & H3 & H4 & H5 & H6).
  pose proof (proj1 (Forall_forall _ _) (xo_small _ _ HX) x Hx) as (_ & _ & E). cbn beta in E.
  exists b, o, p, m, d, os, oc. split; [|exact H6]. rewrite E in H1. constructor; auto.
Qed.

Lemma hit_facts : forall x b o p m d os oc, In x xs -> hit l x b o p m d os oc ->
  0 < di_esize (fst x) /\
  small_sels (di_ndim (fst x)) (rq_sels (snd x)) /\ small_sels (di_ndim (fst x)) (a_sels (snd p)) /\
  blk_small (di_ndim (fst x)) (b_start b) (b_count b) /\ blk_small (di_ndim (fst x)) (b_start m) (b_count m) /\
  sub_region os oc (b_start m) (b_count m) /\ sub_region os oc (b_start b) (b_count b) /\
  last (b_count b) 1 * di_esize (fst x) < 2 ^ 31 /\
  wbytes G p = di_esize (fst x) * sel_size (a_sels (snd p)).
Proof.
  intros x b o p m d os oc Hx [H1 H2 H3 H4 H5].
  pose proof (proj1 (Forall_forall _ _) (xo_small _ _ HX) x Hx) as (R1 & R2 & R3). cbn beta in *.
  pose proof (proj1 (Forall_forall _ _) (xo_geom _ _ HX) x Hx) as (G1 & G2). cbn beta in *.
  pose proof (proj1 (Forall_forall _ _) (lo_small _ _ HL) p H2) as (W1 & W2).
  rewrite H3 in *.
  assert (S1 : small_sels (di_ndim (fst x)) (rq_sels (snd x))) by (revert R1; apply Forall_impl; tauto).
  assert (S2 : small_sels (di_ndim (fst x)) (a_sels (snd p))) by (rewrite <- G1; exact W1).
  assert (B1 : blk_small (di_ndim (fst x)) (b_start b) (b_count b) /\ last (b_count b) 1 * di_esize (fst x) < 2 ^ 31).
  { apply In_with_soff in H1. rewrite Forall_forall in R1. apply R1 in H1. exact H1. }
  assert (B2 : blk_small (di_ndim (fst x)) (b_start m) (b_count m)).
  { apply In_with_soff in H4. unfold small_sels in S2. rewrite Forall_forall in S2. apply S2 in H4. exact H4. }
  destruct B1 as [B1 B1']. destruct B1 as (L1 & L2 & L3), B2 as (M1 & M2 & M3).
  destruct (intersect_sub (b_start m) (b_count m) (b_start b) (b_count b) os oc) as [Q1 Q2]; try congruence.
  unfold blk_small. unfold wbytes. rewrite H3, G2. auto 20.
Qed.

Lemma hit_single : forall x b o p m d os oc, In x xs -> hit l x b o p m d os oc ->
  single_pairs (hit_sret x b o p m d os oc) =
  hit_pairs (di_esize (fst x)) (fst p + d) (rq_xbuf (snd x) + o) m b (coords_of os oc).
Proof.
  intros x b o p m d os oc Hx Hh. pose proof (hit_facts _ _ _ _ _ _ _ _ Hx Hh) as (F1 & F2 & F3 & F4 & F5 & _).
  unfold hit_sret. eapply mk_sret_pairs; eauto. apply Hh.
Qed.

(** A pair of a hit, in terms of element positions. *)
Lemma hit_pair_pos : forall x b o p m d os oc q, In x xs -> hit l x b o p m d os oc ->
  In q (single_pairs (hit_sret x b o p m d os oc)) ->
  exists c k j i, elem_at p k c /\ nth_error (sel_coords (rq_sels (snd x))) j = Some c /\
    in_block m c /\ in_block b c /\
    0 <= i < di_esize (fst x) /\
    fst q = fst p + di_esize (fst x) * Z.of_nat k + i /\
    fst q = fst p + d + di_esize (fst x) * rm (b_count m) (subv c (b_start m)) + i /\
    snd q = rq_xbuf (snd x) + di_esize (fst x) * Z.of_nat j + i.
Proof.
  intros x b o p m d os oc q Hx Hh Hq.
  pose proof (hit_facts _ _ _ _ _ _ _ _ Hx Hh) as (F1 & F2 & F3 & F4 & F5 & F6 & F7 & F8 & F9).
  rewrite hit_single in Hq by auto. apply In_hit_pairs in Hq. destruct Hq as (c & i & Hc & Hi & ->).
  destruct (sub_region_length _ _ _ _ F6) as (L1 & L2 & L3).
  apply In_coords_of in Hc; [|congruence].
  assert (Cm : in_block m c) by (eapply sub_region_inside; eauto).
  assert (Cb : in_block b c) by (eapply sub_region_inside; eauto).
  destruct Hh as [H1 H2 H3 H4 H5].
  replace 0 with (di_esize (fst x) * 0) in H1, H4 by ring.
  destruct (soff_pos _ _ _ _ _ _ c F2 H1 Cb) as (j & J1 & J2).
  destruct (soff_pos _ _ _ _ _ _ c F3 H4 Cm) as (k & K1 & K2).
  exists c, k, j, i. cbn [fst snd]. repeat (split; auto); try lia.
Qed.

Lemma pairs_spec : forall x f a, In x xs ->
  (In (f, a) (flat_map single_pairs (asearch l (fst x) (snd x))) <->
   exists p k j c i, In p l /\ a_did (snd p) = rq_did (snd x) /\ elem_at p k c /\
     nth_error (sel_coords (rq_sels (snd x))) j = Some c /\ 0 <= i < di_esize (fst x) /\
     f = fst p + di_esize (fst x) * Z.of_nat k + i /\
     a = rq_xbuf (snd x) + di_esize (fst x) * Z.of_nat j + i).
Proof.
  intros x f a Hx. rewrite in_flat_map. split.
  - intros (s & Hs & Hq). destruct (hit_of x s Hx Hs) as (b & o & p & m & d & os & oc & Hh & ->).
    destruct (hit_pair_pos _ _ _ _ _ _ _ _ _ Hx Hh Hq) as (c & k & j & i & P1 & P2 & _ & _ & P3 & P4 & _ & P5).
    exists p, k, j, c, i. destruct Hh. auto 10.
  - intros (p & k & j & c & i & P1 & P2 & P3 & P4 & P5 & P6 & P7).
    pose proof (proj1 (Forall_forall _ _) (xo_small _ _ HX) x Hx) as (R1 & R2 & R3). cbn beta in *.
    pose proof (proj1 (Forall_forall _ _) (xo_geom _ _ HX) x Hx) as (G1 & G2). cbn beta in *.
    pose proof (proj1 (Forall_forall _ _) (lo_small _ _ HL) p P1) as (W1 & W2). rewrite P2 in W1. rewrite G1 in W1.
    assert (S1 : small_sels (di_ndim (fst x)) (rq_sels (snd x))) by (revert R1; apply Forall_impl; tauto).
    destruct (soff_find _ (di_esize (fst x)) _ 0 _ _ S1 P4) as (b & o & B1 & B2 & B3).
    destruct (soff_find _ (di_esize (fst x)) _ 0 _ _ W1 P3) as (m & d & M1 & M2 & M3).
    rewrite Z.mul_0_r in B1, M1.
    assert (Bb : blk_small (di_ndim (fst x)) (b_start b) (b_count b)).
    { apply In_with_soff in B1. unfold small_sels in S1. rewrite Forall_forall in S1. auto. }
    assert (Bm : blk_small (di_ndim (fst x)) (b_start m) (b_count m)).
    { apply In_with_soff in M1. rewrite Forall_forall in W1. auto. }
    destruct Bb as (b1 & b2 & b3), Bm as (m1 & m2 & m3).
    assert (Lc : length c = length (b_start m)). { apply inside_length in M2. lia. }
    pose proof (intersect_spec (b_start m) (b_count m) (b_start b) (b_count b) ltac:(congruence) ltac:(congruence) ltac:(congruence) c Lc) as HI.
    destruct (intersect (b_start m) (b_count m) (b_start b) (b_count b)) as [[os oc]|] eqn:EI.
    2:{ exfalso. apply HI. split; auto. }
    assert (Hh : hit l x b o p m d os oc) by (constructor; auto).
    exists (hit_sret x b o p m d os oc). split.
    { apply In_asearch. exists b, o, p, m, d, os, oc. rewrite R3. destruct Hh. repeat (split; auto). }
    rewrite hit_single by auto. apply In_hit_pairs. exists c, i. split; [|split; [auto|]].
    + pose proof (hit_facts _ _ _ _ _ _ _ _ Hx Hh) as (F1 & F2 & F3 & F4 & F5 & F6 & _).
      destruct (sub_region_length _ _ _ _ F6) as (L1 & L2 & L3).
      apply In_coords_of; [congruence|]. apply HI. split; auto.
    + subst f a. f_equal; lia.
Qed.

Lemma last_sub_region : forall os oc sa ca, sub_region os oc sa ca -> last oc 1 <= last ca 1.
Proof.
  induction 1; [cbn; lia|]. destruct H2; [cbn; lia|]. exact IHsub_region.
Qed.

Lemma hit_sr_ok : forall x b o p m d os oc, In x xs -> hit l x b o p m d os oc ->
  sr_ok (hit_sret x b o p m d os oc).
Proof.
  intros x b o p m d os oc Hx Hh.
  pose proof (hit_facts _ _ _ _ _ _ _ _ Hx Hh) as (F1 & F2 & F3 & (B1 & B2 & B3) & (M1 & M2 & M3) & F6 & F7 & F8 & F9).
  destruct (sub_region_length _ _ _ _ F6) as (L1 & L2 & L3).
  destruct (sub_region_length _ _ _ _ F7) as (L4 & L5 & L6).
  pose proof (sub_region_small _ _ _ _ F6 M3) as Hs.
  unfold hit_sret, mk_sret. constructor; cbn [sr_esize sr_count sr_dsize sr_dstart sr_msize sr_mstart]; auto.
  - rewrite map_i32_id by auto. revert Hs. apply Forall_impl. intros; lia.
  - rewrite !map_length. congruence.
  - rewrite (sub32_subv _ _ _ _ F6) by auto. rewrite map_length, subv_length; congruence.
  - rewrite !map_length. congruence.
  - rewrite (sub32_subv _ _ _ _ F7) by auto. rewrite map_length, subv_length; congruence.
  - rewrite map_i32_id by auto. pose proof (last_sub_region _ _ _ _ F7). nia.
Qed.

(** Two writes of the log with a common first byte are the same. *)
Lemma log_foff_inj : forall p q, In p l -> In q l -> fst p = fst q -> p = q.
Proof.
  intros p q Hp Hq E.
  assert (Hpos : forall p, In p l -> 0 < wbytes G p).
  { intros w Hw. pose proof (proj1 (Forall_forall _ _) (lo_small _ _ HL) w Hw) as (W1 & W2).
    pose proof (proj1 (Forall_forall _ _) (lo_ne _ _ HL) w Hw) as W3. cbn beta in W3. unfold wbytes.
    destruct (a_sels (snd w)) as [|b s]; [congruence|]. rewrite sel_size_cons.
    pose proof (coords_length_size _ _ (Forall_inv W1)). pose proof (sel_size_nonneg _ _ (Forall_inv_tail W1)). nia. }
  destruct (FOP_In _ _ _ p q (lo_disj _ _ HL) Hp Hq) as [H|[H|H]]; auto;
    pose proof (Hpos p Hp); pose proof (Hpos q Hq); unfold wbefore in H; lia.
Qed.

Lemma hit_range : forall x b o p m d os oc c, In x xs -> hit l x b o p m d os oc -> in_block m c ->
  0 <= d /\ 0 <= rm (b_count m) (subv c (b_start m)) < block_size m /\
  d + di_esize (fst x) * block_size m <= wbytes G p.
Proof.
  intros x b o p m d os oc c Hx Hh Hc.
  pose proof (hit_facts _ _ _ _ _ _ _ _ Hx Hh) as (F1 & F2 & F3 & F4 & F5 & F6 & F7 & F8 & F9).
  pose proof (soff_range _ _ _ _ _ _ F1 F3 (hi_m _ _ _ _ _ _ _ _ _ Hh)) as (S1 & S2 & S3).
  pose proof (rm_inside _ _ _ Hc) as R. fold (block_size m) in R. lia.
Qed.

Lemma reads_ok_all : reads_ok (asearch_all l xs).
Proof.
  assert (HIn : forall s, In s (asearch_all l xs) -> exists x b o p m d os oc, In x xs /\
     hit l x b o p m d os oc /\ s = hit_sret x b o p m d os oc).
  { intros s Hs. unfold asearch_all in Hs. apply in_flat_map in Hs. destruct Hs as (x & Hx & Hs).
    destruct (hit_of x s Hx Hs) as (b & o & p & m & d & os & oc & H1 & H2).
    exists x, b, o, p, m, d, os, oc. auto. }
  constructor.
  - apply Forall_forall. intros s Hs. destruct (HIn s Hs) as (x & b & o & p & m & d & os & oc & H1 & H2 & ->).
    apply hit_sr_ok; auto.
  - intros s1 s2 Hs1 Hs2 Hk q1 q2 Hq1 Hq2 E.
    destruct (HIn s1 Hs1) as (x1 & b1 & o1 & p1 & m1 & d1 & os1 & oc1 & X1 & H1 & ->).
    destruct (HIn s2 Hs2) as (x2 & b2 & o2 & p2 & m2 & d2 & os2 & oc2 & X2 & H2 & ->).
    destruct (hit_pair_pos _ _ _ _ _ _ _ _ _ X1 H1 Hq1) as (c1 & k1 & j1 & i1 & A1 & A2 & A3 & A4 & A5 & A6 & A7 & A8).
    destruct (hit_pair_pos _ _ _ _ _ _ _ _ _ X2 H2 Hq2) as (c2 & k2 & j2 & i2 & B1 & B2 & B3 & B4 & B5 & B6 & B7 & B8).
    pose proof (hit_facts _ _ _ _ _ _ _ _ X1 H1) as (F1 & F2 & F3 & F4 & F5 & F6 & F7 & F8 & F9).
    pose proof (hit_facts _ _ _ _ _ _ _ _ X2 H2) as (K1 & K2 & K3 & K4 & K5 & K6 & K7 & K8 & K9).
    assert (R1 : Z.of_nat j1 < sel_size (rq_sels (snd x1))).
    { rewrite <- (sel_coords_length _ _ F2). assert (j1 < length (sel_coords (rq_sels (snd x1))))%nat by (apply nth_error_Some; congruence). lia. }
    assert (R2 : Z.of_nat j2 < sel_size (rq_sels (snd x2))).
    { rewrite <- (sel_coords_length _ _ K2). assert (j2 < length (sel_coords (rq_sels (snd x2))))%nat by (apply nth_error_Some; congruence). lia. }
    assert (Ex : x1 = x2).
    { destruct (FOP_In _ _ _ x1 x2 (xo_pair _ _ HX) X1 X2) as [Hx|[[Hx _]|[Hx _]]]; auto; unfold xbytes in Hx; nia. }
    subst x2. destruct (elem_eq (di_esize (fst x1)) (Z.of_nat j1) (Z.of_nat j2) i1 i2 A5 B5 ltac:(lia)) as [Ej Ei].
    assert (j1 = j2) by lia. subst j2 i2. assert (c1 = c2) by congruence. subst c2.
    pose proof (hit_range _ _ _ _ _ _ _ _ c1 X1 H1 A3) as (G1 & G2 & G3).
    pose proof (hit_range _ _ _ _ _ _ _ _ c1 X2 H2 B3) as (G4 & G5 & G6).
    unfold hit_sret, mk_sret, sr_key in Hk. cbn [sr_foff sr_doff] in Hk.
    rewrite A7, B7.
    destruct (FOP_In _ _ _ p1 p2 (lo_disj _ _ HL) (hi_p _ _ _ _ _ _ _ _ _ H1) (hi_p _ _ _ _ _ _ _ _ _ H2)) as [Hp|Hp].
    + subst p2. destruct (FOP_In _ _ _ (m1, d1) (m2, d2) (soff_sorted _ _ _ 0 F1 F3) (hi_m _ _ _ _ _ _ _ _ _ H1) (hi_m _ _ _ _ _ _ _ _ _ H2)) as [Hm|[Hm|Hm]].
      * injection Hm as <- <-. lia.
      * unfold soff_before in Hm. cbn in Hm. nia.
      * unfold soff_before in Hm. cbn in Hm. nia.
    + assert (Hp' : wbefore G p1 p2 \/ wbefore G p2 p1) by tauto. unfold wbefore in Hp'.
      destruct Hp' as [Hp'|Hp']; nia.
  - apply Forall_forall. intros s Hs. destruct (HIn s Hs) as (x & b & o & p & m & d & os & oc & H1 & H2 & ->).
    rewrite hit_single by auto. pose proof (hit_facts _ _ _ _ _ _ _ _ H1 H2) as (F1 & F2 & F3 & F4 & F5 & F6 & F7 & F8 & F9).
    eapply hit_pairs_NoDup; eauto.
  - (* disjointness of intersections with the same extent *)
    assert (Hcross : forall x1 b1 o1 p1 m1 d1 os1 oc1 x2 b2 o2 p2 m2 d2 os2 oc2, In x1 xs -> In x2 xs ->
      hit l x1 b1 o1 p1 m1 d1 os1 oc1 -> hit l x2 b2 o2 p2 m2 d2 os2 oc2 ->
      (rq_did (snd x1) = rq_did (snd x2) -> disjoint_blocks b1 b2) ->
      ext_disj (hit_sret x1 b1 o1 p1 m1 d1 os1 oc1) (hit_sret x2 b2 o2 p2 m2 d2 os2 oc2)).
    { intros x1 b1 o1 p1 m1 d1 os1 oc1 x2 b2 o2 p2 m2 d2 os2 oc2 X1 X2 H1 H2 Hd [E1 E2] z Z1 Z2.
      unfold hit_sret, mk_sret in E1, E2. cbn [sr_foff sr_doff] in E1, E2.
      assert (p1 = p2) by (apply log_foff_inj; auto; [apply H1|apply H2]). subst p2 d2.
      assert (Hdd : rq_did (snd x1) = rq_did (snd x2)) by (rewrite <- (hi_did _ _ _ _ _ _ _ _ _ H1); apply H2).
      specialize (Hd Hdd).
      pose proof (proj1 (Forall_forall _ _) (xo_geom _ _ HX) x1 X1) as (G1 & G2).
      pose proof (proj1 (Forall_forall _ _) (xo_geom _ _ HX) x2 X2) as (G3 & G4). cbn beta in *.
      apply in_map_iff in Z1. destruct Z1 as (q1 & <- & Hq1). apply in_map_iff in Z2. destruct Z2 as (q2 & Eq & Hq2).
      destruct (hit_pair_pos _ _ _ _ _ _ _ _ _ X1 H1 Hq1) as (c1 & k1 & j1 & i1 & A1 & A2 & A3 & A4 & A5 & A6 & A7 & A8).
      destruct (hit_pair_pos _ _ _ _ _ _ _ _ _ X2 H2 Hq2) as (c2 & k2 & j2 & i2 & B1 & B2 & B3 & B4 & B5 & B6 & B7 & B8).
      assert (Ees : di_esize (fst x1) = di_esize (fst x2)) by congruence. rewrite <- Ees in *.
      destruct (elem_eq (di_esize (fst x1)) (Z.of_nat k1) (Z.of_nat k2) i1 i2 A5 B5 ltac:(lia)) as [Ek Ei].
      assert (k1 = k2) by lia. subst k2. assert (c1 = c2) by (unfold elem_at in *; congruence). subst c2.
      exact (Hd c1 A4 B4). }
    unfold asearch_all. apply FOP_flat_map.
    + intros x Hx. unfold asearch. apply FOP_flat_map.
      * intros [b o] Hb. apply FOP_flat_map.
        -- intros p Hp. unfold aent. destruct (Z.eqb_spec (a_did (snd p)) (rq_did (snd x))) as [E|E]; [|constructor].
           rewrite add_doffs_soff. apply FOP_flat_map.
           ++ intros m Hm. unfold ahit. destruct (intersect _ _ _ _) as [[os oc]|]; repeat constructor.
           ++ apply FOP_map.
              assert (S : small_sels (di_ndim (fst x)) (a_sels (snd p)) /\ 0 < di_esize (fst x)).
              { pose proof (proj1 (Forall_forall _ _) (xo_small _ _ HX) x Hx) as (_ & R2 & _). cbn beta in *.
                pose proof (proj1 (Forall_forall _ _) (xo_geom _ _ HX) x Hx) as (G1 & G2). cbn beta in *.
                pose proof (proj1 (Forall_forall _ _) (lo_small _ _ HL) p Hp) as (W1 & _). rewrite E, G1 in W1. auto. }
              destruct S as [S1 S2].
              eapply FOP_impl_In; [|exact (soff_sorted _ (di_esize (fst x)) _ 0 S2 S1)].
              intros [m1 d1] [m2 d2] I1 I2 Hbef s1 s2 Hs1 Hs2 [_ E2]. exfalso.
              unfold soff_before in Hbef. cbn [fst snd] in Hbef.
              pose proof (soff_range _ _ _ _ _ _ S2 S1 I1) as (_ & _ & Q).
              unfold ahit in Hs1, Hs2. cbn [ms_start ms_count ms_doff fst snd] in Hs1, Hs2.
              destruct (intersect (b_start m1) _ _ _) as [[os1 oc1]|]; [|destruct Hs1].
              destruct (intersect (b_start m2) _ _ _) as [[os2 oc2]|]; [|destruct Hs2].
              destruct Hs1 as [<-|[]]. destruct Hs2 as [<-|[]]. cbn in E2. nia.
        -- eapply FOP_impl_In; [|exact (lo_disj _ _ HL)].
           intros p1 p2 Hp1 Hp2 Hbef s1 s2 Hs1 Hs2 [E1 _]. exfalso.
           assert (HH : forall p s, In s (aent (fst x) (snd x) (b, o) p) -> sr_foff s = fst p).
           { intros p s Hs. unfold aent in Hs. destruct (a_did (snd p) =? rq_did (snd x)); [|destruct Hs].
             apply in_flat_map in Hs. destruct Hs as (m & _ & Hs). unfold ahit in Hs.
             destruct (intersect _ _ _ _) as [[os oc]|]; [|destruct Hs]. destruct Hs as [<-|[]]. reflexivity. }
           rewrite (HH _ _ Hs1), (HH _ _ Hs2) in E1.
           assert (Hpos : forall p, In p l -> 0 < wbytes G p).
           { intros w Hw. pose proof (proj1 (Forall_forall _ _) (lo_small _ _ HL) w Hw) as (W1 & W2).
             pose proof (proj1 (Forall_forall _ _) (lo_ne _ _ HL) w Hw) as W3. cbn beta in W3. unfold wbytes.
             destruct (a_sels (snd w)) as [|bb ss]; [congruence|]. rewrite sel_size_cons.
             pose proof (coords_length_size _ _ (Forall_inv W1)). pose proof (sel_size_nonneg _ _ (Forall_inv_tail W1)). nia. }
           pose proof (Hpos p1 Hp1). pose proof (Hpos p2 Hp2). unfold wbefore in Hbef. lia.
      * (* two blocks of one request *)
        pose proof (proj1 (Forall_forall _ _) (xo_self _ _ HX) x Hx) as HS. cbn beta in HS.
        pose proof (proj1 (Forall_forall _ _) (xo_small _ _ HX) x Hx) as (_ & _ & RE). cbn beta in RE. rewrite RE.
        assert (HW : ForallOrdPairs (fun x y => disjoint_blocks (fst x) (fst y)) (with_soff (di_esize (fst x)) 0 (rq_sels (snd x)))).
        { clear - HS. generalize 0. induction HS as [|b s HA HB IH]; intros d; cbn [with_soff]; constructor.
          - apply Forall_forall. intros [b' o'] Hin. apply In_with_soff in Hin. rewrite Forall_forall in HA. cbn. auto.
          - apply IH. }
        eapply FOP_impl_In; [|exact HW]. intros [b1 o1] [b2 o2] I1 I2 Hdis s1 s2 Hs1 Hs2. cbn [fst] in Hdis.
        assert (Hh : forall b o s, In (b, o) (with_soff (di_esize (fst x)) 0 (rq_sels (snd x))) ->
          In s (flat_map (aent (fst x) (snd x) (b, o)) l) ->
          exists p m d os oc, hit l x b o p m d os oc /\ s = hit_sret x b o p m d os oc).
        { intros b o s Hb Hs. apply in_flat_map in Hs. destruct Hs as (p & Hp & Hs). unfold aent in Hs.
          destruct (Z.eqb_spec (a_did (snd p)) (rq_did (snd x))) as [E|E]; [|destruct Hs].
          rewrite add_doffs_soff in Hs. apply in_flat_map in Hs. destruct Hs as (ms & Hm & Hs).
          apply in_map_iff in Hm. destruct Hm as ([m d] & <- & Hm). unfold ahit in Hs.
          cbn [ms_start ms_count ms_doff fst snd] in Hs.
          destruct (intersect _ _ _ _) as [[os oc]|] eqn:EI; [|destruct Hs]. destruct Hs as [<-|[]].
          exists p, m, d, os, oc. split; [constructor; auto|reflexivity]. }
        destruct (Hh _ _ _ I1 Hs1) as (p1 & m1 & d1 & os1 & oc1 & HA1 & ->).
        destruct (Hh _ _ _ I2 Hs2) as (p2 & m2 & d2 & os2 & oc2 & HA2 & ->).
        eapply Hcross; eauto.
    + eapply FOP_impl_In; [|exact (xo_pair _ _ HX)].
      intros x1 x2 X1 X2 [_ Hd] s1 s2 Hs1 Hs2.
      destruct (hit_of x1 s1 X1 Hs1) as (b1 & o1 & p1 & m1 & d1 & os1 & oc1 & HA1 & ->).
      destruct (hit_of x2 s2 X2 Hs2) as (b2 & o2 & p2 & m2 & d2 & os2 & oc2 & HA2 & ->).
      eapply Hcross; eauto. intros E. apply Hd; auto; eapply In_with_soff; [apply HA1|apply HA2].
Qed.
End Hits.

Lemma reads_ok_core : forall u, reads_ok (map core u) -> reads_ok u.
Proof.
  intros u [H1 H2 H3 H4]. constructor.
  - rewrite Forall_map in H1. revert H1. apply Forall_impl. intros s [A B C D E F I]. constructor; auto.
  - intros s1 s2 I1 I2 Hk p q Hp Hq. apply (H2 (core s1) (core s2)); auto; apply in_map; auto.
  - rewrite Forall_map in H3. exact H3.
  - clear - H4. remember (map core u) as v. revert u Heqv. induction H4 as [|a v HA HB IH]; intros u E; destruct u as [|b u]; try discriminate; constructor.
    + injection E as -> ->. rewrite Forall_map in HA. exact HA.
    + apply IH. injection E as _ E. exact E.
Qed.

Lemma read_pairs_core : forall u, read_pairs (map core u) = read_pairs u.
Proof. unfold read_pairs. induction u; cbn; auto. f_equal. auto. Qed.

(** ** What a read delivers *)
Theorem read_delivers : forall G l xs u sort file mem x j c i,
  log_ok G l -> xs_ok G xs -> Permutation (map core u) (asearch_all l xs) -> is_sort sort ->
  In x xs -> nth_error (sel_coords (rq_sels (snd x))) j = Some c -> 0 <= i < di_esize (fst x) ->
  let a := rq_xbuf (snd x) + di_esize (fst x) * Z.of_nat j + i in
  ((forall p k, In p l -> a_did (snd p) = rq_did (snd x) -> ~ elem_at p k c) ->
   perform_read sort file mem u a = mem a) /\
  (forall p k, In p l -> a_did (snd p) = rq_did (snd x) -> elem_at p k c ->
   (forall p' k', In p' l -> a_did (snd p') = rq_did (snd x) -> elem_at p' k' c ->
      fst p' + di_esize (fst x) * Z.of_nat k' <= fst p + di_esize (fst x) * Z.of_nat k) ->
   perform_read sort file mem u a = file (fst p + di_esize (fst x) * Z.of_nat k + i)).
Proof.
  intros G l xs u sort file mem x j c i HL HX HU Hsort Hx Hj Hi a.
  assert (HK : reads_ok u).
  { apply reads_ok_core. eapply reads_ok_perm; [apply Permutation_sym; exact HU|]. eapply reads_ok_all; eauto. }
  assert (HPP : Permutation (read_pairs u) (flat_map single_pairs (asearch_all l xs))).
  { rewrite <- read_pairs_core. unfold read_pairs. apply Permutation_flat_map. exact HU. }
  destruct (perform_read_ok sort file mem u a Hsort HK) as [P1 P2].
  assert (HP : forall q, In q (read_pairs u) -> snd q = a ->
    exists p k, In p l /\ a_did (snd p) = rq_did (snd x) /\ elem_at p k c /\ fst q = fst p + di_esize (fst x) * Z.of_nat k + i).
  { intros q Hq Ea. eapply Permutation_in in Hq; [|exact HPP]. unfold asearch_all in Hq.
    rewrite flat_map_flat_map in Hq. apply in_flat_map in Hq. destruct Hq as (x' & Hx' & Hq).
    destruct q as [f a']. cbn [fst snd] in *. subst a'.
    rewrite (pairs_spec G l xs HL HX x' f a Hx') in Hq.
    destruct Hq as (p & k & j' & c' & i' & Q1 & Q2 & Q3 & Q4 & Q5 & Q6 & Q7).
    assert (S : forall y, In y xs -> small_sels (di_ndim (fst y)) (rq_sels (snd y)) /\ 0 < di_esize (fst y)).
    { intros y Hy. pose proof (proj1 (Forall_forall _ _) (xo_small _ _ HX) y Hy) as (R1 & R2 & R3). cbn beta in *.
      split; auto. revert R1. apply Forall_impl. tauto. }
    destruct (S x Hx) as [S1 S1'], (S x' Hx') as [S2 S2'].
    assert (R1 : Z.of_nat j < sel_size (rq_sels (snd x))).
    { rewrite <- (sel_coords_length _ _ S1). assert (j < length (sel_coords (rq_sels (snd x))))%nat by (apply nth_error_Some; congruence). lia. }
    assert (R2 : Z.of_nat j' < sel_size (rq_sels (snd x'))).
    { rewrite <- (sel_coords_length _ _ S2). assert (j' < length (sel_coords (rq_sels (snd x'))))%nat by (apply nth_error_Some; congruence). lia. }
    assert (Ex : x = x').
    { destruct (FOP_In _ _ _ x x' (xo_pair _ _ HX) Hx Hx') as [E|[[E _]|[E _]]]; auto; unfold xbytes in E; subst a; nia. }
    subst x'. destruct (elem_eq (di_esize (fst x)) (Z.of_nat j) (Z.of_nat j') i i' Hi Q5 ltac:(subst a; lia)) as [Ej Ei].
    assert (j = j') by lia. subst j' i'. assert (c = c') by congruence. subst c'.
    exists p, k. auto. }
  split.
  - intros H. apply P1. intros q Hq E. destruct (HP q Hq E) as (p & k & K1 & K2 & K3 & _). eapply H; eauto.
  - intros p k K1 K2 K3 K4. apply P2.
    + eapply Permutation_in; [apply Permutation_sym; exact HPP|]. unfold asearch_all. rewrite flat_map_flat_map. apply in_flat_map.
      exists x. split; auto. apply (pairs_spec G l xs HL HX x _ _ Hx). exists p, k, j, c, i. auto 10.
    + intros q Hq E. destruct (HP q Hq E) as (p' & k' & K5 & K6 & K7 & ->). specialize (K4 p' k' K5 K6 K7). lia.
Qed.
