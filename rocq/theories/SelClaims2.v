(** Span trees, packing and unpacking. *)
From Verif Require Import Base BaseProofs Spec MetaModel IndexModel ReadModel GeomProofs HitProofs ReadProofs HistoryProofs ClaimProofs SelModel SelSpec ReorderProofs SelProofs SelProofs2 SelProofs3 SelClaims.
From Coq Require Import ZifyNat.

(** ** Span trees *)
Lemma span_ind2 : forall (P : spans -> Prop), P SNil -> (forall lo hi d n, P d -> P n -> P (SCons lo hi d n)) -> forall t, P t.
Proof. intros P H1 H2. fix IH 1. intros [|lo hi d n]; [exact H1|apply H2; apply IH]. Qed.

Lemma SS_app2 : forall A (R : A -> A -> Prop) a b, StronglySorted R a -> StronglySorted R b -> (forall x y, In x a -> In y b -> R x y) -> StronglySorted R (a ++ b).
Proof. intros. apply SS_app_iff. auto. Qed.
Lemma FOP_app2 : forall A (R : A -> A -> Prop) a b, ForallOrdPairs R a -> ForallOrdPairs R b -> (forall x y, In x a -> In y b -> R x y) -> ForallOrdPairs R (a ++ b).
Proof.
  induction a as [|x a IH]; intros b HA HB H; cbn; auto. inversion HA; subst. constructor; [|apply IH; auto; intros; apply H; auto; right; auto].
  apply Forall_app. split; auto. apply Forall_forall. intros y Hy. apply H; auto. left; auto.
Qed.

Lemma within_cons : forall a s b t c, within (a :: s, b :: t) c -> exists x c', c = x :: c' /\ a <= x <= b /\ within (s, t) c'.
Proof. unfold within. cbn [fst snd combine]. intros a s b t c H. inversion H; subst. eauto. Qed.
(** The first dimension of the blocks of a list of spans. *)
Definition head_in (least : Z) (e : entry) : Prop := exists a s b t, fst e = a :: s /\ snd e = b :: t /\ least <= a /\ a <= b.
Lemma span_blocks_ok : forall t n least, spans_ok (S n) least t ->
  Forall (entry_ok (S n)) (span_blocks (S n) t) /\ Forall (head_in least) (span_blocks (S n) t) /\
  listed_in_order (span_blocks (S n) t) /\ ForallOrdPairs apart (span_blocks (S n) t) /\ (t <> SNil -> span_blocks (S n) t <> []).
Proof.
  induction t as [|lo hi d nx IHd IHn] using span_ind2; intros n least H.
  - cbn. unfold listed_in_order. cbn. repeat split; try constructor. congruence.
  - cbn [spans_ok] in H. destruct H as (H1 & H2 & H3 & H4). destruct (IHn n (hi + 1) H3) as (N1 & N2 & [N3 N3'] & N4 & _). cbn [span_blocks].
    assert (G : exists L, (match n with O => [([lo], [hi])] | S _ => map (fun e => (lo :: fst e, hi :: snd e)) (span_blocks n d) end) = L /\
      Forall (entry_ok (S n)) L /\ Forall (fun e => exists s t, fst e = lo :: s /\ snd e = hi :: t) L /\ listed_in_order L /\ ForallOrdPairs apart L /\ L <> []).
    { destruct n as [|m].
      - eexists. split; [reflexivity|]. split; [repeat constructor; auto|]. split; [constructor; [exists [], []; auto|constructor]|]. split; [split; repeat constructor|]. split; [repeat constructor|discriminate].
      - destruct H4 as [HN (l & H4)]. destruct (IHd m l H4) as (D1 & D2 & [D3 D3'] & D4 & D5). eexists. split; [reflexivity|].
        split; [|split; [|split; [|split]]].
        + apply Forall_map. eapply Forall_impl; [|exact D1]. intros e (A1 & A2 & A3). unfold entry_ok. cbn [fst snd length]. split; [lia|]. split; [lia|]. constructor; auto.
        + apply Forall_map. apply Forall_forall. intros e _. exists (fst e), (snd e). auto.
        + split; rewrite map_map; cbn [fst snd]; rewrite SS_map in *; [eapply SS_impl_In; [|exact D3]|eapply SS_impl_In; [|exact D3']]; intros a b _ _ Hab; right; auto.
        + clear - D4. induction D4; cbn; constructor; auto. apply Forall_map. eapply Forall_impl; [|exact H]. intros e He c C1 C2.
          apply within_cons in C1, C2. destruct C1 as (x1 & c1 & -> & _ & C1), C2 as (x2 & c2 & E & _ & C2). injection E as -> ->.
          apply (He c2); [destruct a|destruct e]; auto.
        + intros E. apply map_eq_nil in E. exact (D5 HN E). }
    destruct G as (L & EL & G1 & G2 & [G3 G3'] & G4 & G5).
    replace (match n with O => [([lo], [hi])] | S m => map (fun e => (lo :: fst e, hi :: snd e)) (span_blocks n d) end) with L by (rewrite <- EL; destruct n; reflexivity).
    split; [apply Forall_app; auto|]. split; [|split; [|split]].
    + apply Forall_app. split; [eapply Forall_impl; [|exact G2]; intros e (s & t & E1 & E2); exists lo, s, hi, t; auto|].
      eapply Forall_impl; [|exact N2]. intros e (a & s & b & t & E1 & E2 & E3 & E4). exists a, s, b, t. repeat split; auto. lia.
    + rewrite Forall_forall in G2, N2. split; rewrite map_app; apply SS_app2; auto; intros x y Hx Hy; apply in_map_iff in Hx, Hy;
        destruct Hx as (e & <- & He), Hy as (f & <- & Hf); destruct (G2 e He) as (s & t & E1 & E2); destruct (N2 f Hf) as (a & s' & b & t' & F1 & F2 & F3 & F4).
      * rewrite E1, F1. left. lia.
      * rewrite E2, F2. left. lia.
    + apply FOP_app2; auto. rewrite Forall_forall in G2, N2. intros e f He Hf c C1 C2. destruct (G2 e He) as (s & t & E1 & E2); destruct (N2 f Hf) as (a & s' & b & t' & F1 & F2 & F3 & F4).
      destruct e, f. cbn [fst snd] in *. subst. apply within_cons in C1, C2. destruct C1 as (x1 & c1 & -> & A1 & C1), C2 as (x2 & c2 & E & A2 & C2). injection E as -> ->. lia.
    + intros _ E. apply app_eq_nil in E. tauto.
Qed.

(** ** Packing *)
Lemma rm_offset : forall dims c, rm dims c = offset_of dims c.
Proof. induction dims; destruct c; cbn; auto.  Qed.
Lemma extent_inside : forall dims c, in_extent dims c -> inside (map (fun _ => 0) dims) dims c /\ subv c (map (fun _ => 0) dims) = c /\ nonneg dims.
Proof.
  unfold in_extent. induction 1 as [|d x dims c H HF (I1 & I2 & I3)]; cbn; [repeat split; constructor|]. rewrite I2, Z.sub_0_r. repeat split; auto; try lia. constructor; auto. lia.
Qed.
Lemma offset_inj : forall dims c c', in_extent dims c -> in_extent dims c' -> offset_of dims c = offset_of dims c' -> c = c'.
Proof.
  intros dims c c' H H' E. destruct (extent_inside _ _ H) as (I1 & I2 & I3), (extent_inside _ _ H') as (J1 & J2 & J3).
  eapply rm_inj; eauto. rewrite I2, J2, !rm_offset. auto.
Qed.
Lemma i32s : forall l, Forall (fun x => 0 <= x < 2 ^ 31) l -> map i32 l = l.
Proof. induction 1; cbn; auto. rewrite i32_id by lia. congruence. Qed.

Lemma block_small : forall dims b, Forall (fun d => d < 2 ^ 31) dims -> length (b_start b) = length dims -> length (b_count b) = length dims ->
  (forall c, In c (coords b) -> in_extent dims c) -> coords b <> [] -> Forall (fun x => 0 <= x < 2 ^ 31) (b_start b) /\ Forall (fun x => 0 <= x < 2 ^ 31) (b_count b).
Proof.
  intros dims [s n]. unfold coords. cbn [b_start b_count]. intros HD. revert s n.
  induction HD as [|d dims Hd HD IH]; intros [|a s] [|m n] L1 L2 HC HN; cbn in L1, L2; try lia; [split; constructor|].
  assert (HM : 0 < m). { destruct (Z.lt_ge_cases 0 m); auto. exfalso. apply HN. cbn [coords_of]. rewrite zseq_0 by lia. reflexivity. }
  assert (HN2 : coords_of s n <> []).
  { intros E. apply HN. cbn [coords_of]. rewrite E. clear. induction (zseq m); cbn; auto. }
  assert (HI : forall i c, 0 <= i < m -> In c (coords_of s n) -> 0 <= a + i < d /\ in_extent dims c).
  { intros i c Hi Hc. assert (HX : In (a + i :: c) (coords_of (a :: s) (m :: n))).
    { cbn [coords_of]. apply in_flat_map. exists i. split; [apply zseq_In; auto|apply in_map; auto]. }
    apply HC in HX. inversion HX; subst. split; auto. }
  destruct (coords_of s n) as [|c0 cs] eqn:E; [congruence|]. rewrite <- E in *.
  assert (Hc0 : In c0 (coords_of s n)) by (rewrite E; left; auto).
  destruct (HI 0 c0 ltac:(lia) Hc0) as [A1 _]. destruct (HI (m - 1) c0 ltac:(lia) Hc0) as [A2 _].
  destruct (IH s n) as [I1 I2]; auto; try lia.
  { intros c Hc. destruct (HI 0 c ltac:(lia) Hc); auto. }
  split; constructor; auto; lia.
Qed.

Lemma typemap_eq : forall esize dims sels, Forall (fun d => 0 <= d < 2 ^ 31) dims ->
  Forall (fun b => length (b_start b) = length dims /\ length (b_count b) = length dims /\ coords b <> []) sels ->
  (forall c, In c (sel_coords sels) -> in_extent dims c) ->
  sel_typemap esize dims sels = flat_map (fun c => byte_range (esize * offset_of dims c) esize) (sel_coords sels).
Proof.
  intros esize dims sels HD HF HC. unfold sel_typemap, sel_coords in *. rewrite flat_map_flat_map.
  induction HF as [|b sels (L1 & L2 & L3) HF IH]; [reflexivity|]. cbn [flat_map] in *. rewrite IH by (intros; apply HC, in_or_app; auto). f_equal.
  rewrite (i32s dims) by auto. unfold subarray.
  destruct (block_small dims b) as [B1 B2]; auto.
  { eapply Forall_impl; [|exact HD]. cbn; lia. }
  { intros c Hc. apply HC, in_or_app. auto. }
  rewrite !i32s by auto. apply flat_map_ext_all. intros c. rewrite lin_rm, rm_offset. reflexivity.
Qed.

Lemma byte_range_get : forall mem u d n, map (fun a => mem (u + a)) (byte_range d n) = get mem (u + d) (Z.to_nat n).
Proof. intros. unfold byte_range, get, zseq. rewrite !map_map. apply map_ext. intros i. f_equal. lia. Qed.
Lemma flat_map_const_len : forall A (f : A -> list Z) n l, (forall x, Zlen (f x) = n) -> Zlen (flat_map f l) = Zlen l * n.
Proof. intros A f n l H. induction l; [reflexivity|]. cbn [flat_map]. rewrite Zlen_app, Zlen_cons, H, IHl. lia. Qed.
Lemma byte_range_Zlen : forall d n, 0 <= n -> Zlen (byte_range d n) = n.
Proof. intros. unfold Zlen. rewrite byte_range_length. lia. Qed.

Lemma pack_ok : forall order esize dims s cs mem ubuf, is_order order -> 0 < esize ->
  Forall (fun d => 0 <= d < 2 ^ 31) dims -> sel_ok dims s -> sel_in_order s -> enumerates dims s cs ->
  (forall c, In c cs -> in_extent dims c) -> cs <> [] ->
  exists data, pack_write order esize (Zlen cs) (MSel dims s) mem ubuf = Ok data /\
    elems esize data = map (elem_value mem ubuf esize dims) cs.
Proof.
  intros order esize dims s cs mem ubuf HO He HD HS HI HE HX HN.
  destruct (normalize_enumerates order dims s cs HO HS HI HE) as (sels & N1 & N2 & N3).
  cbn [pack_write]. rewrite N1. cbn [bind]. destruct sels as [|b sels]; [cbn in N2; congruence|]. set (sl := b :: sels) in *. change (b :: sels) with sl.
  rewrite typemap_eq by (auto; rewrite N2; auto). rewrite N2.
  rewrite (flat_map_const_len _ _ esize) by (intros; apply byte_range_Zlen; lia). rewrite Z.eqb_refl. eexists. split; [reflexivity|].
  rewrite map_flat_map. rewrite (flat_map_ext_all _ _ _ (elem_value mem ubuf esize dims)) by (intros c; apply byte_range_get).
  rewrite flat_map_concat_map. apply elems_concat; auto. apply Forall_map. apply Forall_forall. intros c _. unfold elem_value, Zlen. rewrite get_length. lia.
Qed.
Lemma pack_all_ok : forall order esize n mem ubuf, 0 < esize -> 0 <= n ->
  exists data, pack_write order esize n MAll mem ubuf = Ok data /\ elems esize data = map (fun k => get mem (ubuf + k * esize) (Z.to_nat esize)) (zseq n).
Proof.
  intros order esize n mem ubuf He Hn. cbn [pack_write]. eexists. split; [reflexivity|].
  assert (E : get mem ubuf (Z.to_nat (n * esize)) = concat (map (fun k => get mem (ubuf + k * esize) (Z.to_nat esize)) (zseq n))).
  { revert n Hn. apply natlike_ind; [reflexivity|]. intros n Hn IH. rewrite <- Z.add_1_r, zseq_succ, map_app, concat_app, <- IH by auto.
    replace (Z.to_nat ((n + 1) * esize)) with (Z.to_nat (n * esize) + Z.to_nat esize)%nat by lia. rewrite get_app. f_equal. cbn. rewrite app_nil_r. f_equal. lia. }
  rewrite E. apply elems_concat; auto. apply Forall_map. apply Forall_forall. intros c _. unfold Zlen. rewrite get_length. lia.
Qed.

(** ** Unpacking *)
Lemma scatter_app : forall a x m u b y, length a = length x -> scatter m u (a ++ b) (x ++ y) = scatter (scatter m u a x) u b y.
Proof. intros. unfold scatter. rewrite combine_app_ by auto. apply fold_left_app. Qed.
Lemma scatter_ext : forall tm bs m m' u, (forall a, m a = m' a) -> forall a, scatter m u tm bs a = scatter m' u tm bs a.
Proof.
  unfold scatter. intros tm bs. induction (combine tm bs) as [|p l IH]; intros m m' u H a; cbn; auto. apply IH. intros z. rewrite !put_one. rewrite H. reflexivity.
Qed.
Lemma scatter_range : forall v m u d a, scatter m u (byte_range d (Zlen v)) v a = put m (u + d) v a.
Proof.
  induction v as [|x v IH]; intros m u d a.
  - unfold scatter. destruct (byte_range d (Zlen (@nil Z))); cbn; rewrite put_out; auto; unfold Zlen; cbn; lia.
  - assert (E : byte_range d (Zlen (x :: v)) = d :: byte_range (d + 1) (Zlen v)).
    { rewrite Zlen_cons. rewrite byte_range_app by (try lia; apply Zlen_nonneg). unfold byte_range at 1. change (zseq 1) with [0]. cbn [map app]. rewrite Z.add_0_r. reflexivity. }
    rewrite E. unfold scatter. cbn [combine fold_left fst snd]. fold (scatter (put m (u + d) [x]) u (byte_range (d + 1) (Zlen v)) v). rewrite IH.
    pose proof (Zlen_nonneg _ v). unfold put. rewrite (Zlen_cons _ x v). change (Zlen [x]) with 1.
    destruct (Z.leb_spec (u + (d + 1)) a), (Z.ltb_spec a (u + (d + 1) + Zlen v)), (Z.leb_spec (u + d) a), (Z.ltb_spec a (u + d + (1 + Zlen v))),
      (Z.ltb_spec a (u + d + 1)); cbn [andb]; try lia; auto.
    + replace (Z.to_nat (a - (u + d))) with (S (Z.to_nat (a - (u + (d + 1))))) by lia. reflexivity.
    + replace (Z.to_nat (a - (u + d))) with 0%nat by lia. reflexivity.
Qed.
Lemma scatter_elems : forall esize dims ubuf, 0 < esize -> forall cs vals mem, length vals = length cs -> Forall (fun v => Zlen v = esize) vals ->
  NoDup cs -> (forall c, In c cs -> in_extent dims c) ->
  let m' := scatter mem ubuf (flat_map (fun c => byte_range (esize * offset_of dims c) esize) cs) (concat vals) in
  map (elem_value m' ubuf esize dims) cs = vals /\
  (forall a, (forall c, In c cs -> ~ (elem_addr ubuf esize dims c <= a < elem_addr ubuf esize dims c + esize)) -> m' a = mem a).
Proof.
  intros esize dims ubuf He. induction cs as [|c cs IH]; intros [|v vals] mem HL HV HN HX; cbn in HL; try lia; cbv zeta.
  - split; [reflexivity|]. intros; reflexivity.
  - inversion HV as [|? ? HV1 HV2]; inversion HN as [|? ? HN1 HN2]; subst. cbn [flat_map concat].
    rewrite scatter_app by (rewrite byte_range_length; unfold Zlen; lia).
    set (m1 := scatter mem ubuf (byte_range (Zlen v * offset_of dims c) (Zlen v)) v).
    destruct (IH vals m1 ltac:(lia) HV2 HN2 ltac:(intros; apply HX; right; auto)) as [I1 I2]. cbv zeta in I1, I2.
    set (m2 := scatter m1 ubuf _ _) in *.
    assert (D : forall c', In c' cs -> offset_of dims c <> offset_of dims c').
    { intros c' Hc' E. apply HN1. rewrite (offset_inj dims c c'); auto; apply HX; [left; auto|right; auto]. }
    assert (M1 : forall a, m1 a = put mem (ubuf + Zlen v * offset_of dims c) v a) by (intros; apply scatter_range).
    split.
    + cbn [map]. rewrite I1. f_equal. unfold elem_value, elem_addr.
      rewrite (get_ext m2 (put mem (ubuf + Zlen v * offset_of dims c) v) _ (ubuf + Zlen v * offset_of dims c)).
      * replace (Z.to_nat (Zlen v)) with (length v) by (unfold Zlen; lia). apply get_put_same.
      * intros i Hi. rewrite I2; [rewrite M1; reflexivity|]. intros c' Hc' HA. apply D in Hc'. unfold elem_addr in HA. nia.
    + intros a Ha. rewrite I2 by (intros c' Hc'; apply Ha; right; auto). rewrite M1. apply put_out. intros HA. apply (Ha c (or_introl eq_refl)). unfold elem_addr. lia.
Qed.

Lemma unpack_ok : forall order esize dims s cs mem ubuf bytes, is_order order -> 0 < esize ->
  Forall (fun d => 0 <= d < 2 ^ 31) dims -> sel_ok dims s -> sel_in_order s -> enumerates dims s cs ->
  (forall c, In c cs -> in_extent dims c) -> cs <> [] -> NoDup cs -> Zlen bytes = Zlen cs * esize ->
  exists mem', unpack_read order esize (Zlen cs) (MSel dims s) mem ubuf bytes = Ok mem' /\
    map (elem_value mem' ubuf esize dims) cs = elems esize bytes /\
    (forall a, (forall c, In c cs -> ~ (elem_addr ubuf esize dims c <= a < elem_addr ubuf esize dims c + esize)) -> mem' a = mem a).
Proof.
  intros order esize dims s cs mem ubuf bytes HO He HD HS HI HE HX HN HU HB.
  destruct (normalize_enumerates order dims s cs HO HS HI HE) as (sels & N1 & N2 & N3).
  cbn [unpack_read]. rewrite N1. cbn [bind]. destruct sels as [|b sels]; [cbn in N2; congruence|]. set (sl := b :: sels) in *. change (b :: sels) with sl.
  rewrite typemap_eq by (auto; rewrite N2; auto). rewrite N2.
  rewrite (flat_map_const_len _ _ esize) by (intros; apply byte_range_Zlen; lia). rewrite Z.leb_refl. eexists. split; [reflexivity|].
  assert (EB : bytes = concat (elems esize bytes)) by (unfold elems; symmetry; apply concat_chunk; lia).
  assert (EL : Forall (fun v => Zlen v = esize) (elems esize bytes)) by (apply (elems_lengths _ _ (Zlen cs)); auto; [apply Zlen_nonneg|lia]).
  assert (EQ : Zlen bytes = Zlen (elems esize bytes) * esize).
  { rewrite EB at 1. clear - EL. induction EL; [reflexivity|]. cbn [concat]. rewrite Zlen_app, Zlen_cons, IHEL, H. lia. }
  assert (HL : length (elems esize bytes) = length cs) by (unfold Zlen in *; nia).
  destruct (scatter_elems esize dims ubuf He cs (elems esize bytes) mem HL EL HU HX) as [S1 S2]. cbv zeta in S1, S2. rewrite <- EB in S1, S2. split; auto.
Qed.
