(** Proofs about ApiModel.v. *)
From Verif Require Import Base BaseProofs Spec MetaModel QueueModel FlushModel IndexModel ReadModel SelModel SelSpec SysModel
  SysSpec History GeomProofs HistoryProofs ReadProofs HitProofs StoreProofs ReadOneProofs ClaimProofs SizedProofs SelProofs SelProofs2 SelProofs3 SelClaims SelClaims2 SelClaims3
  ApiModel ApiSpec.
From Coq Require Import ZifyNat ZifyN Permutation.

(** ** Whole extents *)
Lemma zseq_mul : forall d P, 0 <= d -> 0 <= P -> flat_map (fun i => map (fun j => i * P + j) (zseq P)) (zseq d) = zseq (d * P).
Proof.
  intros d P Hd HP. revert d Hd. apply natlike_ind; [reflexivity|]. intros d Hd IH. rewrite <- Z.add_1_r, zseq_succ, flat_map_app by auto.
  rewrite IH. cbn [flat_map]. rewrite app_nil_r. replace ((d + 1) * P) with (d * P + P) by lia. rewrite zseq_app by nia. reflexivity.
Qed.
Lemma offsets_all : forall dims, Forall (fun d => 0 <= d) dims ->
  map (offset_of dims) (coords_of (map (fun _ => 0) dims) dims) = zseq (Zprod dims) /\ 0 <= Zprod dims.
Proof.
  induction 1 as [|d dims Hd HF [IH1 IH2]]; [split; [reflexivity|unfold Zprod; cbn; lia]|].
  assert (EP : Zprod (d :: dims) = d * Zprod dims) by reflexivity. rewrite EP. split; [|nia].
  cbn [map coords_of]. rewrite <- zseq_mul by auto. rewrite !flat_map_concat_map, concat_map, !map_map. f_equal. apply map_ext. intros i.
  rewrite map_map, <- IH1, map_map. apply map_ext. intros c. cbn [offset_of]. rewrite Z.add_0_l. reflexivity.
Qed.
Lemma usable_all : forall dims cs, usable dims HAll cs -> map (offset_of dims) cs = zseq (Zlen cs).
Proof.
  intros dims cs (HL & (HR & HI) & HX & _). cbn [library_selection] in HL.
  assert (E : cs = coords_of (map (fun _ => 0) dims) dims).
  { apply row_major_unique; auto; [apply coords_row_major, map_length|]. intros c. rewrite HI. symmetry. apply coords_all. }
  destruct (offsets_all dims HL) as [E1 E2]. rewrite <- E in E1. rewrite E1. f_equal.
  assert (L := f_equal (@length Z) E1). rewrite map_length, zseq_length in L. unfold Zlen. lia.
Qed.

(** ** Elements of a memory layout *)
Lemma usable_points : forall dims s cs, usable dims s cs -> cs <> [] -> s <> HNone.
Proof. intros dims s cs (_ & HE & _) HN ->. destruct HE as [_ HE]. destruct cs as [|c cs]; [congruence|]. apply (proj1 (HE c)). left; auto. Qed.

(** What the connector takes as memory space: either consecutive elements or a selection. *)
Definition spread (a : access) (ps : pairs) (ms : mspace) : Prop :=
  match ms with
  | MAll => map snd ps = map (fun k => ac_buf a + mt_size (ac_type a) * k) (zseq (Zlen ps))
  | MSel dims s => exists mcs, fits_int dims /\ usable dims s mcs /\ length mcs = length ps /\
      map snd ps = map (elem_addr (ac_buf a) (mt_size (ac_type a)) dims) mcs
  end.
Lemma as_mspace_spread : forall a ps dims s mcs, fits_int dims -> usable dims s mcs ->
  map snd ps = map (elem_addr (ac_buf a) (mt_size (ac_type a)) dims) mcs -> spread a ps (as_mspace dims s).
Proof.
  intros a ps dims s mcs HF HU HE. assert (HL : length mcs = length ps) by (apply (f_equal (@length Z)) in HE; rewrite !map_length in HE; auto).
  destruct s; cbn [as_mspace]; try (exists mcs; auto).
  apply usable_all in HU. cbn [spread]. rewrite HE. unfold elem_addr. replace (Zlen ps) with (Zlen mcs) by (unfold Zlen; lia).
  rewrite <- HU, map_map. reflexivity.
Qed.
Lemma sized_int : forall d, sized_set d -> Forall (fun x => 0 <= x) (di_dims d) -> fits_int (di_dims d).
Proof.
  intros d (_ & _ & HF) HP. unfold fits_int. rewrite Forall_forall in *. intros x Hx. specialize (HF x Hx). specialize (HP x Hx). lia.
Qed.
Lemma layout_spread : forall d dip a ps, layout d a ps -> memory_fits a -> fits_int (di_dims d) -> di_dims dip = di_dims d ->
  file_sel dip (ac_fs a) = (di_dims d, file_part a) /\ usable (di_dims d) (file_part a) (map fst ps) /\
  spread a ps (mem_space (ac_ms a) (file_sel dip (ac_fs a))).
Proof.
  intros d dip a ps (H1 & H2 & H3) HM HF HD.
  assert (EF : file_sel dip (ac_fs a) = (di_dims d, file_part a)).
  { unfold file_sel, file_part. destruct (ac_fs a); [congruence|]. subst. reflexivity. }
  split; auto. split; auto. rewrite EF. unfold memory_fits in HM. destruct (ac_ms a) as [| |dims s]; cbn [mem_space fst snd].
  - eapply as_mspace_spread; eauto.
  - exact H3.
  - destruct H3 as (mcs & U & E). eapply as_mspace_spread; eauto.
Qed.

Lemma selective_all : forall a dip, mem_space (ac_ms a) (file_sel dip (ac_fs a)) <> MAll -> selective a = true.
Proof.
  intros a dip H. unfold selective, file_part. destruct (ac_ms a) as [| |dims s]; cbn [mem_space] in *.
  - destruct (ac_fs a) as [|dims s]; cbn [file_sel fst snd as_mspace] in *; [exfalso; apply H; reflexivity|]. destruct s; cbn in *; congruence.
  - congruence.
  - destruct s; cbn in *; congruence.
Qed.

(** ** Packing *)
Lemma pack_spread : forall order a ps ms, is_order order -> 0 < mt_size (ac_type a) -> spread a ps ms -> ps <> [] ->
  exists raw, pack_write order (mt_size (ac_type a)) (Zlen ps) ms (ac_mem a) (ac_buf a) = Ok raw /\
    elems (mt_size (ac_type a)) raw = map (fun p => get (ac_mem a) (snd p) (Z.to_nat (mt_size (ac_type a)))) ps /\
    Zlen raw = mt_size (ac_type a) * Zlen ps.
Proof.
  intros order a ps ms HO He HS HN. set (es := mt_size (ac_type a)) in *.
  assert (G : exists raw, pack_write order es (Zlen ps) ms (ac_mem a) (ac_buf a) = Ok raw /\
    elems es raw = map (fun p => get (ac_mem a) (snd p) (Z.to_nat es)) ps).
  { rewrite <- (map_map snd (fun q => get (ac_mem a) q (Z.to_nat es))). destruct ms as [|dims s]; cbn [spread] in HS; fold es in HS.
    - destruct (pack_all_ok order es (Zlen ps) (ac_mem a) (ac_buf a) He (Zlen_nonneg _ _)) as (raw & P1 & P2). exists raw. split; auto. rewrite P2, HS, map_map.
      apply map_ext. intros k. do 2 f_equal. lia.
    - destruct HS as (mcs & F & U & L & E). apply usable_ok in U. destruct U as (M1 & M2 & M3 & M4).
      destruct (pack_ok order es dims s mcs (ac_mem a) (ac_buf a)) as (raw & P1 & P2); auto.
      { intros ->. destruct ps; [congruence|discriminate]. }
      exists raw. replace (Zlen ps) with (Zlen mcs) by (unfold Zlen; lia). split; auto. rewrite P2, E, map_map. reflexivity. }
  destruct G as (raw & G1 & G2). exists raw. split; auto. split; auto.
  assert (ER : raw = concat (elems es raw)) by (unfold elems; symmetry; apply concat_chunk; lia).
  rewrite ER, G2. clear - He. unfold Zlen. induction ps as [|p ps IH]; [cbn; lia|]. cbn [map concat length]. rewrite app_length, get_length. lia.
Qed.

(** ** Conversion *)
Lemma concat_len : forall (l : list (list Z)) n, Forall (fun v => Zlen v = n) l -> Zlen (concat l) = n * Zlen l.
Proof. induction 1 as [|v l H HF IH]; [unfold Zlen; cbn; lia|]. cbn [concat]. rewrite Zlen_app, Zlen_cons, IH, H. lia. Qed.

Lemma seq_nth0 : forall (f : list Z -> list Z -> list Z) l r,
  map (fun k => f (nth k [] []) (nth k (l ++ r) [])) (seq 0 (length l)) = map (f []) l.
Proof.
  intros f l r. transitivity (map (fun k => f [] (nth k (l ++ r) [])) (seq 0 (length l))); [apply map_ext; intros [|k]; reflexivity|].
  revert r. induction l as [|v l IH]; intros r; [reflexivity|]. cbn [length seq map app nth]. f_equal. rewrite <- seq_shift, map_map. exact (IH r).
Qed.
Lemma elems_len : forall es n raw, 0 < es -> 0 <= n -> Zlen raw = es * n -> Zlen (elems es raw) = n.
Proof. intros es n raw H1 H2 H3. destruct (elems_spec es raw n H1 H2 H3) as [E _]. unfold Zlen. lia. Qed.

Lemma firstn_app_exact : forall A (a b : list A) n, length a = n -> firstn n (a ++ b) = a.
Proof. intros A a b n <-. rewrite firstn_app, Nat.sub_diag, firstn_O, app_nil_r. apply firstn_all. Qed.

Lemma convert_ok : forall f bg n s d raw rest, 0 < s -> 0 <= n -> Zlen raw = s * n ->
  (forall b v, In b (bg ++ [[]]) -> f b v = f [] v) -> (forall v, Zlen v = s -> Zlen (f [] v) = d) -> 0 <= d ->
  firstn (Z.to_nat (n * d)) (convert f bg n s d (raw ++ rest)) = concat (map (f []) (elems s raw)) /\
  Forall (fun v => Zlen v = d) (map (f []) (elems s raw)).
Proof.
  intros f bg n s d raw rest Hs Hn HL HB HD Hd.
  assert (HE : Forall (fun v => Zlen v = d) (map (f []) (elems s raw))).
  { apply Forall_map. eapply Forall_impl; [|exact (elems_lengths s raw n Hs Hn HL)]. intros v Hv. apply HD; auto. }
  split; auto. unfold convert. rewrite (elems_app s n raw rest) by auto.
  assert (EN : Z.to_nat n = length (elems s raw)) by (pose proof (elems_len s n raw Hs Hn HL); unfold Zlen in *; lia).
  rewrite EN.
  assert (EM : map (fun k => f (nth k bg []) (nth k (elems s raw ++ elems s rest) [])) (seq 0 (length (elems s raw))) = map (f []) (elems s raw)).
  { transitivity (map (fun k => f (nth k [] []) (nth k (elems s raw ++ elems s rest) [])) (seq 0 (length (elems s raw)))); [|apply seq_nth0].
    apply map_ext. intros k. rewrite (HB (nth k bg [])); [destruct k; reflexivity|]. apply in_or_app.
    destruct (Nat.lt_ge_cases k (length bg)); [left; apply nth_In; auto|right; rewrite nth_overflow by auto; left; auto]. }
  rewrite EM. apply firstn_app_exact. pose proof (concat_len _ _ HE) as HC. pose proof (elems_len s n raw Hs Hn HL) as HZ.
  unfold Zlen in HC, HZ. rewrite map_length in HC. nia.
Qed.

(** ** Writes *)
Lemma fits_of_coords : forall dims s n, length s = length dims -> length n = length dims ->
  (forall c, In c (coords_of s n) -> in_extent dims c) -> coords_of s n <> [] -> fits_in dims s n.
Proof.
  induction dims as [|d dims IH]; intros [|a s] [|m n] L1 L2 HC HN; cbn in L1, L2; try lia; [exact I|].
  assert (HM : 0 < m). { destruct (Z.lt_ge_cases 0 m); auto. exfalso. apply HN. cbn [coords_of]. rewrite zseq_0 by lia. reflexivity. }
  assert (HN2 : coords_of s n <> []). { intros E. apply HN. cbn [coords_of]. rewrite E. clear. induction (zseq m); cbn; auto. }
  assert (HI : forall i c, 0 <= i < m -> In c (coords_of s n) -> 0 <= a + i < d /\ in_extent dims c).
  { intros i c Hi Hc. assert (HX : In (a + i :: c) (coords_of (a :: s) (m :: n))).
    { cbn [coords_of]. apply in_flat_map. exists i. split; [apply zseq_In; auto|apply in_map; auto]. }
    apply HC in HX. inversion HX; subst. split; auto. }
  destruct (coords_of s n) as [|c0 cs] eqn:E; [congruence|]. rewrite <- E in *.
  assert (Hc0 : In c0 (coords_of s n)) by (rewrite E; left; auto).
  destruct (HI 0 c0 ltac:(lia) Hc0) as [A1 _]. destruct (HI (m - 1) c0 ltac:(lia) Hc0) as [A2 _].
  cbn [fits_in]. split; [lia|]. split; [lia|]. split; [lia|]. apply IH; auto. intros c Hc. apply (HI 0 c); auto. lia.
Qed.

Lemma block_coords_len : forall d b, block_in d b -> Zlen (coords b) = Zprod (b_count b) /\ 0 < Zprod (b_count b).
Proof.
  intros d b Hb. destruct (fits_in_blk _ _ _ Hb) as (A & B & C & D & _). assert (P : 0 < Zprod (b_count b)) by (apply Zprod_pos; auto). split; auto.
  unfold coords, Zlen. rewrite coords_of_length; [lia|congruence|]. unfold nonneg. eapply Forall_impl; [|exact D]. cbn. lia.
Qed.
Lemma sel_size_in : forall d sels, Forall (block_in d) sels -> sel_size sels = Zlen (sel_coords sels).
Proof.
  intros d sels H. induction H as [|b sels Hb HF IH]; [reflexivity|].
  change (sel_size (b :: sels)) with (block_size b + sel_size sels). cbn [sel_coords flat_map]. rewrite Zlen_app, IH. f_equal.
  symmetry. apply (block_coords_len d); auto.
Qed.

Lemma in_nil_app : forall (b : list Z) l, (forall x, In x l -> x = []) -> In b (l ++ [[]]) -> b = [].
Proof. intros b l H HB. apply in_app_or in HB. destruct HB as [HB|[<-|[]]]; auto. Qed.

Lemma write_data_ok : forall order d a ps ms, is_order order -> 0 < di_esize d -> can_write d (ac_type a) -> spread a ps ms -> ps <> [] ->
  exists data, write_data order (di_esize d) (Zlen ps) ms a = Ok data /\ Zlen data = di_esize d * Zlen ps /\
    elems (di_esize d) data = map (fun p => out_of (ac_type a) (get (ac_mem a) (snd p) (Z.to_nat (mt_size (ac_type a))))) ps.
Proof.
  intros order d a ps ms HO He (C1 & C2 & C3) HS HN. destruct (pack_spread order a ps ms HO C1 HS HN) as (raw & P1 & P2 & P3).
  unfold write_data. rewrite P1. cbn [bind]. unfold out_of. destruct (mt_same (ac_type a)).
  - exists raw. split; auto. rewrite <- (C2 eq_refl). auto.
  - destruct (C3 eq_refl) as (f & F1 & F2). rewrite F1. eexists. split; [reflexivity|].
    assert (G1 : forall (b v : list Z), f b v = f [] v) by (intros b v; apply F2).
    assert (G2 : forall v, Zlen v = mt_size (ac_type a) -> Zlen (f [] v) = di_esize d) by (intros v; apply (F2 [] v)). clear F2.
    match goal with |- context[convert f ?bg _ _ _ (raw ++ ?rest)] =>
      destruct (convert_ok f bg (Zlen ps) (mt_size (ac_type a)) (di_esize d) raw rest) as [K1 K2] end; auto; try lia; try apply Zlen_nonneg.
    rewrite K1. pose proof (concat_len _ _ K2) as KL. rewrite P2, map_map in KL. split.
    + rewrite P2, map_map, KL. unfold Zlen. rewrite map_length. lia.
    + rewrite elems_concat by auto. rewrite P2, map_map. reflexivity.
Qed.

(** The datasets known to the connector are those of the history. *)
Definition known (infos : list (option dinfo)) (sets : list dinfo) : Prop :=
  Forall2 (fun o d => exists i, o = Some i /\ di_esize i = di_esize d /\ di_dims i = di_dims d /\ length (di_mdims i) = length (di_dims i) /\ di_mdims i = di_mdims d) infos sets.

Lemma known_at : forall infos t did d, known infos (t_sets t) -> dataset_of t did d ->
  exists i, info_at infos did = Some (Some i) /\ di_esize i = di_esize d /\ di_dims i = di_dims d.
Proof.
  intros infos t did d HK [H1 H2]. unfold info_at. destruct (Z.ltb_spec did 0); [lia|].
  assert (G : forall infos sets n, known infos sets -> nth_error sets n = Some d -> exists i, nth_error infos n = Some (Some i) /\ di_esize i = di_esize d /\ di_dims i = di_dims d).
  { clear. intros infos sets n HK. revert n. induction HK as [|o d0 infos sets (i & -> & A & B & _) HF IH]; intros [|n] E; cbn in *; try discriminate.
    - injection E as <-. exists i. auto.
    - auto. }
  eapply G; eauto.
Qed.

Lemma usable_blocks : forall order dims s cs, is_order order -> usable dims s cs ->
  exists sels, normalize order dims s = Ok sels /\ sel_coords sels = cs /\ Forall (fun b => fits_in dims (b_start b) (b_count b)) sels.
Proof.
  intros order dims s cs HO HU. apply usable_ok in HU. destruct HU as (F1 & F2 & F3 & F4).
  destruct (normalize_enumerates order dims s cs HO F1 F2 F3) as (sels & N1 & N2 & N3). exists sels. split; auto. split; auto.
  rewrite Forall_forall in *. intros b Hb. destruct (N3 b Hb) as (A & B & C). apply fits_of_coords; auto.
  intros c Hc. apply F4. rewrite <- N2. unfold sel_coords. apply in_flat_map. eauto.
Qed.
Lemma coords_nil : forall d sels, Forall (block_in d) sels -> sel_coords sels = [] -> sels = [].
Proof.
  intros d [|b sels] H E; auto. exfalso. cbn [sel_coords flat_map] in E. apply app_eq_nil in E. destruct E as [E _]. inversion H; subst.
  destruct (block_coords_len _ _ H2) as [L1 L2]. rewrite E in L1. unfold Zlen in L1. cbn [length] in L1. lia.
Qed.

Lemma map_fst_combine : forall A B (a : list A) (f : A -> B), combine a (map f a) = map (fun x => (x, f x)) a.
Proof. induction a; intros; cbn; [reflexivity|]. f_equal. auto. Qed.
Lemma combine_maps : forall A B C (l : list A) (f : A -> B) (g : A -> C), combine (map f l) (map g l) = map (fun x => (f x, g x)) l.
Proof. induction l; intros; cbn; [reflexivity|]. f_equal. auto. Qed.

Lemma lower_write_ok : forall order t a ps d, is_order order -> dataset_of t (ac_did a) d ->
  0 < di_esize d -> fits_int (di_dims d) -> memory_fits a -> layout d a ps -> can_write d (ac_type a) ->
  exists sels data, (forall infos, known infos (t_sets t) -> lower_write order infos a = Ok (sels, data)) /\
    normalize order (di_dims d) (file_part a) = Ok sels /\
    Forall (block_in d) sels /\ Zlen data = di_esize d * Zlen (sel_coords sels) /\
    assigns_of (di_esize d) (ac_did a) sels data = assigned a ps.
Proof.
  intros order t a ps d HO HD He HF HM HL HC.
  destruct (layout_spread d d a ps HL HM HF eq_refl) as (L1 & L2 & L3).
  destruct (usable_blocks order _ _ _ HO L2) as (sels & N1 & N2 & N3).
  assert (ES : sel_size sels = Zlen ps) by (rewrite (sel_size_in d) by auto; rewrite N2; unfold Zlen; rewrite map_length; reflexivity).
  destruct ps as [|p ps].
  - apply (coords_nil d) in N2 as E; [|exact N3]. subst sels. exists [], []. split; [|split; auto; split; auto; split; [unfold Zlen; cbn; lia|reflexivity]].
    intros infos HK. destruct (known_at _ _ _ _ HK HD) as (i & I1 & I2 & I3). destruct (layout_spread d i a _ HL HM HF I3) as (J1 & _).
    unfold lower_write. rewrite I1. cbv zeta. rewrite J1. cbn [fst snd]. rewrite N1. reflexivity.
  - destruct sels as [|b sels]; [cbn in N2; discriminate|]. set (sl := b :: sels) in *. set (pl := p :: ps) in *.
    destruct (write_data_ok order d a pl _ HO He HC L3 ltac:(discriminate)) as (data & W1 & W2 & W3).
    exists sl, data. split.
    { intros infos HK. destruct (known_at _ _ _ _ HK HD) as (i & I1 & I2 & I3). destruct (layout_spread d i a _ HL HM HF I3) as (J1 & _).
      unfold lower_write. rewrite I1. cbv zeta. rewrite J1. cbn [fst snd]. rewrite N1. cbn [bind]. unfold sl at 1. rewrite I2, ES.
      rewrite L1 in W1. rewrite W1. reflexivity. }
    split; auto. split; auto.
    assert (EZ : Zlen (sel_coords sl) = Zlen pl) by (rewrite N2; unfold Zlen; rewrite map_length; reflexivity).
    split; [rewrite EZ; auto|]. unfold assigns_of, assigned. rewrite N2, W3, combine_maps, map_map. reflexivity.
Qed.

(** ** Reads *)

(** Elements of the memory after [vals] were delivered to the addresses of [ps]. *)
Definition delivered (es : Z) (ps : pairs) (vals : list (list Z)) (mem mem' : bytemap) : Prop :=
  map (fun p => get mem' (snd p) (Z.to_nat es)) ps = vals /\
  forall q, (forall x p, In (x, p) ps -> ~ (p <= q < p + es)) -> mem' q = mem q.

Lemma put_elems : forall es vals mem u, 0 < es -> Forall (fun v => Zlen v = es) vals ->
  map (fun k => get (put mem u (concat vals)) (u + es * k) (Z.to_nat es)) (zseq (Zlen vals)) = vals.
Proof.
  intros es vals mem u He HF. pose proof (concat_len _ _ HF) as HC.
  assert (E : get (put mem u (concat vals)) u (length (concat vals)) = concat vals) by apply get_put_same.
  assert (EL : length (concat vals) = (Z.to_nat es * length vals)%nat) by (unfold Zlen in HC; nia).
  rewrite EL, get_elems in E by lia. apply (f_equal (elems es)) in E.
  rewrite (elems_concat es vals) in E by auto. rewrite elems_concat in E; auto.
  - rewrite <- E at 2. unfold Zlen. rewrite Z2Nat.id by lia. reflexivity.
  - apply Forall_map. apply Forall_forall. intros k _. unfold Zlen. rewrite get_length. lia.
Qed.

Lemma deliver_all : forall es ps vals mem u, 0 < es -> Forall (fun v => Zlen v = es) vals -> length vals = length ps ->
  map snd ps = map (fun k => u + es * k) (zseq (Zlen ps)) -> delivered es ps vals mem (put mem u (concat vals)).
Proof.
  intros es ps vals mem u He HF HL HE. split.
  - rewrite <- (map_map snd (fun q => get (put mem u (concat vals)) q (Z.to_nat es))), HE, map_map.
    replace (Zlen ps) with (Zlen vals) by (unfold Zlen; lia). apply put_elems; auto.
  - intros q Hq. apply put_out. intros HQ. rewrite (concat_len _ _ HF) in HQ.
    set (k := (q - u) / es). assert (HK : 0 <= k < Zlen ps).
    { unfold k. split; [apply Z.div_pos; lia|]. apply Z.div_lt_upper_bound; auto. unfold Zlen in *. lia. }
    assert (HI : In (u + es * k) (map snd ps)) by (rewrite HE; apply (in_map (fun k => u + es * k)), zseq_In; lia).
    apply in_map_iff in HI. destruct HI as ([x p] & E & HI). cbn [snd] in E. apply (Hq x p HI). rewrite E.
    unfold k. pose proof (Z.div_mod (q - u) es ltac:(lia)). pose proof (Z.mod_pos_bound (q - u) es He). lia.
Qed.

Lemma deliver_sel : forall order es dims s mcs ps vals mem u, is_order order -> 0 < es -> fits_int dims -> usable dims s mcs ->
  length mcs = length ps -> map snd ps = map (elem_addr u es dims) mcs -> ps <> [] -> NoDup (map snd ps) ->
  Forall (fun v => Zlen v = es) vals -> length vals = length ps ->
  exists sels, normalize order dims s = Ok sels /\ sels <> [] /\ Zlen (sel_typemap es dims sels) = Zlen ps * es /\
    delivered es ps vals mem (scatter mem u (sel_typemap es dims sels) (concat vals)).
Proof.
  intros order es dims s mcs ps vals mem u HO He HD HU HL HE HN HND HF HV. apply usable_ok in HU. destruct HU as (M1 & M2 & M3 & M4).
  destruct (normalize_enumerates order dims s mcs HO M1 M2 M3) as (sels & N1 & N2 & N3). exists sels. split; auto.
  split. { intros ->. cbn in N2. subst mcs. destruct ps; [congruence|discriminate]. }
  assert (HM : NoDup mcs) by (rewrite HE in HND; eapply NoDup_map_inv; eauto).
  rewrite typemap_eq by (auto; rewrite N2; auto). rewrite N2.
  split. { rewrite (flat_map_const_len _ _ es) by (intros; apply byte_range_Zlen; lia). unfold Zlen. rewrite HL. reflexivity. }
  destruct (scatter_elems es dims u He mcs vals mem ltac:(lia) HF HM M4) as [S1 S2]. cbv zeta in S1, S2. set (m' := scatter mem u _ _) in *.
  split.
  - rewrite <- (map_map snd (fun q => get m' q (Z.to_nat es))), HE, map_map. exact S1.
  - intros q Hq. apply S2. intros c Hc HQ. assert (HI : In (elem_addr u es dims c) (map snd ps)) by (rewrite HE; apply in_map; auto).
    apply in_map_iff in HI. destruct HI as ([x p] & E & HI). cbn [snd] in E. apply (Hq x p HI). rewrite E. auto.
Qed.

Lemma deliver_ok : forall order d a ps ms bytes, is_order order -> 0 < di_esize d -> can_read d a -> spread a ps ms -> ps <> [] ->
  (ms <> MAll -> selective a = true) -> NoDup (map snd ps) -> Zlen bytes = di_esize d * Zlen ps ->
  exists mem', deliver order (di_esize d) (Zlen ps) ms a bytes = Ok mem' /\
    delivered (mt_size (ac_type a)) ps (map (in_of (ac_type a)) (elems (di_esize d) bytes)) (ac_mem a) mem'.
Proof.
  intros order d a ps ms bytes HO He (C1 & C2 & C3) HS HN HSel HND HB. unfold deliver, in_of. set (t := ac_type a) in *.
  pose proof (Zlen_nonneg _ ps) as HZ. pose proof (elems_lengths _ _ _ He HZ HB) as HEL. pose proof (elems_len _ _ _ He HZ HB) as HLn.
  assert (EB : bytes = concat (elems (di_esize d) bytes)) by (unfold elems; symmetry; apply concat_chunk; lia).
  destruct (mt_same t).
  - rewrite map_id, (C2 eq_refl). set (vals := elems (di_esize d) bytes) in *. clearbody vals. subst bytes.
    destruct ms as [|dims s]; cbn [spread] in HS; cbn [unpack_read].
    + eexists. split; [reflexivity|]. apply deliver_all; auto; [unfold Zlen in HLn; lia|]. unfold t in C2. rewrite HS, (C2 eq_refl). reflexivity.
    + destruct HS as (mcs & F & U & L & E). unfold t in C2. rewrite (C2 eq_refl) in E.
      destruct (deliver_sel order (di_esize d) dims s mcs ps vals (ac_mem a) (ac_buf a)) as (sels & N1 & N2 & N3 & N4); auto; [unfold Zlen in HLn; lia|].
      rewrite N1. cbn [bind]. destruct sels as [|b sels]; [congruence|]. set (sl := b :: sels) in *. rewrite N3, Z.leb_refl. eexists. split; [reflexivity|]. exact N4.
  - destruct (C3 eq_refl) as (K1 & K2 & f & K3 & K4). rewrite K3, K1.
    match goal with |- context[convert f [] _ _ _ (bytes ++ ?rest)] =>
      destruct (convert_ok f [] (Zlen ps) (di_esize d) (mt_size t) bytes rest) as [V1 V2] end; auto; try lia.
    { intros b v Hb. apply in_nil_app in Hb; [subst; auto|intros x []]. }
    rewrite V1. set (vals := map (f []) (elems (di_esize d) bytes)) in *.
    assert (VL : length vals = length ps) by (unfold vals; rewrite map_length; unfold Zlen in HLn; lia). clearbody vals.
    destruct ms as [|dims s]; cbn [spread] in HS.
    + eexists. split; [reflexivity|]. apply deliver_all; auto.
    + destruct HS as (mcs & F & U & L & E).
      destruct (deliver_sel order (mt_size t) dims s mcs ps vals (ac_mem a) (ac_buf a)) as (sels & N1 & N2 & N3 & N4); auto.
      rewrite N1. cbn [bind]. destruct sels as [|b sels]; [congruence|]. set (sl := b :: sels) in *. rewrite N3.
      specialize (K2 (HSel ltac:(discriminate))).
      destruct (Z.leb_spec (Zlen ps * mt_size t) (Zlen ps * di_esize d)); [|nia]. eexists. split; [reflexivity|]. exact N4.
Qed.

Lemma nodup_disjoint : forall d sels, Forall (block_in d) sels -> NoDup (sel_coords sels) -> ForallOrdPairs disjoint_blocks sels.
Proof.
  intros d sels HF. induction HF as [|b sels Hb HF IH]; intros HN; [constructor|]. cbn [sel_coords flat_map] in HN.
  assert (HX : forall c, In c (coords b) -> In c (sel_coords sels) -> False) by (apply NoDup_app_disj; auto).
  constructor; [|apply IH; eapply NoDup_app_r; eauto].
  apply Forall_forall. intros b' Hb' c H1 H2. apply (HX c).
  - destruct (fits_in_blk _ _ _ Hb) as (A & B & _). apply In_coords_of; [congruence|auto].
  - unfold sel_coords. apply in_flat_map. exists b'. split; auto. rewrite Forall_forall in HF.
    destruct (fits_in_blk _ _ _ (HF b' Hb')) as (A & B & _). apply In_coords_of; [congruence|auto].
Qed.

Definition reads_as (order : list (list Z) -> list nat) (t : trace) (a : access) (ps : pairs) (c : rcall) : Prop :=
  (forall infos, known infos (t_sets t) -> lower_read order infos a = Ok c) /\
  (forall infos pub bytes, known infos (t_sets t) -> correct_read (mktr (t_sets t) pub []) c bytes ->
     exists mem', finish_read order infos a c bytes = Ok mem' /\ correct_memory (t_sets t) pub a ps mem').

Lemma lower_read_ok : forall order t a ps d, is_order order -> dataset_of t (ac_did a) d ->
  0 < di_esize d -> fits_int (di_dims d) -> memory_fits a -> layout d a ps -> can_read d a -> ps <> [] ->
  NoDup (map fst ps) -> NoDup (map snd ps) ->
  exists c, rc_did c = ac_did a /\ rc_sels c <> [] /\ Forall (block_in d) (rc_sels c) /\
    ForallOrdPairs disjoint_blocks (rc_sels c) /\ reads_as order t a ps c.
Proof.
  intros order t a ps d HO HD He HF HM HL HC HN ND1 ND2.
  destruct (layout_spread d d a ps HL HM HF eq_refl) as (L1 & L2 & L3).
  destruct (usable_blocks order _ _ _ HO L2) as (sels & N1 & N2 & N3).
  assert (ES : sel_size sels = Zlen ps) by (rewrite (sel_size_in d) by auto; rewrite N2; unfold Zlen; rewrite map_length; reflexivity).
  set (c := match mt_same (ac_type a), mem_space (ac_ms a) (di_dims d, file_part a) with
            | true, MAll => mkrcall (ac_did a) sels (ac_buf a) (ac_mem a)
            | _, _ => mkrcall (ac_did a) sels (ac_x a) (ac_heap a) end).
  assert (C1 : rc_did c = ac_did a) by (unfold c; destruct (mt_same (ac_type a)), (mem_space (ac_ms a) (di_dims d, file_part a)); reflexivity).
  assert (C2 : rc_sels c = sels) by (unfold c; destruct (mt_same (ac_type a)), (mem_space (ac_ms a) (di_dims d, file_part a)); reflexivity).
  exists c. split; auto. rewrite C2. split. { intros ->. cbn in N2. destruct ps; [congruence|discriminate]. }
  split; auto. split. { apply (nodup_disjoint d); auto. rewrite N2. auto. }
  split.
  - intros infos HK. destruct (known_at _ _ _ _ HK HD) as (i & I1 & I2 & I3). destruct (layout_spread d i a _ HL HM HF I3) as (J1 & _).
    unfold lower_read. rewrite I1. cbv zeta. rewrite J1. cbn [fst snd]. rewrite N1. cbn [bind]. unfold c. destruct (mt_same (ac_type a)), (mem_space (ac_ms a) (di_dims d, file_part a)); reflexivity.
  - intros infos pub bytes HK (d' & D1 & D2 & D3 & D4). cbn [t_sets t_pub] in D1, D4. rewrite C1 in D1. destruct HD as [HD1 HD2].
    assert (d' = d) by congruence. subst d'. rewrite C2 in *.
    destruct (known_at _ _ _ _ HK (conj HD1 HD2)) as (i & I1 & I2 & I3). destruct (layout_spread d i a _ HL HM HF I3) as (J1 & _).
    unfold finish_read. rewrite I1, I2, C2, ES, J1, <- L1. rewrite N2 in D3, D4.
    assert (EZ : Zlen (map fst ps) = Zlen ps) by (unfold Zlen; rewrite map_length; reflexivity). rewrite EZ in D3.
    destruct (deliver_ok order d a ps _ bytes HO He HC L3 HN (selective_all a d) ND2 D3) as (mem' & M1 & M2 & M3).
    exists mem'. split; auto. exists d. split; auto. split; auto.
    intros x p v Hin Hv. apply In_nth_error in Hin. destruct Hin as [k Hk].
    assert (K1 : nth_error (map fst ps) k = Some x) by (rewrite nth_error_map, Hk; reflexivity).
    specialize (D4 k x K1).
    assert (K2 := f_equal (fun l => nth_error l k) M2). cbn beta in K2. rewrite !nth_error_map, Hk, D4 in K2. cbn [option_map snd] in K2. injection K2 as ->.
    f_equal. unfold expected. rewrite C1. destruct (last_assigned (ac_did a) x pub); [congruence|]. rewrite Hv. reflexivity.
Qed.
