(** The datatypes built for a read deliver, to every memory byte, the byte with the largest file
    address among those mapped to it. *)
From Verif Require Import Base BaseProofs Spec MetaModel QueueModel FlushModel IndexModel ReadModel
  GeomProofs SortProofs.
From Coq Require Import ZifyNat ZifyN.

(** ** Row counters *)
Fixpoint rvv (rc rn : list Z) : Z :=
  match rc, rn with c :: rc', n :: rn' => c + n * rvv rc' rn' | _, _ => 0 end.

Lemma Zprod_app : forall a b, Zprod (a ++ b) = Zprod a * Zprod b.
Proof. unfold Zprod. induction a; intros; cbn [app fold_right]; [lia|]. rewrite IHa. ring. Qed.
Lemma Zprod_cons : forall a b, Zprod (a :: b) = a * Zprod b.
Proof. reflexivity. Qed.
Lemma Zprod_rev : forall a, Zprod (rev a) = Zprod a.
Proof. induction a; auto. cbn [rev]. rewrite Zprod_app, IHa, !Zprod_cons. cbn. ring. Qed.

Lemma rm_snoc : forall ns cs n c, length ns = length cs -> rm (ns ++ [n]) (cs ++ [c]) = rm ns cs * n + c.
Proof.
  induction ns; destruct cs; intros; cbn [length] in *; try lia.
  - cbn. lia.
  - cbn [app rm]. rewrite IHns by lia. rewrite Zprod_app, Zprod_cons. cbn. ring.
Qed.
Lemma rm_rev : forall rc rn, length rc = length rn -> rm (rev rn) (rev rc) = rvv rc rn.
Proof.
  induction rc; destruct rn; intros; cbn [length] in *; try lia; auto.
  cbn [rev rvv]. rewrite rm_snoc by (rewrite !rev_length; lia). rewrite IHrc by lia. ring.
Qed.

Definition strict (rc rn : list Z) : Prop := Forall2 (fun c n => 0 <= c < n) rc rn.
Fixpoint okc (rc rn : list Z) : Prop :=
  match rc, rn with
  | [c], [n] => 0 <= c <= n
  | c :: rc', n :: rn' => 0 <= c < n /\ okc rc' rn'
  | _, _ => False
  end.

Lemma okc_cons : forall c rc n rn, rc <> [] -> okc (c :: rc) (n :: rn) = (0 <= c < n /\ okc rc rn).
Proof. intros. destruct rc; [congruence|]. destruct rn; reflexivity. Qed.

Lemma carry_ok : forall t c n rn, 0 <= c <= n -> strict t rn -> Forall (fun x => 0 < x) (n :: rn) ->
  okc (carry (c :: t) (n :: rn)) (n :: rn) /\ rvv (carry (c :: t) (n :: rn)) (n :: rn) = rvv (c :: t) (n :: rn) /\
  length (carry (c :: t) (n :: rn)) = length (c :: t).
Proof.
  induction t as [|c' t IH]; intros c n rn Hc Hs Hn.
  - inversion Hs; subst. cbn. repeat split; try lia.
  - inversion Hs as [|? n' ? rn' H1 H2]; subst. pose proof (Forall_inv Hn) as Hn0. cbn beta in Hn0.
    pose proof (Forall_inv_tail Hn) as Hn1.
    change (carry (c :: c' :: t) (n :: n' :: rn')) with
      (if n <=? c then 0 :: carry (c' + 1 :: t) (n' :: rn') else c :: carry (c' :: t) (n' :: rn')).
    destruct (Z.leb_spec n c).
    + destruct (IH (c' + 1) n' rn') as (I1 & I2 & I3); auto; [lia|].
      split; [|split].
      * rewrite okc_cons; [split; [lia|auto]|]. destruct (carry (c' + 1 :: t) (n' :: rn')); cbn in I3; [lia|discriminate].
      * cbn [rvv]. cbn [rvv] in I2. rewrite I2. assert (c = n) by lia. subst. ring.
      * cbn [length]. rewrite I3. reflexivity.
    + destruct (IH c' n' rn') as (I1 & I2 & I3); auto; [lia|].
      split; [|split].
      * rewrite okc_cons; [split; [lia|auto]|]. destruct (carry (c' :: t) (n' :: rn')); cbn in I3; [lia|discriminate].
      * cbn [rvv]. cbn [rvv] in I2. rewrite I2. reflexivity.
      * cbn [length]. rewrite I3. reflexivity.
Qed.

Lemma okc_last : forall rc rn, okc rc rn -> (last rc 0 < last rn 0 -> strict rc rn) /\
  (last rn 0 <= last rc 0 -> Forall (fun x => 0 < x) rn -> Zprod rn <= rvv rc rn).
Proof.
  induction rc as [|c rc IH]; intros rn H; [destruct rn; destruct H|].
  destruct rn as [|n rn]; [destruct rc; destruct H|].
  destruct rc as [|c' rc].
  - destruct rn; [|destruct H; cbn in *; tauto]. cbn in *. split; intros.
    + constructor; [lia|constructor].
    + unfold Zprod; cbn. lia.
  - destruct rn as [|n' rn]; [destruct H as [_ H]; destruct rc; destruct H|].
    rewrite okc_cons in H by discriminate. destruct H as [H1 H2]. destruct (IH _ H2) as [I1 I2].
    change (last (c :: c' :: rc) 0) with (last (c' :: rc) 0).
    change (last (n :: n' :: rn) 0) with (last (n' :: rn) 0). split; intros.
    + constructor; [auto|apply I1; auto].
    + specialize (I2 H (Forall_inv_tail H0)). rewrite Zprod_cons. cbn [rvv] in *. nia.
Qed.

Lemma strict_okc : forall rc rn, strict rc rn -> rc <> [] -> okc rc rn.
Proof.
  induction 1; intros; [congruence|]. destruct l as [|c l].
  - inversion H0; subst. cbn. lia.
  - rewrite okc_cons by discriminate. split; auto. apply IHForall2. discriminate.
Qed.

Lemma inside_strict : forall rc rn, strict rc rn -> inside (zeros (rev rn)) (rev rn) (rev rc).
Proof.
  intros rc rn H.
  assert (HF : Forall2 (fun c n => 0 <= c < n) (rev rc) (rev rn)).
  { induction H; cbn; [constructor|]. apply Forall2_app; auto. }
  induction HF; cbn; auto.
Qed.

Lemma subv_zeros : forall c n, length c = length n -> subv c (zeros n) = c.
Proof. induction c; destruct n; cbn; intros; try lia; auto. fold (zeros n). rewrite IHc by lia. f_equal. lia. Qed.

Lemma skipn_nth : forall A k (l : list A) x, nth_error l k = Some x -> skipn k l = x :: skipn (S k) l.
Proof.
  induction k; intros l x H; destruct l; cbn in *; try discriminate; [congruence|auto].
Qed.

Lemma rvv_nonneg : forall rc rn, okc rc rn -> Forall (fun x => 0 < x) rn -> 0 <= rvv rc rn.
Proof.
  induction rc as [|c rc IH]; intros rn H HF; [cbn; lia|]. destruct rn as [|n rn]; [cbn; lia|].
  destruct rc as [|c' rc].
  - destruct rn; [|destruct H; cbn in *; tauto]. cbn in *. lia.
  - rewrite okc_cons in H by discriminate. destruct H. specialize (IH _ H0 (Forall_inv_tail HF)).
    pose proof (Forall_inv HF). cbn beta in *. cbn [rvv] in *. nia.
Qed.

Lemma ctr_loop_ok : forall fuel rc rn, Forall (fun x => 0 < x) rn -> okc rc rn -> length rc = length rn ->
  Zprod rn - rvv rc rn < Z.of_nat fuel ->
  ctr_loop fuel rc rn = skipn (Z.to_nat (rvv rc rn)) (coords_of (zeros (rev rn)) (rev rn)).
Proof.
  induction fuel as [|f IH]; intros rc rn HF HO HL Hf.
  - cbn [ctr_loop]. rewrite skipn_all2; auto. rewrite coords_of_length.
    + rewrite Zprod_rev. lia.
    + rewrite zeros_length. auto.
    + apply Forall_rev. revert HF. apply Forall_impl. intros; lia.
  - cbn [ctr_loop]. destruct (okc_last _ _ HO) as [H1 H2].
    pose proof (rvv_nonneg _ _ HO HF) as H0.
    assert (Hnn : nonneg (rev rn)) by (apply Forall_rev; revert HF; apply Forall_impl; intros; lia).
    destruct (Z.ltb_spec (last rc 0) (last rn 0)) as [Hlt|Hge].
    + specialize (H1 Hlt). pose proof (nth_error_coords_of _ _ _ Hnn (inside_strict _ _ H1)) as HN.
      rewrite subv_zeros in HN by (rewrite !rev_length; auto).
      rewrite rm_rev in HN by auto.
      rewrite (skipn_nth _ _ _ _ HN). f_equal.
      destruct rc as [|c rc]; [destruct rn; destruct HO|]. destruct rn as [|n rn]; [destruct rc; destruct HO|].
      inversion H1; subst.
      destruct (carry_ok rc (c + 1) n rn ltac:(lia) H7 HF) as (C1 & C2 & C3).
      cbn [ctr_next]. rewrite IH; auto.
      * rewrite C2. f_equal. cbn [rvv] in *. lia.
      * rewrite C3. auto.
      * rewrite C2. cbn [rvv] in *. lia.
    + specialize (H2 Hge HF). rewrite skipn_all2; auto.
      rewrite coords_of_length by (auto; apply zeros_length). rewrite Zprod_rev. lia.
Qed.

Lemma zeros_map_rev : forall (l : list Z), map (fun _ => 0) (rev l) = zeros (rev l).
Proof. reflexivity. Qed.

Lemma ctrs_spec : forall counts, counts <> [] -> Forall (fun x => 0 < x) counts ->
  ctrs counts = coords_of (zeros (removelast counts)) (removelast counts).
Proof.
  intros counts Hne HF. destruct counts as [|c0 [|c1 rest]]; [congruence| |].
  - cbn. inversion HF; subst. destruct (Z.ltb_spec 0 c0); [reflexivity|lia].
  - set (cs := c0 :: c1 :: rest) in *.
    change (ctrs cs) with (let rn := rev (removelast cs) in
      ctr_loop (S (Z.to_nat (Zprod rn))) (map (fun _ => 0) rn) rn). cbn zeta.
    assert (HL : Forall (fun x => 0 < x) (removelast cs)).
    { assert (HA : cs = removelast cs ++ [last cs 0]) by (apply app_removelast_last; auto).
      rewrite HA in HF. apply Forall_app in HF. tauto. }
    set (rn := rev (removelast cs)).
    assert (HR : Forall (fun x => 0 < x) rn) by (apply Forall_rev; auto).
    assert (Hs : strict (map (fun _ => 0) rn) rn).
    { clear - HR. induction HR; cbn; constructor; auto. lia. }
    assert (Hne2 : map (fun _ : Z => 0) rn <> []).
    { unfold rn. cbn. intros E. apply (f_equal (@length Z)) in E. rewrite map_length, app_length in E. cbn in E. lia. }
    assert (Hz : rvv (map (fun _ => 0) rn) rn = 0).
    { clear. induction rn; cbn; auto. rewrite IHrn. lia. }
    rewrite ctr_loop_ok; auto.
    + rewrite Hz. cbn [Z.to_nat skipn]. unfold rn. rewrite rev_involutive. reflexivity.
    + apply strict_okc; auto.
    + rewrite map_length. auto.
    + rewrite Hz. lia.
Qed.

(** ** Rows are the subarray *)
Lemma coords_of_snoc : forall s l x n, length s = length l ->
  coords_of (s ++ [x]) (l ++ [n]) = flat_map (fun c => map (fun i => c ++ [x + i]) (zseq n)) (coords_of s l).
Proof.
  induction s as [|s0 s IH]; destruct l as [|l0 l]; intros x n H; cbn [length] in H; try lia.
  - cbn. rewrite app_nil_r. induction (zseq n); cbn; auto; f_equal; auto.
  - cbn [app coords_of]. rewrite IH by lia.
    induction (zseq l0) as [|i is IHi]; cbn [flat_map]; auto.
    rewrite IHi, flat_map_app. f_equal.
    generalize (coords_of s l). induction l1; cbn; auto.
    rewrite map_app, IHl1, map_map. reflexivity.
Qed.

Lemma addv_nil : forall a, addv a [] = a.
Proof. destruct a; reflexivity. Qed.

Lemma rm_addv_last : forall size start c i, length start = length size -> length size = S (length c) ->
  rm size (addv start (c ++ [i])) = rm size (addv start c) + i.
Proof.
  induction size as [|n ns IH]; intros start c i H1 H2; [cbn in H2; lia|].
  destruct start as [|s0 ss]; [cbn in H1; lia|]. destruct c as [|c0 c].
  - destruct ns; [|cbn in H2; lia]. destruct ss; [|cbn in H1; lia]. cbn. lia.
  - cbn [app addv rm]. rewrite IH by (cbn in *; lia). lia.
Qed.

Lemma byte_range_app : forall x a b, 0 <= a -> 0 <= b -> byte_range x (a + b) = byte_range x a ++ byte_range (x + a) b.
Proof.
  intros. unfold byte_range. rewrite zseq_app by lia. rewrite map_app, map_map. f_equal.
  apply map_ext. intros. lia.
Qed.

Lemma byte_range_flat : forall x es n, 0 <= es ->
  flat_map (fun i => byte_range (x + es * i) es) (zseq n) = byte_range x (n * es).
Proof.
  intros x es n Hes. destruct (Z_le_gt_dec 0 n) as [Hn|Hn].
  - revert n Hn. apply (natlike_ind (fun n => flat_map (fun i => byte_range (x + es * i) es) (zseq n) = byte_range x (n * es))).
    + reflexivity.
    + intros n Hn IH. replace (Z.succ n) with (n + 1) by lia. rewrite zseq_app, flat_map_app, IH by lia.
      replace ((n + 1) * es) with (n * es + es) by lia. rewrite byte_range_app by nia. f_equal.
      change (zseq 1) with [0]. cbn. rewrite app_nil_r. f_equal. lia.
  - assert (zseq n = []) by (unfold zseq; destruct n; auto; lia).
    assert (zseq (n * es) = []) by (unfold zseq; replace (Z.to_nat (n * es)) with 0%nat by nia; auto).
    unfold byte_range. rewrite H, H0. reflexivity.
Qed.

Lemma byte_range_length : forall x n, length (byte_range x n) = Z.to_nat n.
Proof. intros. unfold byte_range. rewrite map_length, zseq_length. reflexivity. Qed.

Lemma combine_app : forall A B (a a' : list A) (b b' : list B), length a = length b ->
  combine (a ++ a') (b ++ b') = combine a b ++ combine a' b'.
Proof. induction a; destruct b; cbn; intros; try lia; auto. rewrite IHa by lia. reflexivity. Qed.

Lemma combine_flat_map : forall A B C (f : A -> list B) (g : A -> list C) l,
  (forall x, In x l -> length (f x) = length (g x)) ->
  combine (flat_map f l) (flat_map g l) = flat_map (fun x => combine (f x) (g x)) l.
Proof.
  induction l; intros H; cbn; auto. rewrite combine_app by (apply H; left; auto).
  rewrite IHl; auto. intros. apply H. right. auto.
Qed.

Lemma subarray_rows : forall disp es size count start n lead,
  count = lead ++ [n] -> length start = length count -> length size = length count -> 0 <= es ->
  subarray disp es size count start =
  flat_map (fun c => byte_range (disp + lin es size (addv start c)) (n * es)) (coords_of (zeros lead) lead).
Proof.
  intros disp es size count start n lead Hc H1 H2 He. unfold subarray.
  rewrite (coords_of_zeros start count) by auto. rewrite Hc.
  replace (zeros (lead ++ [n])) with (zeros lead ++ [0]) by (unfold zeros; rewrite map_app; reflexivity).
  rewrite coords_of_snoc by apply zeros_length.
  rewrite flat_map_concat_map, map_map, <- flat_map_concat_map.
  assert (HX : forall cs, (forall c, In c cs -> length c = length lead) ->
    flat_map (fun x => byte_range (disp + lin es size (addv start x)) es)
      (flat_map (fun c => map (fun i => c ++ [0 + i]) (zseq n)) cs) =
    flat_map (fun c => byte_range (disp + lin es size (addv start c)) (n * es)) cs).
  { induction cs as [|c cs IH]; intros Hlen; [reflexivity|]. cbn [flat_map]. rewrite flat_map_app.
    rewrite IH by (intros; apply Hlen; right; auto). f_equal.
    rewrite flat_map_concat_map, map_map, <- flat_map_concat_map.
    rewrite <- byte_range_flat by auto. apply flat_map_ext. intros i. f_equal.
    rewrite !lin_rm. rewrite rm_addv_last.
    - lia.
    - lia.
    - rewrite H2, Hc, app_length. cbn. rewrite (Hlen c) by (left; auto). lia. }
  apply HX. intros c Hin. apply coords_of_len in Hin; auto. apply zeros_length.
Qed.

(** Shape of an intersection. *)
Record sr_ok (s : sret) : Prop := {
  so_es : 0 < sr_esize s;
  so_pos : Forall (fun x => 0 < x) (sr_count s);
  so_ds : length (sr_dsize s) = length (sr_count s);
  so_dt : length (sr_dstart s) = length (sr_count s);
  so_ms : length (sr_msize s) = length (sr_count s);
  so_mt : length (sr_mstart s) = length (sr_count s);
  so_row : last (sr_count s) 1 * sr_esize s < 2 ^ 31 }.

Lemma last_indep : forall A (l : list A) d d', l <> [] -> last l d = last l d'.
Proof. induction l as [|a [|b l] IH]; intros; [congruence|reflexivity|]. apply IH. discriminate. Qed.

Lemma rows_pairs : forall s, sr_ok s -> flat_map row_pairs (rows_of s) = single_pairs s.
Proof.
  intros s [He Hp H1 H2 H3 H4 H5]. unfold single_pairs, rows_of.
  destruct (sr_count s) as [|c0 cs] eqn:Ec.
  - cbn [ctrs map flat_map last] in *. destruct (sr_dstart s); [|cbn in H2; lia]. destruct (sr_mstart s); [|cbn in H4; lia].
    unfold subarray. cbn [coords_of flat_map addv]. rewrite !app_nil_r.
    unfold row_pairs. cbn [ro_f ro_m ro_len]. rewrite i32_id by lia. rewrite Z.mul_1_l. reflexivity.
  - rewrite <- Ec in *. assert (Hne : sr_count s <> []) by (rewrite Ec; discriminate).
    pose proof (app_removelast_last 1 Hne) as HA.
    rewrite (subarray_rows _ _ _ _ _ _ _ HA), (subarray_rows _ _ _ _ _ _ _ HA) by (auto; lia).
    rewrite combine_flat_map by (intros; rewrite !byte_range_length; auto).
    rewrite ctrs_spec by auto.
    rewrite flat_map_concat_map, map_map, <- flat_map_concat_map. apply flat_map_ext. intros c.
    unfold row_pairs. cbn [ro_f ro_m ro_len]. rewrite i32_id; auto.
    assert (0 < last (sr_count s) 1). { rewrite HA in Hp. apply Forall_app in Hp. destruct Hp as [_ Hp]. apply Forall_inv in Hp. auto. }
    nia.
Qed.

Lemma rows_len_pos : forall s r, sr_ok s -> In r (rows_of s) -> 0 < ro_len r.
Proof.
  intros s r [He Hp H1 H2 H3 H4 H5] Hr. unfold rows_of in Hr. apply in_map_iff in Hr.
  destruct Hr as (c & <- & _). cbn [ro_len].
  assert (0 < last (sr_count s) 1).
  { destruct (sr_count s) eqn:E; [cbn; lia|]. rewrite <- E in *.
    assert (Hne : sr_count s <> []) by (rewrite E; discriminate).
    pose proof (app_removelast_last 1 Hne) as HA. rewrite HA in Hp.
    apply Forall_app in Hp. destruct Hp as [_ Hp]. apply Forall_inv in Hp. auto. }
  rewrite i32_id; nia.
Qed.

(** ** No trimming when rows are disjoint *)
Lemma In_row_pairs : forall r i, 0 <= i < ro_len r -> In (ro_f r + i, ro_m r + i) (row_pairs r).
Proof.
  intros r i H. unfold row_pairs, byte_range.
  replace (combine (map (fun i => ro_f r + i) (zseq (ro_len r))) (map (fun i => ro_m r + i) (zseq (ro_len r))))
    with (map (fun i => (ro_f r + i, ro_m r + i)) (zseq (ro_len r))).
  - apply in_map_iff. exists i. split; auto. apply zseq_In. lia.
  - generalize (zseq (ro_len r)). induction l; cbn; congruence.
Qed.

Lemma In_row_fst : forall r i, 0 <= i < ro_len r -> In (ro_f r + i) (map fst (row_pairs r)).
Proof.
  intros r i H. apply in_map_iff. eexists. split; [|apply In_row_pairs; eauto]. reflexivity.
Qed.

Lemma NoDup_app_disj : forall A (a b : list A), NoDup (a ++ b) -> forall x, In x a -> In x b -> False.
Proof.
  induction a; intros b H x Ha Hb; [destruct Ha|]. inversion H; subst. destruct Ha as [->|Ha].
  - apply H2. apply in_or_app. auto.
  - eapply IHa; eauto.
Qed.
Lemma NoDup_app_r : forall A (a b : list A), NoDup (a ++ b) -> NoDup b.
Proof. induction a; cbn; intros; auto. inversion H; auto. Qed.
Lemma NoDup_app_l : forall A (a b : list A), NoDup (a ++ b) -> NoDup a.
Proof. induction a; cbn; intros; [constructor|]. inversion H; subst. constructor; eauto. intros Hi. apply H2. apply in_or_app; auto. Qed.

Lemma trim_later_id : forall k ls, (forall l, In l ls -> ro_f k + ro_len k <= ro_f l) -> trim_later k ls = (ls, []).
Proof.
  induction ls as [|l ls IH]; intros H; [reflexivity|]. cbn [trim_later].
  pose proof (H l (or_introl eq_refl)). destruct (Z.ltb_spec (ro_f l) (ro_f k + ro_len k)); [lia|].
  rewrite IH by (intros; apply H; right; auto). reflexivity.
Qed.

Lemma trim_id : forall rs fuel, rsorted rs -> Forall (fun r => 0 < ro_len r) rs ->
  NoDup (map fst (flat_map row_pairs rs)) -> trim fuel rs = (rs, []).
Proof.
  induction rs as [|k rs IH]; intros fuel Hs Hp Hn; [destruct fuel; reflexivity|].
  destruct fuel; [reflexivity|]. cbn [trim]. inversion Hs; subst.
  cbn [flat_map] in Hn. rewrite map_app in Hn.
  rewrite trim_later_id.
  - rewrite IH; auto; [eapply Forall_inv_tail; eauto|eapply NoDup_app_r; eauto].
  - intros l Hl. rewrite Forall_forall in H2. specialize (H2 l Hl). unfold rle in H2.
    pose proof (Forall_inv Hp). cbn beta in H. pose proof (proj1 (Forall_forall _ _) (Forall_inv_tail Hp) l Hl). cbn beta in H0.
    destruct (Z_le_gt_dec (ro_f k + ro_len k) (ro_f l)); auto. exfalso.
    eapply (NoDup_app_disj _ _ _ Hn (ro_f l)).
    + replace (ro_f l) with (ro_f k + (ro_f l - ro_f k)) by lia. apply In_row_fst. lia.
    + apply in_map_iff. exists (ro_f l + 0, ro_m l + 0). split; [cbn; lia|].
      apply in_flat_map. exists l. split; auto. apply In_row_pairs. lia.
Qed.

(** ** A group *)
Lemma flat_map_flat_map : forall A B C (f : B -> list C) (g : A -> list B) l,
  flat_map f (flat_map g l) = flat_map (fun x => flat_map f (g x)) l.
Proof. induction l; cbn; auto. rewrite flat_map_app, IHl. reflexivity. Qed.

Lemma group_rtype_ok : forall g, Forall sr_ok g -> NoDup (map fst (flat_map single_pairs g)) ->
  Permutation (flat_map single_pairs g) (fst (group_rtype g)) /\ snd (group_rtype g) = [].
Proof.
  intros g Hok Hnd.
  assert (HG : forall rs, rs = flat_map rows_of g ->
    Permutation (flat_map single_pairs g) (flat_map row_pairs (fst (trim (length rs) (sortoffsets (S (length rs)) rs)))) /\
    snd (trim (length rs) (sortoffsets (S (length rs)) rs)) = []).
  { intros rs ->. set (rs := flat_map rows_of g).
    destruct (sortoffsets_ok (S (length rs)) rs ltac:(lia)) as [S1 S2].
    assert (HE : flat_map row_pairs rs = flat_map single_pairs g).
    { unfold rs. rewrite flat_map_flat_map. clear - Hok. induction Hok; cbn; auto. rewrite rows_pairs by auto. congruence. }
    assert (HP : Permutation (flat_map single_pairs g) (flat_map row_pairs (sortoffsets (S (length rs)) rs))).
    { rewrite <- HE. apply Permutation_flat_map. auto. }
    rewrite trim_id.
    - cbn. auto.
    - auto.
    - apply Forall_forall. intros r Hr. apply (Permutation_in _ (Permutation_sym S2)) in Hr.
      unfold rs in Hr. apply in_flat_map in Hr. destruct Hr as (s & Hs & Hr).
      eapply rows_len_pos; eauto. rewrite Forall_forall in Hok. auto.
    - eapply Permutation_NoDup; [|exact Hnd]. apply Permutation_map. auto. }
  unfold group_rtype. destruct g as [|s [|s2 g]].
  - cbn. auto.
  - cbn. rewrite app_nil_r. auto.
  - specialize (HG _ eq_refl). destruct (trim _ _) as [rs' cs]. exact HG.
Qed.

(** ** The groups *)
Lemma groups_from_concat : forall rest cur j, concat (groups_from cur j rest) = rev cur ++ rest.
Proof.
  induction rest as [|b rest IH]; intros cur j; cbn [groups_from concat]; [reflexivity|].
  destruct (_ && _ && _).
  - rewrite IH. cbn. rewrite <- app_assoc. reflexivity.
  - cbn [concat]. rewrite IH. reflexivity.
Qed.
Lemma groups_concat : forall l, concat (groups l) = l.
Proof. destruct l; [reflexivity|]. cbn [groups]. rewrite groups_from_concat. reflexivity. Qed.

Definition same_ext (a b : sret) : Prop := sr_foff a = sr_foff b /\ sr_doff a = sr_doff b.
Lemma groups_from_same : forall rest cur j, (forall x, In x cur -> same_ext x j) ->
  forall g, In g (groups_from cur j rest) -> forall x y, In x g -> In y g -> same_ext x y.
Proof.
  induction rest as [|b rest IH]; intros cur j Hc g Hg x y Hx Hy; cbn [groups_from] in Hg.
  - destruct Hg as [<-|[]]. apply in_rev in Hx. apply in_rev in Hy. apply Hc in Hx. apply Hc in Hy.
    unfold same_ext in *. intuition congruence.
  - destruct ((sr_foff j =? sr_foff b) && (sr_doff j =? sr_doff b) && interleve (sr_dstart j) (sr_count j) (sr_dstart b)) eqn:E.
    + apply andb_prop in E. destruct E as [E _]. apply andb_prop in E. destruct E as [E1 E2].
      apply Z.eqb_eq in E1. apply Z.eqb_eq in E2.
      eapply (IH (b :: cur) (if sr_gt b j then b else j)); eauto.
      intros z [<-|Hz]; destruct (sr_gt b j); unfold same_ext; auto.
      * apply Hc in Hz. unfold same_ext in Hz. intuition congruence.
      * apply Hc in Hz. unfold same_ext in Hz. intuition congruence.
    + destruct Hg as [<-|Hg].
      * apply in_rev in Hx. apply in_rev in Hy. apply Hc in Hx. apply Hc in Hy.
        unfold same_ext in *. intuition congruence.
      * eapply (IH [b] b); eauto. intros z [<-|[]]. unfold same_ext; auto.
Qed.
Lemma groups_same : forall l g, In g (groups l) -> forall x y, In x g -> In y g -> same_ext x y.
Proof.
  destruct l; intros g Hg; [destruct Hg|]. eapply groups_from_same; eauto.
  intros x [<-|[]]. unfold same_ext; auto.
Qed.

(** ** Delivery order *)
Definition deliv (p q : Z * Z) : Prop := snd p = snd q -> fst p <= fst q.

Lemma mpi_read_none : forall file ps mem a, (forall p, In p ps -> snd p <> a) -> mpi_read file mem ps a = mem a.
Proof.
  unfold mpi_read. induction ps as [|p ps IH]; intros mem a H; [reflexivity|]. cbn [fold_left].
  rewrite IH by (intros; apply H; right; auto). apply put_out. pose proof (H p (or_introl eq_refl)). cbn. lia.
Qed.

Lemma mpi_read_max : forall file ps mem f a, StronglySorted deliv ps -> In (f, a) ps ->
  (forall p, In p ps -> snd p = a -> fst p <= f) -> mpi_read file mem ps a = file f.
Proof.
  intros file ps. induction ps as [|p ps IH] using rev_ind; intros mem f a Hs Hin Hmax; [destruct Hin|].
  apply SSorted_app in Hs. destruct Hs as (S1 & _ & S2).
  unfold mpi_read. rewrite fold_left_app. fold (mpi_read file mem ps). cbn [fold_left].
  destruct (Z.eq_dec (snd p) a) as [E|E].
  - assert (fst p = f).
    { assert (fst p <= f) by (apply Hmax; auto; apply in_or_app; right; left; auto).
      apply in_app_or in Hin. destruct Hin as [Hin|[->|[]]]; [|reflexivity].
      specialize (S2 _ p Hin (or_introl eq_refl)). unfold deliv in S2. cbn in S2. lia. }
    subst. rewrite put_one. rewrite Z.eqb_refl. reflexivity.
  - rewrite put_out by (cbn; lia). apply in_app_or in Hin. destruct Hin as [Hin|[->|[]]]; [|cbn in E; congruence].
    apply IH; auto. intros. apply Hmax; auto. apply in_or_app; auto.
Qed.

Lemma StronglySorted_all : forall A (R : A -> A -> Prop) l, (forall x y, In x l -> In y l -> R x y) -> StronglySorted R l.
Proof.
  induction l; intros H; constructor.
  - apply IHl. intros. apply H; right; auto.
  - apply Forall_forall. intros. apply H; [left|right]; auto.
Qed.

Lemma ForallOrdPairs_app : forall A (R : A -> A -> Prop) l1 l2, ForallOrdPairs R (l1 ++ l2) <->
  ForallOrdPairs R l1 /\ ForallOrdPairs R l2 /\ (forall x y, In x l1 -> In y l2 -> R x y).
Proof.
  induction l1 as [|a l1 IH]; intros l2; cbn.
  - split; [intros; repeat split; auto; [constructor|tauto]|tauto].
  - split.
    + intros H. inversion H; subst. apply IH in H3. destruct H3 as (H3 & H4 & H5).
      rewrite Forall_app in H2. destruct H2 as [H6 H7]. split; [constructor; auto|]. split; auto.
      intros x y [<-|Hx] Hy; auto. rewrite Forall_forall in H7. auto.
    + intros (H1 & H2 & H3). inversion H1; subst. constructor.
      * rewrite Forall_app. split; auto. apply Forall_forall. auto.
      * apply IH. repeat split; auto.
Qed.

Lemma FOP_perm : forall A (R : A -> A -> Prop) l l', (forall x y, R x y -> R y x) ->
  Permutation l l' -> ForallOrdPairs R l -> ForallOrdPairs R l'.
Proof.
  intros A R l l' Hsym HP. induction HP; intros H; auto.
  - inversion H; subst. constructor; auto. eapply Permutation_Forall; eauto.
  - inversion H; subst. inversion H3; subst. inversion H2; subst. constructor; [constructor|constructor]; auto.
Qed.

Definition ext_disj (a b : sret) : Prop :=
  same_ext a b -> forall x, In x (map fst (single_pairs a)) -> In x (map fst (single_pairs b)) -> False.

Lemma NoDup_app_intro : forall A (a b : list A), NoDup a -> NoDup b -> (forall x, In x a -> In x b -> False) -> NoDup (a ++ b).
Proof.
  induction a; cbn; intros b Ha Hb H; auto. inversion Ha; subst. constructor.
  - rewrite in_app_iff. intros [Hi|Hi]; [auto|eapply H; eauto].
  - apply IHa; auto. intros. eapply H; eauto.
Qed.

Lemma group_NoDup : forall g, Forall (fun s => NoDup (map fst (single_pairs s))) g ->
  ForallOrdPairs ext_disj g -> (forall x y, In x g -> In y g -> same_ext x y) ->
  NoDup (map fst (flat_map single_pairs g)).
Proof.
  induction g as [|s g IH]; intros H1 H2 H3; [constructor|]. cbn [flat_map]. rewrite map_app.
  inversion H1; subst. inversion H2 as [|? ? HA HB]; subst. apply NoDup_app_intro; auto.
  - apply IH; auto. intros. apply H3; right; auto.
  - intros x Hx Hy. apply in_map_iff in Hy. destruct Hy as (p & <- & Hp).
    apply in_flat_map in Hp. destruct Hp as (t & Ht & Hp).
    rewrite Forall_forall in HA. eapply (HA t Ht); eauto.
    + apply H3; [left|right]; auto.
    + apply in_map; auto.
Qed.

Definition read_pairs (blocks : list sret) : list (Z * Z) := flat_map single_pairs blocks.

(** The hypotheses on the intersections. *)
Record reads_ok (blocks : list sret) : Prop := {
  rk_ok : Forall sr_ok blocks;
  rk_ord : forall s1 s2, In s1 blocks -> In s2 blocks -> sr_key s1 <= sr_key s2 ->
    forall p q, In p (single_pairs s1) -> In q (single_pairs s2) -> deliv p q;
  rk_nd : Forall (fun s => NoDup (map fst (single_pairs s))) blocks;
  rk_disj : ForallOrdPairs ext_disj blocks }.

Lemma reads_ok_perm : forall a b, Permutation a b -> reads_ok a -> reads_ok b.
Proof.
  intros a b HP [H1 H2 H3 H4]. constructor.
  - eapply Permutation_Forall; eauto.
  - intros. eapply (H2 s1 s2); eauto; eapply Permutation_in; try (symmetry; exact HP); auto.
  - eapply Permutation_Forall; eauto.
  - eapply FOP_perm; eauto. intros x y H E z Z1 Z2. apply (H (conj (eq_sym (proj1 E)) (eq_sym (proj2 E))) z); auto.
Qed.

Lemma gen_rtypes_ok : forall sort blocks, is_sort sort -> reads_ok blocks ->
  StronglySorted deliv (fst (gen_rtypes sort blocks)) /\
  Permutation (read_pairs blocks) (fst (gen_rtypes sort blocks)) /\
  snd (gen_rtypes sort blocks) = [].
Proof.
  intros sort blocks Hsort HK. destruct (Hsort blocks) as [HP HS].
  apply (reads_ok_perm _ _ HP) in HK. unfold gen_rtypes. cbn [fst snd].
  assert (HPp : Permutation (read_pairs blocks) (read_pairs (sort blocks))) by (apply Permutation_flat_map; auto).
  revert HK HS HPp. generalize (sort blocks). intros l HK HS HPp.
  pose proof (groups_concat l) as HC. pose proof (groups_same l) as HG.
  assert (HX : forall gs, reads_ok (concat gs) -> StronglySorted (fun a b => sr_lt b a = false) (concat gs) ->
    (forall g, In g gs -> forall x y, In x g -> In y g -> same_ext x y) ->
    StronglySorted deliv (flat_map fst (map group_rtype gs)) /\
    Permutation (read_pairs (concat gs)) (flat_map fst (map group_rtype gs)) /\
    flat_map snd (map group_rtype gs) = []).
  { clear. induction gs as [|g gs IH]; intros HK HS HG.
    - cbn. repeat split; auto. constructor.
    - cbn [concat map flat_map] in *. destruct HK as [K1 K2 K3 K4].
      apply Forall_app in K1, K3. destruct K1 as [K1 K1'], K3 as [K3 K3'].
      apply ForallOrdPairs_app in K4. destruct K4 as (K4 & K4' & _).
      apply SSorted_app in HS. destruct HS as (HS1 & HS2 & HS3).
      destruct IH as (I1 & I2 & I3); auto.
      { constructor; auto. intros. eapply (K2 s1 s2); eauto; apply in_or_app; auto. }
      { intros. eapply (HG g0); eauto. right; auto. }
      assert (HGg : forall x y, In x g -> In y g -> same_ext x y) by (intros; apply (HG g); auto; left; auto).
      destruct (group_rtype_ok g K1 (group_NoDup g K3 K4 HGg)) as [P1 P2].
      rewrite P2, I3. split; [|split; [|reflexivity]].
      + apply SSorted_app. split; [|split; auto].
        * apply StronglySorted_all. intros p q Hp Hq.
          apply (Permutation_in _ (Permutation_sym P1)) in Hp. apply (Permutation_in _ (Permutation_sym P1)) in Hq.
          apply in_flat_map in Hp. destruct Hp as (s1 & Hs1 & Hp). apply in_flat_map in Hq. destruct Hq as (s2 & Hs2 & Hq).
          destruct (HGg s1 s2 Hs1 Hs2) as [E1 E2].
          eapply (K2 s1 s2); eauto; [apply in_or_app; auto|apply in_or_app; auto|unfold sr_key; lia].
        * intros p q Hp Hq. apply (Permutation_in _ (Permutation_sym P1)) in Hp. apply (Permutation_in _ (Permutation_sym I2)) in Hq.
          apply in_flat_map in Hp. destruct Hp as (s1 & Hs1 & Hp). apply in_flat_map in Hq. destruct Hq as (s2 & Hs2 & Hq).
          eapply (K2 s1 s2); eauto; [apply in_or_app; auto|apply in_or_app; auto|].
          specialize (HS3 s1 s2 Hs1 Hs2). unfold sr_lt in HS3.
          destruct (Z.ltb_spec (sr_key s2) (sr_key s1)); [discriminate|lia].
      + unfold read_pairs. rewrite flat_map_app. apply Permutation_app; auto. }
  rewrite <- HC in HK, HS. destruct (HX (groups l) HK HS HG) as (X1 & X2 & X3).
  rewrite HC in X2. split; auto. split; auto. rewrite HPp. auto.
Qed.

Theorem perform_read_ok : forall sort file mem blocks a, is_sort sort -> reads_ok blocks ->
  ((forall p, In p (read_pairs blocks) -> snd p <> a) -> perform_read sort file mem blocks a = mem a) /\
  (forall f, In (f, a) (read_pairs blocks) ->
     (forall p, In p (read_pairs blocks) -> snd p = a -> fst p <= f) ->
     perform_read sort file mem blocks a = file f).
Proof.
  intros sort file mem blocks a Hsort HK.
  destruct (gen_rtypes_ok sort blocks Hsort HK) as (G1 & G2 & G3).
  unfold perform_read. destruct (gen_rtypes sort blocks) as [ps cs]. cbn [fst snd] in *. subst cs.
  cbn [do_copies fold_left]. split.
  - intros H. apply mpi_read_none. intros p Hp. apply H. eapply Permutation_in; [symmetry; exact G2|auto].
  - intros f H Hm. apply mpi_read_max; auto.
    + eapply Permutation_in; eauto.
    + intros p Hp. apply Hm. eapply Permutation_in; [symmetry; exact G2|auto].
Qed.
