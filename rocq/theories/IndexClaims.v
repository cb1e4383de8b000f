(** Proofs of the properties about index searches. *)
From Verif Require Import Base BaseProofs Spec MetaModel QueueModel IndexModel ReadModel LocalSpec SearchSpec
  GeomProofs MetaProofs QueueProofs IndexProofs SearchProofs ReadProofs HitProofs MetaClaims.
From Coq Require Import ZifyNat.

Definition req_ok (dip : dinfo) (r : rreq) : Prop := Forall (int_block (di_ndim dip)) (rq_sels r).
Definition idx_ok (dip : dinfo) (idx : list mentry) (r : rreq) : Prop :=
  Forall (fun e => h_did (me_hdr e) = rq_did r ->
    Forall (fun m => int_block (di_ndim dip) (mkblock (ms_start m) (ms_count m))) (me_sels e)) idx.

(** The pieces of one candidate. *)
Definition pieces (dip : dinfo) (fsz dsz : Z) (foff doff : Z) (b m : block) (xb : Z) : list sret :=
  match intersect (b_start m) (b_count m) (b_start b) (b_count b) with
  | Some (os, oc) => [mk_sret dip foff fsz dsz doff xb (b_start m) (b_count m) b os oc]
  | None => []
  end.

Lemma shift_addv : forall a b, length a = length b -> shift a b = addv a b.
Proof. induction a; destruct b; cbn; intros; try lia; auto. unfold shift in *. rewrite <- IHa by lia. reflexivity. Qed.

Lemma int_small : forall n b, int_block n b -> blk_small n (b_start b) (b_count b).
Proof. intros n b H. exact H. Qed.

Lemma pieces_exact : forall dip fsz dsz foff doff b m xb fp mp, int_block (di_ndim dip) b -> int_block (di_ndim dip) m ->
  exact_answer (mkcand b mp m fp) (pieces dip fsz dsz foff doff b m xb).
Proof.
  intros dip fsz dsz foff doff b m xb fp mp (B1 & B2 & B3) (M1 & M2 & M3). unfold pieces, exact_answer. cbn [ca_log ca_req].
  pose proof (intersect_spec (b_start m) (b_count m) (b_start b) (b_count b) ltac:(congruence) ltac:(congruence) ltac:(congruence)) as HS.
  destruct (intersect _ _ _ _) as [[os oc]|] eqn:HI.
  - right. destruct (intersect_sub (b_start m) (b_count m) (b_start b) (b_count b) os oc ltac:(congruence) ltac:(congruence) ltac:(congruence) HI) as [S1 S2].
    destruct (sub_region_length _ _ _ _ S1) as (L1 & L2 & L3).
    assert (Hsh : forall x, inside os oc x <-> shared m b x).
    { intros x. unfold shared, in_block. split; intros H.
      - apply HS; auto. apply inside_length in H. lia.
      - apply HS; auto. destruct H as [H _]. apply inside_length in H. lia. }
    split.
    + exists os. apply Hsh. clear - S1. induction S1; cbn; auto. split; auto. lia.
    + eexists. split; [reflexivity|]. unfold covers_shared, mk_sret.
      cbn [ca_log ca_req sr_dstart sr_mstart sr_count].
      rewrite (map_i32_id oc) by (eapply sub_region_small; eauto).
      rewrite (sub32_subv _ _ _ _ S1), (sub32_subv _ _ _ _ S2) by auto.
      assert (G : forall s, length os = length s -> shift s (subv os s) = os).
      { intros s L. rewrite shift_addv by (rewrite subv_length; auto). apply addv_subv. auto. }
      rewrite !G by congruence. auto.
  - left. split; auto. intros (x & X1 & X2). apply (HS x); [|split; assumption].
    apply inside_length in X1. lia.
Qed.

Lemma pieces_moves : forall dip fsz dsz foff doff b m xb p, 0 < di_esize dip ->
  int_block (di_ndim dip) b -> int_block (di_ndim dip) m ->
  In p (pieces dip fsz dsz foff doff b m xb) -> moves_shared (di_esize dip) (mkcand b xb m (foff + doff)) p.
Proof.
  intros dip fsz dsz foff doff b m xb p He Hb Hm Hp. unfold pieces in Hp.
  destruct (intersect _ _ _ _) as [[os oc]|] eqn:HI; [|destruct Hp]. destruct Hp as [<-|[]].
  unfold moves_shared. cbn [ca_log ca_req ca_file ca_mem]. intros f a.
  change (single_pairs (mk_sret dip foff fsz dsz doff xb (b_start m) (b_count m) b os oc))
    with (single_pairs (mk_sret dip foff 0 0 doff xb (b_start m) (b_count m) b os oc)).
  rewrite (mk_sret_pairs dip foff doff xb m b os oc (di_ndim dip)) by auto.
  rewrite In_hit_pairs.
  destruct Hb as (B1 & B2 & B3), Hm as (M1 & M2 & M3).
  destruct (intersect_sub (b_start m) (b_count m) (b_start b) (b_count b) os oc ltac:(congruence) ltac:(congruence) ltac:(congruence) HI) as [S1 S2].
  destruct (sub_region_length _ _ _ _ S1) as (L1 & L2 & L3).
  pose proof (intersect_spec (b_start m) (b_count m) (b_start b) (b_count b) ltac:(congruence) ltac:(congruence) ltac:(congruence)) as HS.
  rewrite HI in HS.
  assert (Nm : nonneg (b_count m)) by (revert M3; apply Forall_impl; intros; lia).
  assert (Nb : nonneg (b_count b)) by (revert B3; apply Forall_impl; intros; lia).
  split.
  - intros (c & i & Hc & Hi & E). injection E as -> ->.
    apply In_coords_of in Hc; [|congruence].
    assert (Hl : length c = length (b_start m)) by (apply inside_length in Hc; lia).
    destruct (proj2 (HS c Hl) Hc) as [C1 C2].
    exists c, (Z.to_nat (rm (b_count m) (subv c (b_start m)))), (Z.to_nat (rm (b_count b) (subv c (b_start b)))), i.
    split; [apply nth_error_coords_of; auto|]. split; [apply nth_error_coords_of; auto|].
    pose proof (rm_inside _ _ _ C1). pose proof (rm_inside _ _ _ C2).
    rewrite !Z2Nat.id by lia. split; auto.
  - intros (x & k & k' & j & K1 & K2 & Hj & -> & ->).
    apply nth_error_coords_rm in K1; [|congruence|auto]. apply nth_error_coords_rm in K2; [|congruence|auto].
    destruct K1 as [K1 E1], K2 as [K2 E2]. exists x, j. split; [|split; auto; rewrite E1, E2; reflexivity].
    apply In_coords_of; [congruence|]. apply HS; auto. apply inside_length in K1. lia.
Qed.

Lemma with_soff_seq : forall n es s d, Forall (well_shaped n) s \/ Forall (int_block n) s ->
  with_soff es d s = map (fun i => (nth i s (mkblock [] []), d + es * count_elems (firstn i s))) (seq 0 (length s)).
Proof.
  intros n es. induction s as [|b s IH]; intros d H; [reflexivity|].
  cbn [with_soff length seq map]. f_equal; [cbn; f_equal; lia|].
  rewrite IH; [|destruct H; [left|right]; eapply Forall_inv_tail; eauto].
  rewrite <- seq_shift, map_map. apply map_ext. intros i. cbn [nth firstn]. f_equal.
  rewrite count_elems_cons. unfold block_size.
  assert (Hc : Z.of_nat (length (coords b)) = Zprod (b_count b)).
  { destruct H as [H|H]; [apply (coords_length n), (Forall_inv H)|].
    destruct (coords_length_size _ _ (int_small _ _ (Forall_inv H))) as [L _]. exact L. }
  rewrite Hc. lia.
Qed.

Lemma Forall2_imp : forall A B (R R2 : A -> B -> Prop) l l2, (forall a b, R a b -> R2 a b) -> Forall2 R l l2 -> Forall2 R2 l l2.
Proof. induction 2; constructor; auto. Qed.

Section Search.
  Variables (dip : dinfo) (idx : list mentry) (r : rreq).
  Hypothesis Hr : req_ok dip r.
  Hypothesis Hi : idx_ok dip idx r.

  Definition all_pieces : list (list sret) :=
    flat_map (fun i =>
      match nth_error (rq_sels r) i with
      | None => []
      | Some b =>
          flat_map (fun e =>
            if h_did (me_hdr e) =? rq_did r then
              map (fun m => pieces dip (h_fsize (me_hdr e)) (me_dsize e) (h_foff (me_hdr e)) (ms_doff m) b
                                   (mkblock (ms_start m) (ms_count m))
                                   (rq_xbuf r + rq_esize r * count_elems (firstn i (rq_sels r)))) (me_sels e)
            else []) idx
      end) (seq 0 (length (rq_sels r))).

  Lemma concat_flat_map : forall A B (f : A -> list (list B)) l, concat (flat_map f l) = flat_map (fun x => concat (f x)) l.
  Proof. induction l; cbn; auto. rewrite concat_app, IHl. reflexivity. Qed.

  Lemma search_concat : search_array idx dip r = concat all_pieces.
  Proof.
    unfold search_array, all_pieces. rewrite concat_flat_map.
    rewrite (with_soff_seq (di_ndim dip)) by (right; exact Hr).
    rewrite flat_map_concat_map, map_map, <- flat_map_concat_map.
    apply flat_map_ext_Forall. apply Forall_forall. intros i Hin. apply in_seq in Hin.
    assert (Hn : nth_error (rq_sels r) i = Some (nth i (rq_sels r) (mkblock [] []))).
    { apply nth_error_nth'. lia. }
    rewrite Hn. cbn [fst snd]. rewrite concat_flat_map. apply flat_map_ext. intros e.
    destruct (h_did (me_hdr e) =? rq_did r); [|reflexivity].
    rewrite <- flat_map_concat_map. apply flat_map_ext. intros m. unfold pieces. cbn [b_start b_count].
    reflexivity.
  Qed.

  Lemma all_pieces_zip : Forall2 (fun c ps => exists b m fo dq xb e, c = mkcand b xb m (fo + dq) /\
      int_block (di_ndim dip) b /\ int_block (di_ndim dip) m /\
      ps = pieces dip (h_fsize (me_hdr e)) (me_dsize e) fo dq b m xb) (candidates idx r) all_pieces.
  Proof.
    unfold candidates, all_pieces.
    assert (F2 : forall A X Y (R : X -> Y -> Prop) (f : A -> list X) (g : A -> list Y) l,
      (forall a, In a l -> Forall2 R (f a) (g a)) -> Forall2 R (flat_map f l) (flat_map g l)).
    { clear. induction l; intros H; cbn; [constructor|]. apply Forall2_app; [apply H; left; auto|].
      apply IHl. intros. apply H. right; auto. }
    apply F2. intros i _. destruct (nth_error (rq_sels r) i) as [b|] eqn:Hb; [|constructor].
    apply F2. intros e He. destruct (Z.eqb_spec (h_did (me_hdr e)) (rq_did r)) as [E|E]; [|constructor].
    unfold idx_ok in Hi. rewrite Forall_forall in Hi. specialize (Hi e He E).
    clear - Hr Hb Hi. set (xb := _ + _). clearbody xb.
    assert (Hbb : int_block (di_ndim dip) b).
    { exact (proj1 (Forall_forall _ _) Hr b (nth_error_In _ _ Hb)). }
    induction Hi as [|m ms Hm Hms IH]; cbn; constructor; auto.
    exists b, (mkblock (ms_start m) (ms_count m)), (h_foff (me_hdr e)), (ms_doff m), xb, e. auto.
  Qed.

  Lemma search_exact : exists pss, search_array idx dip r = concat pss /\
    Forall2 exact_answer (candidates idx r) pss.
  Proof.
    exists all_pieces. split; [apply search_concat|].
    eapply Forall2_imp; [|exact all_pieces_zip]. cbn beta.
    intros c ps (b & m & fo & dq & xb & e & -> & Hb & Hm & ->). apply pieces_exact; auto.
  Qed.

  Lemma search_moves : 0 < di_esize dip -> exists pss, search_array idx dip r = concat pss /\
    Forall2 (fun c ps => exact_answer c ps /\ forall p, In p ps -> moves_shared (di_esize dip) c p) (candidates idx r) pss.
  Proof.
    intros He. exists all_pieces. split; [apply search_concat|].
    eapply Forall2_imp; [|exact all_pieces_zip]. cbn beta.
    intros c ps (b & m & fo & dq & xb & e & -> & Hb & Hm & ->). split; [apply pieces_exact; auto|].
    intros p Hp. eapply pieces_moves; eauto.
  Qed.
End Search.

(** The compact index returns the same list as the array index. *)
Lemma doffs_unique : forall es (ms : list msel) bs, map (fun m => mkblock (ms_start m) (ms_count m)) ms = bs ->
  forall n, Forall (well_shaped n) bs ->
  map ms_doff ms = map (fun i => es * count_elems (firstn i bs)) (seq 0 (length bs)) -> ms = add_doffs es 0 bs.
Proof.
  intros es ms bs Hb n HW Hd.
  assert (Hd2 : map ms_doff ms = map ms_doff (add_doffs es 0 bs)).
  { rewrite Hd, (add_doffs_offsets n) by auto. apply map_ext. intros. lia. }
  assert (Hb2 : map (fun m => mkblock (ms_start m) (ms_count m)) ms =
                map (fun m => mkblock (ms_start m) (ms_count m)) (add_doffs es 0 bs)).
  { rewrite add_doffs_blocks. auto. }
  clear - Hd2 Hb2. revert Hd2 Hb2. generalize (add_doffs es 0 bs) as l.
  induction ms as [|[a b c] ms IH]; destruct l as [|[a' b' c'] l]; cbn; intros H1 H2; try discriminate; auto.
  injection H1 as -> H1. injection H2 as -> -> H2. f_equal. auto.
Qed.

Lemma cent_exact : forall dip r b o e, decoded dip e -> int_block (di_ndim dip) b -> int_first b ->
  search_cent dip r b o (compact_of e) =
  Some (flat_map (fun m =>
          match intersect (ms_start m) (ms_count m) (b_start b) (b_count b) with
          | Some (os, oc) =>
              [mk_sret dip (h_foff (me_hdr e)) (h_fsize (me_hdr e)) (me_dsize e) (ms_doff m)
                       (rq_xbuf r + o) (ms_start m) (ms_count m) b os oc]
          | None => []
          end) (me_sels e)).
Proof.
  intros dip r b o e (W & (_ & _ & _ & _ & Hd) & HR) (L1 & L2 & L3) HF.
  pose proof (doffs_unique _ _ _ eq_refl _ W Hd) as Hms.
  change (map _ (me_sels e)) with (entry_blocks e) in Hms.
  assert (WB : Forall (blk_ok (di_ndim dip)) (entry_blocks e)).
  { exact W. }
  assert (HL : Zlen (me_sels e) = Zlen (entry_blocks e)) by (unfold entry_blocks; rewrite Zlen_map; auto).
  assert (HC : forall rec, flat_map (fun m => (if rec : bool then tl (ms_start m) else ms_start m) ++
                 (if rec then tl (ms_count m) else ms_count m)) (me_sels e) = cwords rec (entry_blocks e)).
  { intros rec. unfold cwords, entry_blocks. rewrite (flat_map_concat_map _ (map _ _)), map_map, <- flat_map_concat_map.
    apply flat_map_ext. intros m. destruct rec; cbn [recd b_start b_count]; auto. }
  unfold search_cent, compact_of. cbn [own_blocks ce_blocks ce_rec ce_foff ce_fsize ce_dsize].
  rewrite HL, HC. replace (Z.to_nat (Zlen (entry_blocks e))) with (length (entry_blocks e)) by (unfold Zlen; lia).
  destruct (has (h_flag (me_hdr e)) FLAG_REC) eqn:ER.
  - destruct (HR eq_refl) as (rec & Hrec & IR). clear HR.
    destruct (me_sels e) as [|m0 ms0] eqn:Em.
    { destruct (Z.leb_spec 0 (-1)); [lia|]. unfold entry_blocks. rewrite Em. reflexivity. }
    assert (Hr0 : to_signed 8 (hd 0 (ms_start m0)) = rec).
    { unfold entry_blocks in IR. rewrite Em in IR. cbn [map] in IR. destruct (Forall_inv IR) as [I1 _]. cbn [b_start] in I1.
      destruct (ms_start m0); cbn in I1; [discriminate|]. injection I1 as ->. cbn [hd].
      apply to_signed8_id. clear - Hrec. lia. }
    rewrite Hr0. destruct (Z.leb_spec 0 rec); [|lia].
    assert (Hn : (0 < di_ndim dip)%nat).
    { unfold entry_blocks in W, IR. rewrite Em in W, IR. cbn [map] in *. destruct (Forall_inv W) as (W1 & _).
      destruct (Forall_inv IR) as [I1 _]. cbn [b_start] in *. rewrite <- W1. destruct (ms_start m0); cbn in *; [discriminate|lia]. }
    assert (Hb : Forall (fun b => hd 0 (b_count b) = 1 /\ hd 0 (b_start b) = rec /\
       (0 < length (b_start b))%nat /\ (0 < length (b_count b))%nat) (entry_blocks e)).
    { unfold in_record in IR. rewrite Forall_forall in W, IR |- *. intros x Hx. destruct (W x Hx) as (? & ? & _).
      destruct (IR x Hx) as [I1 I2]. destruct (b_start x), (b_count x); cbn in I1, I2 |- *; try discriminate.
      injection I1 as ->. injection I2 as ->. repeat split; lia. }
    unfold int_first in HF.
    destruct (b_start b) as [|b0 bs] eqn:Ebs; cbn [length] in L1; [lia|].
    destruct (b_count b) as [|n0 bc] eqn:Ebc; cbn [length] in L2; [lia|].
    pose proof (Forall_inv L3) as Hn0. cbn beta in Hn0.
    cbn [hd tl] in *.
    rewrite (i32_id (rec - b0)) by lia. rewrite (i32_id n0) by lia.
    rewrite Hms.
    pose proof (Forall_add_doffs (fun s n => hd 0 n = 1 /\ hd 0 s = rec /\
       (0 < length s)%nat /\ (0 < length n)%nat) (di_esize dip) _ 0 Hb) as HD.
    match goal with |- _ = Some (flat_map ?F _) => set (FF := F) end.
    assert (Hgen : forall m, hd 0 (ms_count m) = 1 /\ hd 0 (ms_start m) = rec /\
       (0 < length (ms_start m))%nat /\ (0 < length (ms_count m))%nat ->
       FF m =
       if (rec - b0 <? 0) || (n0 <=? rec - b0) then []
       else match intersect (skipn 1 (ms_start m)) (skipn 1 (ms_count m)) bs bc with
            | Some (os, oc) => [mksret (di_esize dip) (di_ndim dip) (h_foff (me_hdr e)) (h_fsize (me_hdr e)) (ms_doff m) (me_dsize e) (rq_xbuf r + o)
                (1 :: map i32 (skipn 1 (ms_count m))) (0 :: sub32 os (skipn 1 (ms_start m)))
                (n0 :: map i32 bc) (rec - b0 :: sub32 os bs) (1 :: map i32 oc)]
            | None => [] end).
    { intros m (M1 & M2 & M3 & M4). unfold FF.
      destruct (ms_start m) as [|s0 ss]; cbn [length hd] in *; [lia|].
      destruct (ms_count m) as [|c0 cc]; cbn [length hd] in *; [lia|]. subst s0 c0.
      cbn [intersect skipn].
      destruct ((rec - b0 <? 0) || (n0 <=? rec - b0)) eqn:T.
      - replace (Z.min (rec + 1) (b0 + n0) <=? Z.max (rec) b0) with true; [reflexivity|].
        symmetry. apply Z.leb_le. apply orb_prop in T. rewrite Z.ltb_lt, Z.leb_le in T. clear - T Hn0. lia.
      - apply orb_false_elim in T. rewrite Z.ltb_ge, Z.leb_gt in T.
        replace (Z.min (rec + 1) (b0 + n0) <=? Z.max (rec) b0) with false by (symmetry; apply Z.leb_gt; clear - T Hn0; lia).
        replace (Z.max (rec) b0) with (rec) by (clear - T; lia).
        replace (Z.min (rec + 1) (b0 + n0) - rec) with 1 by (clear - T; lia).
        destruct (intersect ss cc bs bc) as [[os oc]|]; [|reflexivity].
        unfold mk_sret, sub32. rewrite Ebs, Ebc. cbn [map combine fst snd].
        rewrite Z.sub_diag. rewrite (i32_id n0), (i32_id (rec - b0)) by (clear - T Hn0 HF Hrec; lia). reflexivity. }
    rewrite (flat_map_ext_Forall _ _ _ _ _ (Forall_impl _ Hgen HD)).
    destruct ((rec - b0 <? 0) || (n0 <=? rec - b0)).
    { f_equal. clear. induction (add_doffs _ _ _); cbn; auto. }
    change (di_ndim dip - 1)%nat with (di_ndim dip - recd true)%nat.
    rewrite walk_spec; auto.
    intros _. split; auto. revert Hb. apply Forall_impl. tauto.
  - destruct (Z.leb_spec 0 (-1)); [lia|]. rewrite Hms at 1.
    replace (di_ndim dip) with (di_ndim dip - recd false)%nat at 1 by (cbn; lia).
    rewrite walk_spec; auto. discriminate.
Qed.

Lemma compact_same : forall idx dip r, Forall (fun e => h_did (me_hdr e) = rq_did r -> decoded dip e) idx ->
  Forall (int_block (di_ndim dip)) (rq_sels r) -> Forall int_first (rq_sels r) ->
  search_compact (map compact_of idx) dip r = Some (search_array idx dip r).
Proof.
  intros idx dip r HI HB HF. unfold search_compact, search_array. apply opt_flat_Some.
  intros [b o] Hin. apply In_with_soff in Hin. rewrite Forall_forall in HB, HF. cbn [fst snd].
  induction HI as [|e idx He HI IH]; [reflexivity|].
  cbn [map opt_flat flat_map]. rewrite IH. unfold compact_of at 1. cbn [ce_did].
  destruct (Z.eqb_spec (h_did (me_hdr e)) (rq_did r)) as [E|E]; [|reflexivity].
  rewrite cent_exact by auto. reflexivity.
Qed.
