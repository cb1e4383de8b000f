(** One blocking read against a flushed file. *)
From Verif Require Import Base BaseProofs Spec MetaModel QueueModel FlushModel IndexModel ReadModel SysModel
  SysSpec GeomProofs MetaProofs QueueProofs IndexProofs SearchProofs ReadProofs HitProofs MdProofs StoreProofs.
From Coq Require Import ZifyNat ZifyN Permutation.

Lemma nth_error_ext : forall A (a b : list A), (forall k, nth_error a k = nth_error b k) -> a = b.
Proof.
  induction a as [|x a IH]; intros [|y b] H; auto; try (specialize (H 0%nat); discriminate).
  f_equal; [specialize (H 0%nat); cbn in H; congruence|]. apply IH. intros k. exact (H (S k)).
Qed.

Lemma get_elems : forall n m a es, (0 < es)%nat ->
  get m a (es * n) = concat (map (fun j => get m (a + Z.of_nat es * j) es) (zseq (Z.of_nat n))).
Proof.
  induction n as [|n IH]; intros m a es He.
  - rewrite Nat.mul_0_r. reflexivity.
  - replace (es * S n)%nat with (es * n + es)%nat by lia. rewrite get_app, IH by auto.
    replace (Z.of_nat (S n)) with (Z.of_nat n + 1) by lia. rewrite zseq_succ by lia. rewrite map_app, concat_app.
    cbn [map concat]. rewrite app_nil_r. do 2 f_equal. lia.
Qed.

(** ** Initialisation of the buffer *)
Lemma fill_loop : forall n m x es f a, 0 < es -> Zlen f = es ->
  fold_left (fun m i => put m (x + i * es) f) (zseq (Z.of_nat n)) m a =
  if (x <=? a) && (a <? x + es * Z.of_nat n) then nth (Z.to_nat ((a - x) mod es)) f 0 else m a.
Proof.
  induction n as [|n IH]; intros m x es f a He Hf.
  - cbn [Z.of_nat]. rewrite zseq_0 by lia. cbn [fold_left]. replace (x + es * 0) with x by lia.
    destruct (Z.leb_spec x a); destruct (Z.ltb_spec a x); cbn [andb]; auto; lia.
  - replace (Z.of_nat (S n)) with (Z.of_nat n + 1) by lia. rewrite zseq_succ by lia. rewrite fold_left_app. cbn [fold_left].
    destruct (Z_lt_dec a (x + Z.of_nat n * es)) as [L|L].
    + rewrite put_out by lia. rewrite IH by auto.
      destruct (Z.leb_spec x a); cbn [andb]; auto.
      destruct (Z.ltb_spec a (x + es * Z.of_nat n)); [|lia]. destruct (Z.ltb_spec a (x + es * (Z.of_nat n + 1))); [auto|lia].
    + destruct (Z_lt_dec a (x + Z.of_nat n * es + es)) as [L2|L2].
      * rewrite put_in by lia.
        destruct (Z.leb_spec x a); [|nia]. destruct (Z.ltb_spec a (x + es * (Z.of_nat n + 1))); [|nia]. cbn [andb].
        do 2 f_equal. apply (Z.mod_unique_pos _ _ (Z.of_nat n)); lia.
      * rewrite put_out by lia. rewrite IH by auto.
        destruct (Z.ltb_spec a (x + es * Z.of_nat n)); [nia|]. destruct (Z.ltb_spec a (x + es * (Z.of_nat n + 1))); [nia|].
        rewrite !andb_false_r. reflexivity.
Qed.

Definition xdflt (d : dinfo) (c : rcall) (j : Z) : value :=
  match di_fill d with
  | Some f => f
  | None => get (rc_mem c) (rc_buf c + di_esize d * j) (Z.to_nat (di_esize d))
  end.

Definition fill_ok (d : dinfo) : Prop :=
  match di_fill d with Some f => Zlen f = di_esize d | None => True end.

Lemma fill_req_ok : forall infos d c j i,
  info_at infos (rc_did c) = Some (Some d) -> 0 < di_esize d -> fill_ok d ->
  0 <= j < sel_size (rc_sels c) -> 0 <= i < di_esize d ->
  fill_req infos (rc_mem c) (mkrreq (rc_did c) (rc_sels c) (rc_buf c) (di_esize d)) (rc_buf c + di_esize d * j + i) =
  nth (Z.to_nat i) (xdflt d c j) 0.
Proof.
  intros infos d c j i Hn He Hf Hj Hi. unfold fill_req. cbn [rq_did rq_sels rq_xbuf rq_esize]. rewrite Hn. unfold xdflt, fill_ok in *.
  destruct (di_fill d) as [f|].
  - replace (sel_size (rc_sels c)) with (Z.of_nat (Z.to_nat (sel_size (rc_sels c)))) by lia.
    rewrite fill_loop by auto.
    destruct (Z.leb_spec (rc_buf c) (rc_buf c + di_esize d * j + i)); [|nia].
    destruct (Z.ltb_spec (rc_buf c + di_esize d * j + i) (rc_buf c + di_esize d * Z.of_nat (Z.to_nat (sel_size (rc_sels c))))); [|nia].
    cbn [andb]. do 2 f_equal. symmetry. apply (Z.mod_unique_pos _ _ j); lia.
  - rewrite nth_get by lia. f_equal. lia.
Qed.

(** ** The read *)
Section ReadOne.
Context (e : env) (g : gfile) (C : list pwr) (ms : list (list (list wreq * list pwr)))
        (sets : list dinfo).
Let infos := g_infos g.
Let G := geom infos.
Context (Hsort : is_sort (e_sort e)).
Context (HC : clog G C).
Context (HP : Permutation C (flat_map (flat_map snd) ms)).
Context (HM : g_mdsets g = map md_bytes ms) (HMo : Forall md_ok ms)
        (HMs : Forall (Forall (sec_ok (e_kind e) (g_cfg g) G)) ms).
Context (HF : Forall (fun p => get (g_file g) (fst p) (length (a_data (snd p))) = a_data (snd p)) C).
Context (HE : forall p, In p C -> esize_in sets (a_did (snd p)) = esize_of G (a_did (snd p))).
Context (HU : e_kind e = KCompact ->
  Forall (fun p => unlim_of G (a_did (snd p)) = true -> recnum_of (a_sels (snd p)) < 2 ^ 31) C).

Lemma read_one_ok : forall cached d c,
  (forall i, cached = Some i -> kind_of i = e_kind e /\ idx_rep G i (flat_map (flat_map snd) ms)) ->
  (e_limit e <> None -> C <> []) ->
  0 <= rc_did c -> nth_error infos (Z.to_nat (rc_did c)) = Some (Some d) ->
  0 < di_esize d -> fill_ok d ->
  rc_sels c <> [] ->
  Forall (blk_fits (di_ndim d)) (rc_sels c) ->
  Forall (fun b => last (b_count b) 1 * di_esize d < 2 ^ 31) (rc_sels c) ->
  ForallOrdPairs disjoint_blocks (rc_sels c) ->
  (e_kind e = KCompact -> unlim d = true -> Forall (fun b => hd 0 (b_start b) < 2 ^ 31) (rc_sels c)) ->
  exists c', read_one e g cached c =
    Ok (concat (spec_read (store_of sets (map snd C)) (rc_did c) (rc_sels c)
                          (map (xdflt d c) (zseq (sel_size (rc_sels c))))), c') /\
    (forall i, c' = Some i -> kind_of i = e_kind e /\ idx_rep G i (flat_map (flat_map snd) ms)).
Proof.
  intros cached d c Hc Hlim Hd0 Hn Hes Hfill Hne Hblk Hlast Hdis Hsm.
  set (r := mkrreq (rc_did c) (rc_sels c) (rc_buf c) (di_esize d)). set (xs := [(d, r)] : list xreq).
  assert (HG : G (rc_did c) = Some (di_ndim d, di_esize d, unlim d)) by (unfold G, geom; rewrite Hn; reflexivity).
  assert (Hsmall : small_sels (di_ndim d) (rc_sels c)).
  { revert Hblk. apply Forall_impl. intros b (B1 & B2 & B3 & B4). unfold blk_small. auto. }
  assert (HX : Forall (xreq_ok infos (e_kind e) (flat_map (flat_map snd) ms)) xs).
  { constructor; [|constructor]. unfold xreq_ok. cbn [fst snd r rq_did rq_sels]. split; [auto|]. split; [auto|]. split.
    - revert Hblk. apply Forall_impl. intros b (B1 & B2 & _). auto.
    - intros Hk. split.
      + eapply Permutation_Forall; [exact HP|]. apply HU. auto.
      + unfold r. cbn [rq_did rq_sels]. fold G. unfold unlim_of. rewrite HG. intros Hu. specialize (Hsm Hk Hu).
        rewrite Forall_forall in *. intros b Hb. specialize (Hsm b Hb). specialize (Hblk b Hb).
        destruct Hblk as (B1 & B2 & B3 & B4). unfold small_first.
        assert (0 <= hd 0 (b_start b)) by (destruct (b_start b); cbn; [lia|inversion B3; lia]).
        assert (0 <= hd 0 (b_count b) < 2 ^ 31) by (destruct (b_count b); cbn; [lia|inversion B4; lia]). lia. }
  assert (HL : e_limit e <> None -> ms <> []).
  { intros Hl ->. cbn in HP. apply Permutation_sym, Permutation_nil in HP. apply Hlim; auto. }
  destruct (read_search_ok (e_zlib e) (g_cfg g) infos (e_kind e) (e_limit e) ms cached xs HMo HMs HX HL Hc) as (u & c' & U1 & U2 & U3).
  exists c'. split; [|exact U3].
  assert (RO : forall A (a b : A), match rc_sels c with [] => a | _ :: _ => b end = b) by (destruct (rc_sels c); [congruence|reflexivity]).
  unfold read_one. rewrite RO. clear RO.
  assert (HI : info_at infos (rc_did c) = Some (Some d)).
  { unfold info_at. destruct (Z.ltb_spec (rc_did c) 0); [lia|]. exact Hn. }
  fold infos. rewrite HI. fold r. rewrite HM. change [r] with (map snd xs). rewrite U1. cbn [bind fst snd].
  f_equal. f_equal.
  assert (HLog : log_ok G (flat_map (flat_map snd) ms)) by (eapply clog_log; eauto).
  assert (HXS : xs_ok G xs).
  { constructor.
    - constructor; [|constructor]. cbn [fst snd]. unfold rsmall. split; [|auto]. cbn [r rq_sels].
      apply Forall_forall. intros b Hb. unfold small_sels in Hsmall. rewrite Forall_forall in Hsmall, Hlast. auto.
    - constructor; [|constructor]. cbn [fst snd r rq_did]. unfold ndim_of, esize_of. rewrite HG. auto.
    - constructor; [|constructor]. exact Hdis.
    - repeat constructor. }
  pose proof (sel_size_nonneg _ _ Hsmall) as Hsz. pose proof (sel_coords_length _ _ Hsmall) as HSL.
  set (mem1 := fill_req infos (rc_mem c) r). set (mem2 := perform_read (e_sort e) (g_file g) mem1 u).
  unfold rq_bytes. cbn [r rq_sels rq_esize].
  replace (Z.to_nat (sel_size (rc_sels c) * di_esize d)) with (Z.to_nat (di_esize d) * Z.to_nat (sel_size (rc_sels c)))%nat
    by (rewrite <- Z2Nat.inj_mul by lia; f_equal; lia).
  rewrite get_elems by lia. rewrite !Z2Nat.id by lia. f_equal.
  apply nth_error_ext. intros j. unfold spec_read. rewrite !nth_error_map.
  destruct (nth_error (sel_coords (rc_sels c)) j) as [cc|] eqn:Ej.
  - assert (Hj : (j < Z.to_nat (sel_size (rc_sels c)))%nat).
    { assert (j < length (sel_coords (rc_sels c)))%nat by (apply nth_error_Some; congruence). lia. }
    rewrite zseq_nth_error by auto. cbn [option_map].
    rewrite (proj2 (nth_error_combine _ _ j _ _ cc (xdflt d c (Z.of_nat j)))).
    2:{ split; auto. rewrite nth_error_map, zseq_nth_error by auto. reflexivity. }
    cbn [option_map fst snd]. f_equal.
    assert (HD : forall i, 0 <= i < di_esize d -> _) by
      (intros i Hi; exact (read_delivers G _ xs u (e_sort e) (g_file g) mem1 (d, r) j cc i HLog HXS U2 Hsort (or_introl eq_refl) Ej Hi)).
    cbn [fst snd r rq_did rq_sels rq_xbuf] in HD. fold mem2 in HD.
    pose proof (store_spec G sets C (rc_did c) cc HC HE) as HS.
    assert (Hesz : esize_of G (rc_did c) = di_esize d) by (unfold esize_of; rewrite HG; reflexivity). rewrite Hesz in HS.
    destruct (store_of sets (map snd C) (rc_did c) cc) as [v|].
    + destruct HS as (p & k & S1 & S2 & S3 & S4 & ->).
      pose proof (proj1 (Forall_forall _ _) (cl_small _ _ HC) p S1) as W.
      pose proof (proj1 (Forall_forall _ _) (cl_len _ _ HC) p S1) as Wl. cbn beta in Wl. unfold wbytes in Wl. rewrite S2, Hesz in Wl.
      pose proof (elem_at_lt _ _ _ _ W S3) as Hk.
      pose proof (proj1 (Forall_forall _ _) HF p S1) as Hfile. cbn beta in Hfile.
      apply nth_ext with (d := 0) (d' := 0).
      { rewrite get_length, firstn_length, skipn_length. unfold Zlen in Wl. nia. }
      intros i Hi. rewrite get_length in Hi. rewrite nth_get by auto.
      destruct (HD (Z.of_nat i) ltac:(lia)) as [_ D]. rewrite (D p k); auto.
      * rewrite <- Hfile at 1. rewrite <- (firstn_skipn (Z.to_nat (di_esize d * Z.of_nat k)) (a_data (snd p))) in Hfile.
        clear Hfile. pose proof (proj1 (Forall_forall _ _) HF p S1) as Hfile. cbn beta in Hfile.
        rewrite Hfile.
        assert (Hnth : forall q n l, (q < n)%nat -> nth q (firstn n l) 0 = nth q l 0).
        { clear. intros q n l. revert q l. induction n; intros q l H; [lia|]. destruct l; [destruct q; reflexivity|].
          destruct q; cbn; auto. apply IHn. lia. }
        assert (Hnth2 : forall n q (l : list Z), nth q (skipn n l) 0 = nth (n + q) l 0).
        { clear. induction n; intros q l; [reflexivity|]. destruct l; [destruct q; reflexivity|]. cbn [skipn Nat.add nth]. apply IHn. }
        rewrite Hnth by lia. rewrite Hnth2. rewrite <- Hfile. rewrite nth_get by (unfold Zlen in Wl; nia).
        f_equal. nia.
      * eapply Permutation_in; [exact HP|exact S1].
      * intros p' k' H1 H2 H3. apply S4; auto. eapply Permutation_in; [apply Permutation_sym; exact HP|exact H1].
    + apply nth_ext with (d := 0) (d' := 0).
      { rewrite get_length. unfold xdflt. unfold fill_ok, Zlen in Hfill. destruct (di_fill d); [lia|]. rewrite get_length. reflexivity. }
      intros i Hi. rewrite get_length in Hi. rewrite nth_get by auto.
      destruct (HD (Z.of_nat i) ltac:(lia)) as [D _]. rewrite D.
      * unfold mem1. rewrite fill_req_ok with (d := d); auto; try lia. f_equal. lia.
      * intros p k H1 H2. apply HS; auto. eapply Permutation_in; [apply Permutation_sym; exact HP|exact H1].
  - assert (Hj : (Z.to_nat (sel_size (rc_sels c)) <= j)%nat) by (apply nth_error_None in Ej; lia).
    assert (Hz : nth_error (zseq (sel_size (rc_sels c))) j = None) by (apply nth_error_None; rewrite zseq_length; lia).
    rewrite Hz. cbn [option_map].
    destruct (nth_error (combine _ _) j) as [[x y]|] eqn:Ec; [|reflexivity].
    apply nth_error_combine in Ec. destruct Ec; congruence.
Qed.
End ReadOne.
