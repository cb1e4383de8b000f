(** Proofs of the properties about single metadata entries. *)
From Verif Require Import Base BaseProofs Spec MetaModel QueueModel LocalSpec GeomProofs MetaProofs QueueProofs.
From Coq Require Import ZifyNat ZifyN.

Lemma add_doffs_blocks : forall es bs o,
  map (fun s => mkblock (ms_start s) (ms_count s)) (add_doffs es o bs) = bs.
Proof. induction bs as [|[s c] bs IH]; intros; cbn; [|rewrite IH]; auto. Qed.

Lemma count_elems_cons : forall b bs, count_elems (b :: bs) = Z.of_nat (length (coords b)) + count_elems bs.
Proof. intros. unfold count_elems, sel_coords. cbn [flat_map]. rewrite app_length. lia. Qed.

Lemma coords_length : forall n b, well_shaped n b -> Z.of_nat (length (coords b)) = Zprod (b_count b).
Proof.
  intros n b (L1 & L2 & W1 & W2). unfold coords. rewrite coords_of_length; [|lia|].
  - rewrite Z2Nat.id; auto. apply Zprod_nonneg. eapply Forall_impl; [|exact W2]. unfold coordinate. intros; lia.
  - eapply Forall_impl; [|exact W2]. unfold coordinate. intros; lia.
Qed.

Lemma add_doffs_offsets : forall n es bs o, Forall (well_shaped n) bs ->
  map ms_doff (add_doffs es o bs) = map (fun i => o + es * count_elems (firstn i bs)) (seq 0 (length bs)).
Proof.
  induction bs as [|b bs IH]; intros o H; [reflexivity|].
  cbn [add_doffs map length seq]. f_equal; [cbn; lia|].
  rewrite IH by (eapply Forall_inv_tail; eauto).
  rewrite <- seq_shift, map_map. apply map_ext. intros i. cbn [firstn].
  rewrite count_elems_cons, (coords_length n) by (eapply Forall_inv; eauto). lia.
Qed.

Lemma describes_doffs : forall h n es bs ds, Forall (well_shaped n) bs ->
  describes (mkmentry h (add_doffs es 0 bs) ds) (h_did h) (h_foff h) (h_fsize h) es bs.
Proof.
  intros. unfold describes; cbn. rewrite add_doffs_blocks, (add_doffs_offsets n) by auto.
  repeat split; auto.
Qed.

Lemma skipn_in_array : forall k dims b, in_array dims b ->
  Forall2 (fun d s => 0 <= s < d) (skipn k dims) (skipn k (b_start b)) /\
  Forall2 (fun d n => 0 < n <= d) (skipn k dims) (skipn k (b_count b)).
Proof.
  intros k dims b (A & B & _).
  assert (S : forall P (l l' : list Z), Forall2 P l l' -> Forall2 P (skipn k l) (skipn k l')).
  { clear. induction k; intros P l l' H; auto. destruct H; cbn; auto. }
  auto.
Qed.

Lemma Forall2_Zprod_le : forall dims (c : list Z), Forall2 (fun d n => 0 < n <= d) dims c -> 0 < Zprod dims.
Proof.
  induction 1; [reflexivity|]. unfold Zprod in *. cbn [fold_right]. nia.
Qed.

Lemma rm_le : forall dims c, Forall2 (fun d n => 0 < n <= d) dims c ->
  0 <= rm dims c <= Zlen dims * Zprod dims.
Proof.
  intros dims c H. induction H as [|d n ds c Hd H IH]; [cbn; lia|].
  pose proof (Forall2_Zprod_le _ _ H) as P. cbn [rm]. unfold Zprod at 2 3; cbn [fold_right]; fold (Zprod ds).
  replace (Zlen (d :: ds)) with (Z.succ (Zlen ds)) by (unfold Zlen; cbn [length]; lia).
  assert (0 <= Zlen ds) by (unfold Zlen; lia). set (q := Zlen ds) in *. clearbody q.
  assert (n * Zprod ds <= d * Zprod ds) by nia.
  assert (q * Zprod ds <= q * (d * Zprod ds)) by nia. split; nia.
Qed.

Lemma rm_lt : forall dims c, Forall2 (fun d s => 0 <= s < d) dims c -> 0 <= rm dims c < Zprod dims.
Proof.
  intros dims c H. apply Forall2_lt_rm.
  - induction H; constructor; auto; lia.
  - induction H; constructor; auto; lia.
Qed.

(** An entry with encoded selections, whatever they are. *)
Section Encoded.
  Variables (rec : bool) (dims : list Z) (sels : list block).
  Let k := recd rec.
  Let dims' := skipn k dims.
  Hypothesis Hne : 1 < Zlen sels < 2 ^ 31.
  Hypothesis Hb : Forall (blk_ok (length dims)) sels.
  Hypothesis Hd : dims' <> [].
  Hypothesis Hw : Forall word (dsteps_of dims').
  Hypothesis Hrm : Forall (fun b => word (rm dims' (skipn k (b_start b))) /\
                                   word (rm dims' (skipn k (b_count b)))) sels.

  Definition enc_result : option (list (list Z) * list (list Z)) :=
    match opt_map (fun b => sel_decode (dsteps_of dims') (rm dims' (skipn k (b_start b)))) sels,
          opt_map (fun b => sel_decode (dsteps_of dims') (rm dims' (skipn k (b_count b)))) sels with
    | Some a, Some b => Some (a, b)
    | _, _ => None
    end.

  Lemma opt_map_map_in : forall A B C (f : B -> option C) (g : A -> B) (f' : A -> option C) l,
    (forall a, In a l -> f (g a) = f' a) -> opt_map f (map g l) = opt_map f' l.
  Proof. induction l; intros; cbn; auto. rewrite H by (left; auto). rewrite IHl; auto. intros. apply H. right. auto. Qed.

  Lemma decode_sels_enc : forall buf pre post pos,
    buf = pre ++ selpart rec false true dims sels ++ post -> pos = Zlen pre ->
    decode_sels buf pos true (length dims - k) (length sels) = enc_result.
  Proof.
    intros buf pre post pos Hbuf Hpos. unfold decode_sels. unfold selpart in Hbuf. cbn [app] in Hbuf.
    fold (recd rec) in Hbuf. fold k in Hbuf. fold dims' in Hbuf.
    assert (Hk : (length dims' = length dims - k)%nat) by (unfold dims'; rewrite skipn_length; reflexivity).
    assert (Hge : (1 <= length dims - k)%nat) by (rewrite <- Hk; destruct dims'; cbn; [congruence|lia]).
    set (n := (length dims - k)%nat) in *.
    unfold encode_words in Hbuf. rewrite dsteps_skipn in Hbuf. fold dims' in Hbuf.
    rewrite words_app in Hbuf.
    assert (Hf : Forall word (firstn (n - 1) (dsteps_of dims'))).
    { rewrite <- (firstn_skipn (n - 1)) in Hw. apply Forall_app in Hw. tauto. }
    assert (Hlf : length (firstn (n - 1) (dsteps_of dims')) = (n - 1)%nat).
    { rewrite firstn_length, dsteps_of_length. lia. }
    erewrite rd_words_at with (pre := pre) (ws := firstn (n - 1) (dsteps_of dims'));
      [|rewrite Hbuf, <- !app_assoc; reflexivity|auto|auto|revert Hf; apply Forall_impl, word_u64].
    assert (Hm : map (to_signed 8) (firstn (n - 1) (dsteps_of dims')) = firstn (n - 1) (dsteps_of dims')).
    { rewrite <- map_id. apply map_ext_in. intros w Hin. rewrite Forall_forall in Hf.
      apply to_signed8_id. apply Hf in Hin. exact Hin. }
    rewrite Hm. replace (n - 1)%nat with (length dims' - 1)%nat by lia.
    rewrite dsteps_last by auto.
    assert (Hs1 : Forall word (map (fun b => rm dims' (skipn k (b_start b))) sels)).
    { rewrite Forall_map. eapply Forall_impl; [|exact Hrm]. intros b H. apply H. }
    assert (Hs2 : Forall word (map (fun b => rm dims' (skipn k (b_count b))) sels)).
    { rewrite Forall_map. eapply Forall_impl; [|exact Hrm]. intros b H. apply H. }
    assert (He1 : forall f : block -> list Z,
      map (fun b => sel_encode (dsteps_of dims') (f b)) sels = map (fun b => rm dims' (f b)) sels).
    { intros. apply map_ext. intros. apply sel_encode_rm. }
    rewrite !He1 in Hbuf.
    erewrite rd_words_at with
      (pre := pre ++ words (firstn (n - 1) (dsteps_of dims')))
      (ws := map (fun b => rm dims' (skipn k (b_start b))) sels);
      [|rewrite Hbuf, <- !app_assoc; reflexivity
       |rewrite Hpos; unfold Zlen; rewrite !app_length, !words_length, Hlf; lia
       |rewrite map_length; auto
       |revert Hs1; apply Forall_impl, word_u64].
    erewrite rd_words_at with
      (pre := pre ++ words (firstn (n - 1) (dsteps_of dims')) ++
              words (map (fun b => rm dims' (skipn k (b_start b))) sels))
      (ws := map (fun b => rm dims' (skipn k (b_count b))) sels);
      [|rewrite Hbuf, <- !app_assoc; reflexivity
       |rewrite Hpos; unfold Zlen; rewrite !app_length, !words_length, map_length, Hlf; lia
       |rewrite map_length; auto
       |revert Hs2; apply Forall_impl, word_u64].
    unfold enc_result.
    erewrite !opt_map_map_in; [reflexivity| |];
      intros b Hin; cbn beta; rewrite to_signed8_id; auto;
      pose proof (proj1 (Forall_forall _ _) Hrm b Hin) as [A B]; assumption.
  Qed.

  Lemma decode_enc_gen : forall z dip buf pre post off h,
    hdr_ok h ->
    has (h_flag h) FLAG_REC = rec -> has (h_flag h) FLAG_MUL_SEL = true ->
    has (h_flag h) FLAG_SEL_ENCODE = true -> has (h_flag h) FLAG_SEL_DEFLATE = false ->
    length dims = di_ndim dip ->
    buf = pre ++ enc_hdr h ++ body rec true true dims sels ++ post -> off = Zlen pre ->
    (exists m, decode z dip buf off = Ok m) ->
    exists a b, enc_result = Some (a, b) /\
      exists m, decode z dip buf off = Ok m /\ me_hdr m = h /\
       map (fun s => mkblock (ms_start s) (ms_count s)) (me_sels m) =
       map (fun p => mkblock (if rec then recnum_of sels :: fst p else fst p)
                             (if rec then 1 :: snd p else snd p)) (combine a b).
  Proof.
    intros z dip buf pre post off h Hh Fr Fm Fe Fd Hnd Hbuf Hoff [m0 Hm0].
    revert Hm0. unfold decode. rewrite (rd_hdr_at _ _ _ _ _ Hbuf Hoff Hh). cbn [or_ub bind].
    destruct (Z.leb_spec (h_size h) 0); [destruct Hh; lia|].
    rewrite Fr, Fm, Fe, Fd, <- Hnd. cbn [andb].
    assert (Hdl : (1 <= length dims - k)%nat).
    { rewrite <- skipn_length. fold dims'. destruct dims'; [congruence|cbn; lia]. }
    replace (rec && (length dims =? 0)%nat) with false
      by (symmetry; apply Bool.andb_false_intro2; apply Nat.eqb_neq; lia).
    unfold body in Hbuf.
    assert (Hrec : (if rec then or_ub (rd_u64 buf (off + Z.of_nat HDR)) else Ok 0) =
                   Ok (if rec then recnum_of sels else 0)).
    { destruct rec; [|reflexivity].
      erewrite rd_u64_at with (pre := pre ++ enc_hdr h) (z := recnum_of sels);
        [reflexivity|rewrite Hbuf, <- !app_assoc; reflexivity
        |rewrite Hoff; unfold Zlen; rewrite !app_length, enc_hdr_length; lia|].
      apply word_u64. destruct sels as [|b sl]; cbn; [unfold word; lia|].
      pose proof (Forall_inv Hb) as (L & _ & W & _).
      destruct (b_start b); cbn [hd]; [unfold word; clear; lia|]. eapply Forall_inv; eauto. }
    rewrite Hrec. cbn [bind].
    set (p2 := if rec then off + Z.of_nat HDR + 8 else off + Z.of_nat HDR).
    set (q2 := pre ++ enc_hdr h ++ (if rec then le 8 (recnum_of sels) else [])).
    assert (Hp2 : p2 = Zlen q2).
    { subst p2 q2. rewrite Hoff. unfold Zlen. rewrite !app_length, enc_hdr_length.
      destruct rec; rewrite ?le_length; cbn [length]; lia. }
    unfold selpart in Hbuf.
    erewrite rd_i32_at with (pre := q2) (z := Zlen sels);
      [|rewrite Hbuf; subst q2; rewrite <- !app_assoc; reflexivity|auto|lia].
    cbn [or_ub bind].
    destruct (Z.leb_spec (Zlen sels) 0); [lia|].
    replace (if rec then (length dims - 1)%nat else length dims) with (length dims - k)%nat
      by (unfold k, recd; destruct rec; lia).
    replace (length dims - k =? 0)%nat with false by (symmetry; apply Nat.eqb_neq; lia).
    cbn [bind fst snd].
    replace (Z.to_nat (Zlen sels)) with (length sels) by (unfold Zlen; lia).
    erewrite decode_sels_enc with (pre := q2 ++ le 4 (Zlen sels)) (post := post).
    3:{ rewrite Zlen_app, <- Hp2. unfold Zlen; rewrite ?le_length; cbn [length]; lia. }
    2:{ rewrite Hbuf. subst q2. unfold selpart. cbn [app]. rewrite <- !app_assoc. reflexivity. }
    destruct enc_result as [[a b]|]; [|cbn; discriminate].
    intros _. exists a, b. split; auto. cbn [or_ub bind fst snd].
    eexists. split; [reflexivity|]. cbn [me_hdr me_sels]. split; auto.
    rewrite add_doffs_blocks. destruct rec; reflexivity.
  Qed.
End Encoded.

Lemma shaped_blk : forall n sels, Forall (well_shaped n) sels -> Forall (blk_ok n) sels.
Proof. intros n sels H. exact H. Qed.

Lemma dsize_whole : forall n es bs, Forall (well_shaped n) bs -> bs <> [] ->
  dsize_of es n (add_doffs es 0 bs) = es * count_elems bs.
Proof.
  intros n es bs H Hne. unfold dsize_of.
  assert (G : forall bs o, Forall (well_shaped n) bs -> bs <> [] ->
    let lst := last (add_doffs es o bs) (mkmsel [] [] 0) in
    es * Zprod (firstn n (ms_count lst)) + ms_doff lst = o + es * count_elems bs).
  { clear. induction bs as [|b bs IH]; intros o H Hne; [congruence|].
    pose proof (Forall_inv H) as Hb. pose proof (coords_length _ _ Hb) as Hc.
    destruct Hb as (_ & L & _ & _). rewrite count_elems_cons.
    destruct bs as [|b' bs].
    - cbn [add_doffs last ms_count ms_doff]. rewrite <- L, firstn_all.
      unfold count_elems; cbn [sel_coords flat_map length]. lia.
    - cbn [add_doffs]. specialize (IH (es * Zprod (b_count b) + o) (Forall_inv_tail H) ltac:(congruence)).
      cbn [add_doffs] in IH. cbn zeta in *. cbn [last] in *. rewrite IH. lia. }
  rewrite (G bs 0 H Hne). lia.
Qed.

Lemma opt_map_Forall2 : forall A B (f : A -> option B) l r, opt_map f l = Some r ->
  Forall2 (fun x y => f x = Some y) l r.
Proof.
  induction l as [|x l IH]; intros r E; cbn in E; [injection E as <-; constructor|].
  destruct (f x) eqn:Ex; [|discriminate]. destruct (opt_map f l) eqn:El; [|discriminate].
  injection E as <-. constructor; auto.
Qed.
Lemma opt_map_length : forall A B (f : A -> option B) l r, opt_map f l = Some r -> length r = length l.
Proof.
  intros A B f l r E. apply opt_map_Forall2 in E. induction E; cbn; auto.
Qed.

Section Entry.
  Variables (z : zlib) (cfg did : Z) (d : dinfo) (mdsize : Z) (sels : list block).
  Variables (foff fsize : Z) (pre post : list Z).
  Hypothesis Hd : described d.
  Hypothesis Hdid : 0 <= did < 2 ^ 31.
  Hypothesis Hfo : coordinate foff.
  Hypothesis Hfs : coordinate fsize.
  Hypothesis Hn : 0 < Zlen sels < 2 ^ 31.
  Hypothesis Hs : Forall (well_shaped (di_ndim d)) sels.
  Hypothesis Hz : length sels = 1%nat \/ has cfg CFG_SEL_DEFLATE = false.
  Let w := published (mk_wreq cfg did d mdsize sels) foff fsize.
  Hypothesis Hw : Zlen (wreq_bytes w) < 2 ^ 31.
  Let rec := is_rec d sels.
  Let mul := mul_of sels.
  Let enc := enc_of cfg rec mul (di_ndim d).

  Lemma info_described : info_ok cfg d.
  Proof. destruct Hd as (A & B & C). repeat split; auto. Qed.

  Lemma entry_describes : body_ok rec mul enc (di_dims d) sels ->
    exists m, decode z d (pre ++ wreq_bytes w ++ post) (Zlen pre) = Ok m /\
      describes m did foff fsize (di_esize d) sels /\
      (rec = false -> me_dsize m = di_esize d * count_elems sels).
  Proof.
    intros HB. pose proof (mk_wreq_form cfg did d mdsize sels info_described HB) as HF.
    fold rec in HF. fold mul in HF. fold enc in HF.
    assert (Hdf : mul && has cfg CFG_SEL_DEFLATE = false).
    { destruct Hz as [E|E]; [|rewrite E; apply Bool.andb_false_r].
      unfold mul, mul_of. rewrite E. reflexivity. }
    rewrite Hdf in HF.
    pose proof (flags_ok rec mul enc false) as Hfl. cbn zeta in Hfl.
    set (f := flags_of rec mul enc false) in *.
    destruct Hfl as (F0 & F1 & F2 & F3 & F4 & F5 & F6).
    set (h := mkhdr (Z.of_nat HDR + Zlen (body rec mul enc (di_dims d) sels)) did f foff fsize).
    assert (Hwb : wreq_bytes w = enc_hdr h ++ body rec mul enc (di_dims d) sels).
    { unfold w, wreq_bytes, published. rewrite HF. reflexivity. }
    assert (Hh : hdr_ok h).
    { unfold h, hdr_ok. cbn [h_size h_did h_flag h_foff h_fsize]. rewrite Hwb in Hw. rewrite Zlen_app in Hw.
      unfold Zlen in Hw at 1. rewrite enc_hdr_length in Hw.
      change (Z.of_nat HDR) with 28 in *. unfold coordinate in *.
      assert (0 <= Zlen (body rec mul enc (di_dims d) sels)) by (apply Zle_0_nat).
      revert Hw Hfo Hfs Hdid F0 H. clear. generalize (Zlen (body rec mul enc (di_dims d) sels)) f. intros. repeat split; lia. }
    pose proof (decode_ok z d (pre ++ wreq_bytes w ++ post) pre post (Zlen pre) h rec mul enc (di_dims d) sels
                  Hh F1 F2 F3 F4 eq_refl HB) as HD.
    rewrite Hwb, <- app_assoc in *. specialize (HD eq_refl eq_refl).
    eexists. split; [exact HD|]. split.
    - apply (describes_doffs h (di_ndim d)). auto.
    - intros R. cbn [me_dsize]. rewrite R, Nat.sub_0_r. apply dsize_whole; auto.
      intros ->. clear - Hn. cbn in Hn. lia.
  Qed.

  Lemma rec_part : rec = true -> (0 < length (di_dims d))%nat /\
     Forall (fun b => hd 0 (b_count b) = 1 /\ hd 0 (b_start b) = recnum_of sels) sels.
  Proof.
    intros E. split; [exact (is_rec_ndim _ _ _ info_described E)|].
    apply (is_rec_blocks d sels E).
  Qed.

  Lemma mul_part : mul = false -> length sels = 1%nat.
  Proof.
    unfold mul, mul_of. intros E. apply Nat.ltb_ge in E. clear - E Hn. unfold Zlen in Hn. lia.
  Qed.

  Lemma plain_body : length sels = 1%nat \/ (di_ndim d <= 1)%nat \/ has cfg CFG_SEL_ENCODE = false ->
    body_ok rec mul enc (di_dims d) sels.
  Proof.
    intros Hp. assert (E : enc = false).
    { unfold enc, enc_of. destruct Hp as [E|[E|E]].
      - unfold mul, mul_of. rewrite E. reflexivity.
      - replace (1 <? di_ndim d - recd rec)%nat with false by (symmetry; apply Nat.ltb_ge; clear - E; lia).
        rewrite Bool.andb_false_r. reflexivity.
      - rewrite E. apply Bool.andb_false_r. }
    split; [exact Hn|]. split; [exact mul_part|]. split; [exact Hs|]. split; [exact rec_part|].
    rewrite E. discriminate.
  Qed.

  Definition k_part (b : block) : block := if rec then tail_block b else b.
  Lemma k_part_eq : forall b, b_start (k_part b) = skipn (recd rec) (b_start b) /\
                              b_count (k_part b) = skipn (recd rec) (b_count b).
  Proof.
    intros b. unfold k_part, tail_block. destruct rec; cbn; auto.
  Qed.

  Hypothesis Ha : Forall (in_array (di_dims d)) sels.
  Hypothesis Hsz : sized (di_dims d).
  Let dims' := skipn (recd rec) (di_dims d).

  Lemma rec_le : (recd rec <= length (di_dims d))%nat.
  Proof. unfold recd. destruct rec eqn:E; [|lia]. destruct (rec_part E) as [R _]. clear - R. lia. Qed.

  Lemma dims'_len : (length dims' = di_ndim d - recd rec)%nat.
  Proof. unfold dims'. rewrite skipn_length. reflexivity. Qed.

  Lemma some_block : exists b, In b sels.
  Proof. destruct sels as [|b l] eqn:E; [clear - Hn; cbn in Hn; lia|]. exists b. left; auto. Qed.

  Lemma dims_pos : Forall (fun x => 0 < x) (di_dims d).
  Proof.
    destruct some_block as [b Hb]. rewrite Forall_forall in Ha. destruct (Ha b Hb) as (_ & A & _).
    clear - A. induction A; constructor; auto; lia.
  Qed.

  Lemma dims'_bound : 0 < Zprod dims' < 2 ^ 58.
  Proof.
    destruct Hsz as [_ Hp]. pose proof dims_pos as P. unfold dims'.
    unfold recd. destruct rec; cbn [skipn].
    - destruct (di_dims d) as [|x l]; cbn [skipn]; [cbn; lia|].
      pose proof (Forall_inv P) as Px; cbn beta in Px. pose proof (Zprod_pos _ (Forall_inv_tail P)).
      unfold Zprod in Hp; cbn [fold_right] in Hp; fold (Zprod l) in Hp. clear - Px H Hp. nia.
    - pose proof (Zprod_pos _ P). clear - H Hp. lia.
  Qed.

  Lemma dims'_steps : Forall word (dsteps_of dims').
  Proof.
    pose proof dims'_bound as B.
    assert (P : Forall (fun x => 0 < x) dims') by (apply Forall_skipn; exact dims_pos).
    revert P B. generalize dims'. clear. intros l. induction l as [|x l IH]; intros P B; [constructor|].
    rewrite dsteps_of_cons. pose proof (Forall_inv P) as Px; cbn beta in Px. pose proof (Zprod_pos _ (Forall_inv_tail P)).
    unfold Zprod in B; cbn [fold_right] in B; fold (Zprod l) in B.
    constructor; [unfold word; nia|]. apply IH; [eapply Forall_inv_tail; eauto|nia].
  Qed.

  Lemma dims'_rm : Forall (fun b => word (rm dims' (skipn (recd rec) (b_start b))) /\
                                    word (rm dims' (skipn (recd rec) (b_count b)))) sels.
  Proof.
    pose proof dims'_bound as B. apply Forall_forall. intros b Hb.
    rewrite Forall_forall in Ha. specialize (Ha b Hb).
    destruct (skipn_in_array (recd rec) _ _ Ha) as [A1 A2]. fold dims' in A1, A2.
    pose proof (rm_lt _ _ A1). pose proof (rm_le _ _ A2).
    assert (Zlen dims' <= 32).
    { unfold Zlen. rewrite dims'_len. destruct Hsz as [L _]. unfold di_ndim. clear - L. lia. }
    assert (0 <= Zlen dims') by (apply Zlen_nonneg). clear - B H H0 H1 H2. unfold word. split; [lia|nia].
  Qed.

  Lemma inner_starts : Forall (fun b => inner_lt dims' (skipn (recd rec) (b_start b))) sels.
  Proof.
    apply Forall_forall. intros b Hb. rewrite Forall_forall in Ha. specialize (Ha b Hb).
    destruct (skipn_in_array (recd rec) _ _ Ha) as [A1 _]. fold dims' in A1.
    unfold inner_lt. destruct A1 as [|? ? ? ? _ A1]; cbn [tl]; [constructor|].
    induction A1; constructor; auto; lia.
  Qed.

  Lemma short_body : Forall (fun b => inner_short dims' (k_part b)) sels ->
    body_ok rec mul enc (di_dims d) sels.
  Proof.
    intros Hi.
    split; [exact Hn|]. split; [exact mul_part|]. split; [exact Hs|]. split; [exact rec_part|].
    intros E. cbn zeta. fold (recd rec). fold dims'. split.
    - intros E0. pose proof dims'_len as L. rewrite E0 in L. cbn in L.
      unfold enc, enc_of in E. apply andb_prop in E. destruct E as [E _]. apply andb_prop in E.
      destruct E as [_ E]. apply Nat.ltb_lt in E. clear - E L. lia.
    - split; [exact dims'_steps|]. apply Forall_forall. intros b Hb.
      pose proof (proj1 (Forall_forall _ _) Hi b Hb) as Hib.
      pose proof (proj1 (Forall_forall _ _) inner_starts b Hb) as Hst.
      pose proof (proj1 (Forall_forall _ _) dims'_rm b Hb) as [R1 R2].
      unfold inner_short in Hib. rewrite (proj2 (k_part_eq b)) in Hib.
      cbn beta in *. unfold word in *. split; split; auto; [clear - R1; lia|clear - R2; lia].
  Qed.

  Hypothesis Hmul : (1 < length sels)%nat.
  Hypothesis Hen : has cfg CFG_SEL_ENCODE = true.
  Hypothesis Hnd : (1 < di_ndim d - recd rec)%nat.

  Lemma enc_true : mul = true /\ enc = true.
  Proof.
    assert (mul = true) by (unfold mul, mul_of; apply Nat.ltb_lt; auto).
    split; auto. unfold enc, enc_of. rewrite H, Hen.
    replace (1 <? di_ndim d - recd rec)%nat with true by (symmetry; apply Nat.ltb_lt; auto). reflexivity.
  Qed.

  (** The body is the encoded one even when it cannot be decoded. *)
  Lemma mk_wreq_enc :
    mk_wreq cfg did d mdsize sels =
      mkwreq (mkhdr (Z.of_nat HDR + Zlen (body rec true true (di_dims d) sels)) did
                    (flags_of rec true true (has cfg CFG_SEL_DEFLATE)) 0 0)
             (body rec true true (di_dims d) sels) (if rec then 8%nat else 0%nat) mdsize [].
  Proof.
    destruct enc_true as [Em Ee].
    assert (E : (if rec then (di_ndim d - 1)%nat else di_ndim d) = (di_ndim d - recd rec)%nat).
    { unfold recd. destruct rec; clear; lia. }
    unfold mk_wreq. fold rec. fold (mul_of sels). fold mul. rewrite E.
    change (mul && (1 <? di_ndim d - recd rec)%nat && has cfg CFG_SEL_ENCODE) with enc.
    rewrite Em, Ee. cbn [andb].
    assert (Hbd : (if rec then le 8 match sels with b :: _ => hd 0 (b_start b) | [] => 0 end else []) ++
      le 4 (Z.of_nat (length sels)) ++
      words (firstn (di_ndim d - recd rec - 1) (skipn (di_ndim d - (di_ndim d - recd rec)) (di_dsteps d))) ++
      words (encode_words (Some (di_dsteps d)) (if rec then 1%nat else 0%nat) sels) =
      body rec true true (di_dims d) sels).
    { unfold body, selpart. apply (f_equal2 (@app Z)); [destruct rec; reflexivity|].
      apply (f_equal2 (@app Z)); [reflexivity|].
      destruct Hd as (_ & _ & ->). fold (recd rec). rewrite <- dsteps_skipn.
      unfold di_ndim. pose proof rec_le.
      replace (length (di_dims d) - (length (di_dims d) - recd rec))%nat with (recd rec) by (clear - H; lia).
      reflexivity. }
    rewrite Hbd. f_equal. f_equal. rewrite <- Hbd. rewrite !Zlen_app.
    destruct Hd as (_ & _ & ->).
    unfold encode_words, Zlen. rewrite !words_length, !app_length, !map_length, firstn_length, skipn_length, dsteps_of_length.
    unfold di_ndim in *. clear - Hnd. destruct rec; rewrite ?le_length; cbn [recd length] in *; lia.
  Qed.

  Lemma short_needed : forall m,
    decode z d (pre ++ wreq_bytes w ++ post) (Zlen pre) = Ok m ->
    map (fun s => mkblock (ms_start s) (ms_count s)) (me_sels m) = sels ->
    Forall (fun b => inner_short dims' (k_part b)) sels.
  Proof.
    intros m Hm Hms. pose proof mk_wreq_enc as HF.
    assert (Hdf : has cfg CFG_SEL_DEFLATE = false) by (destruct Hz as [E|E]; [clear - E Hmul; lia|exact E]).
    rewrite Hdf in HF.
    pose proof (flags_ok rec true true false) as Hfl. cbn zeta in Hfl.
    set (f := flags_of rec true true false) in *.
    destruct Hfl as (F0 & F1 & F2 & F3 & F4 & F5 & F6).
    set (h := mkhdr (Z.of_nat HDR + Zlen (body rec true true (di_dims d) sels)) did f foff fsize).
    assert (Hwb : wreq_bytes w = enc_hdr h ++ body rec true true (di_dims d) sels).
    { unfold w, wreq_bytes, published. rewrite HF. reflexivity. }
    assert (Hh : hdr_ok h).
    { unfold h, hdr_ok. cbn [h_size h_did h_flag h_foff h_fsize]. rewrite Hwb in Hw. rewrite Zlen_app in Hw.
      unfold Zlen in Hw at 1. rewrite enc_hdr_length in Hw.
      change (Z.of_nat HDR) with 28 in *. unfold coordinate in *.
      assert (0 <= Zlen (body rec true true (di_dims d) sels)) by (apply Zle_0_nat).
      revert Hw Hfo Hfs Hdid F0 H. clear. intros. repeat split; lia. }
    assert (Hd' : dims' <> []).
    { intros E. pose proof dims'_len as L. rewrite E in L. cbn in L. clear - L Hnd. lia. }
    destruct (decode_enc_gen rec (di_dims d) sels ltac:(clear - Hmul Hn; unfold Zlen in *; lia) Hs Hd' dims'_steps dims'_rm
                z d (pre ++ wreq_bytes w ++ post) pre post (Zlen pre) h Hh F1 F2 F3 F4 eq_refl) as (a & b & HE & m' & Hm' & _ & HB).
    { rewrite Hwb, <- app_assoc. reflexivity. }
    { reflexivity. }
    { eauto. }
    rewrite Hm in Hm'. injection Hm' as <-. rewrite Hms in HB.
    unfold enc_result in HE. fold dims' in HE.
    destruct (opt_map (fun b => sel_decode (dsteps_of dims') (rm dims' (skipn (recd rec) (b_start b)))) sels) as [a0|] eqn:E1; [|discriminate].
    destruct (opt_map (fun b => sel_decode (dsteps_of dims') (rm dims' (skipn (recd rec) (b_count b)))) sels) as [b0|] eqn:E2; [|discriminate].
    injection HE as -> ->.
    assert (Hl : length a = length sels /\ length b = length sels).
    { split; eapply opt_map_length; eauto. }
    assert (Hbs : map (fun b => skipn (recd rec) (b_count b)) sels = b).
    { rewrite HB at 1. rewrite map_map. destruct Hl as [L1 L2]. rewrite <- L2 in L1. clear - L1. revert b L1.
      induction a; destruct b; cbn; intros; auto; try lia.
      f_equal; [destruct rec; reflexivity|auto]. }
    assert (HF2 : Forall2 (fun x y => sel_decode (dsteps_of dims') (rm dims' (skipn (recd rec) (b_count x))) = Some y) sels b).
    { apply opt_map_Forall2. exact E2. }
    rewrite <- Hbs in HF2.
    apply Forall_forall. intros x Hx.
    assert (HX : sel_decode (dsteps_of dims') (rm dims' (skipn (recd rec) (b_count x))) = Some (skipn (recd rec) (b_count x))).
    { clear - HF2 Hx. revert HF2 Hx. generalize sels. induction sels0 as [|y l IH]; intros; [destruct Hx|].
      cbn [map] in HF2. inversion HF2; subst. destruct Hx as [->|Hx]; auto. }
    unfold inner_short. rewrite (proj2 (k_part_eq x)).
    pose proof (proj1 (Forall_forall _ _) dims'_rm x Hx) as [_ [R1 R2]].
    pose proof (proj1 (Forall_forall _ _) Hs x Hx) as (_ & L2 & _ & W2).
    apply (sel_decode_encode_only dims' (skipn (recd rec) (b_count x))); auto.
    - apply Forall_skipn. exact dims_pos.
    - unfold dims'. rewrite !skipn_length. unfold di_ndim in L2. clear - L2. lia.
    - apply Forall_skipn. apply word_nonneg. exact W2.
    - clear - R2. lia.
  Qed.
End Entry.

(** ** The properties *)
Lemma not_extendible : forall d sels, ~ extendible d -> is_rec d sels = false.
Proof.
  intros d sels H. unfold is_rec. unfold extendible in H. destruct (di_mdims d) as [|m l]; auto.
  destruct sels; auto. destruct (Z.eqb_spec m UNLIMITED); auto. subst. destruct H. reflexivity.
Qed.

Lemma extendible_rec : forall d r sels, extendible d -> sels <> [] -> in_record r sels ->
  is_rec d sels = true.
Proof.
  intros d r sels H Hne Hr. unfold is_rec, extendible in *. destruct (di_mdims d) as [|m l]; [discriminate|].
  cbn in H. injection H as ->. destruct sels as [|b0 sl]; [congruence|]. rewrite Z.eqb_refl. cbn [andb].
  apply forallb_forall. intros b Hb. unfold in_record in Hr. rewrite Forall_forall in Hr.
  destruct (Hr b Hb) as [H1 H2]. destruct (Hr b0 (or_introl eq_refl)) as [H3 _].
  destruct (b_start b); [discriminate|]. destruct (b_count b); [discriminate|].
  destruct (b_start b0); [discriminate|]. cbn in *.
  injection H1 as ->. injection H2 as ->. injection H3 as ->. rewrite !Z.eqb_refl. reflexivity.
Qed.

Lemma plain_round_trip : forall z cfg did d mdsize sels foff fsize pre post,
  described d -> 0 <= did < 2 ^ 31 -> coordinate foff -> coordinate fsize ->
  0 < Zlen sels < 2 ^ 31 -> Forall (well_shaped (di_ndim d)) sels ->
  (length sels = 1%nat \/ (di_ndim d <= 1)%nat \/ has cfg CFG_SEL_ENCODE = false) ->
  (length sels = 1%nat \/ has cfg CFG_SEL_DEFLATE = false) ->
  let w := published (mk_wreq cfg did d mdsize sels) foff fsize in
  Zlen (wreq_bytes w) < 2 ^ 31 ->
  exists m, decode z d (pre ++ wreq_bytes w ++ post) (Zlen pre) = Ok m /\
    describes m did foff fsize (di_esize d) sels /\
    (~ extendible d -> me_dsize m = di_esize d * count_elems sels).
Proof.
  intros z cfg did d mdsize sels foff fsize pre post Hd Hdid Hfo Hfs Hn Hs Hp Hz w Hw.
  destruct (entry_describes z cfg did d mdsize sels foff fsize pre post Hd Hdid Hfo Hfs Hn Hs Hz Hw)
    as (m & A & B & C).
  - apply plain_body; auto.
  - exists m. split; [exact A|]. split; [exact B|]. intros E. apply C. apply not_extendible; auto.
Qed.

Lemma encoded_round_trip : forall z cfg did d mdsize sels foff fsize pre post,
  described d -> 0 <= did < 2 ^ 31 -> coordinate foff -> coordinate fsize ->
  0 < Zlen sels < 2 ^ 31 -> Forall (well_shaped (di_ndim d)) sels ->
  (length sels = 1%nat \/ has cfg CFG_SEL_DEFLATE = false) ->
  sized (di_dims d) -> Forall (in_array (di_dims d)) sels ->
  ~ extendible d -> Forall (inner_short (di_dims d)) sels ->
  let w := published (mk_wreq cfg did d mdsize sels) foff fsize in
  Zlen (wreq_bytes w) < 2 ^ 31 ->
  exists m, decode z d (pre ++ wreq_bytes w ++ post) (Zlen pre) = Ok m /\
    describes m did foff fsize (di_esize d) sels /\
    me_dsize m = di_esize d * count_elems sels.
Proof.
  intros z cfg did d mdsize sels foff fsize pre post Hd Hdid Hfo Hfs Hn Hs Hz Hsz Ha He Hi w Hw.
  pose proof (not_extendible d sels He) as R.
  destruct (entry_describes z cfg did d mdsize sels foff fsize pre post Hd Hdid Hfo Hfs Hn Hs Hz Hw)
    as (m & A & B & C).
  - eapply short_body; eauto. unfold k_part. rewrite R. exact Hi.
  - exists m. auto.
Qed.

Lemma encoded_only_short : forall z cfg did d mdsize sels foff fsize pre post m,
  described d -> 0 <= did < 2 ^ 31 -> coordinate foff -> coordinate fsize ->
  1 < Zlen sels < 2 ^ 31 -> Forall (well_shaped (di_ndim d)) sels ->
  has cfg CFG_SEL_ENCODE = true -> has cfg CFG_SEL_DEFLATE = false -> (1 < di_ndim d)%nat ->
  sized (di_dims d) -> Forall (in_array (di_dims d)) sels -> ~ extendible d ->
  let w := published (mk_wreq cfg did d mdsize sels) foff fsize in
  Zlen (wreq_bytes w) < 2 ^ 31 ->
  decode z d (pre ++ wreq_bytes w ++ post) (Zlen pre) = Ok m ->
  describes m did foff fsize (di_esize d) sels ->
  Forall (inner_short (di_dims d)) sels.
Proof.
  intros z cfg did d mdsize sels foff fsize pre post m Hd Hdid Hfo Hfs Hn Hs Hen Hz Hnd Hsz Ha He w Hw Hm Hds.
  pose proof (not_extendible d sels He) as R.
  assert (Hn' : 0 < Zlen sels < 2 ^ 31) by (clear - Hn; lia).
  assert (Hl : (1 < length sels)%nat) by (clear - Hn; unfold Zlen in Hn; lia).
  pose proof (short_needed z cfg did d mdsize sels foff fsize pre post Hd Hdid Hfo Hfs Hn' Hs (or_intror Hz) Hw
               Ha Hsz Hl Hen) as K.
  rewrite R in K. cbn [recd skipn] in K. rewrite Nat.sub_0_r in K. specialize (K Hnd m Hm).
  destruct Hds as (_ & _ & _ & Hb & _). specialize (K Hb).
  revert K. unfold k_part. rewrite R. auto.
Qed.

Lemma record_round_trip : forall z cfg did d mdsize sels r foff fsize pre post,
  described d -> 0 <= did < 2 ^ 31 -> coordinate foff -> coordinate fsize ->
  0 < Zlen sels < 2 ^ 31 -> Forall (well_shaped (di_ndim d)) sels ->
  (length sels = 1%nat \/ has cfg CFG_SEL_DEFLATE = false) ->
  extendible d -> in_record r sels ->
  (length sels = 1%nat \/ (di_ndim d <= 1)%nat \/ has cfg CFG_SEL_ENCODE = false \/
   (sized (di_dims d) /\ Forall (in_array (di_dims d)) sels /\
    Forall (fun b => inner_short (tl (di_dims d)) (tail_block b)) sels)) ->
  let w := published (mk_wreq cfg did d mdsize sels) foff fsize in
  Zlen (wreq_bytes w) < 2 ^ 31 ->
  exists m, decode z d (pre ++ wreq_bytes w ++ post) (Zlen pre) = Ok m /\
    describes m did foff fsize (di_esize d) sels.
Proof.
  intros z cfg did d mdsize sels r foff fsize pre post Hd Hdid Hfo Hfs Hn Hs Hz He Hr Hp w Hw.
  assert (Hne : sels <> []) by (intros ->; clear - Hn; cbn in Hn; lia).
  pose proof (extendible_rec d r sels He Hne Hr) as R.
  destruct (entry_describes z cfg did d mdsize sels foff fsize pre post Hd Hdid Hfo Hfs Hn Hs Hz Hw)
    as (m & A & B & _); [|eauto].
  destruct Hp as [Hp|[Hp|[Hp|(P1 & P2 & P3)]]]; try (apply plain_body; auto; fail).
  eapply short_body; eauto. unfold k_part. rewrite R. cbn [recd]. 
  destruct (di_dims d) as [|x l]; [|exact P3].
  cbn [skipn]. cbn [tl] in P3. exact P3.
Qed.
