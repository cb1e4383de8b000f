(** Round trips of the metadata entries. *)
From Verif Require Import Base BaseProofs Spec MetaModel GeomProofs.
From Coq Require Import ZifyBool ZifyNat ZifyN.

(** ** Offset encoding *)

(** All coordinates but the first are below the corresponding size. *)
Definition inner_lt (dims c : list Z) : Prop := Forall2 (fun d x => x < d) (tl dims) (tl c).

Lemma Forall2_lt_rm : forall dims c, nonneg c -> Forall2 (fun d x => x < d) dims c ->
  0 <= rm dims c < Zprod dims.
Proof.
  intros dims c Hn H. revert Hn. induction H; intros Hn; cbn [rm].
  - cbn; lia.
  - inversion Hn; subst. specialize (IHForall2 H4).
    unfold Zprod; cbn [fold_right]; fold (Zprod l). nia.
Qed.

Lemma rm_nonneg : forall dims c, nonneg dims -> nonneg c -> 0 <= rm dims c.
Proof.
  induction dims; destruct c; cbn [rm]; intros; try lia.
  inversion H; inversion H0; subst. pose proof (Zprod_nonneg _ H4).
  specialize (IHdims c H4 H8). nia.
Qed.

Lemma sel_decode_encode : forall dims c, length c = length dims -> nonneg c ->
  inner_lt dims c -> rm dims c < 2 ^ 64 ->
  sel_decode (dsteps_of dims) (rm dims c) = Some c.
Proof.
  induction dims as [|d dims IH]; destruct c as [|x c]; intros Hl Hn Hi Hb; cbn in Hl; try lia; auto.
  rewrite dsteps_of_cons. cbn [sel_decode rm].
  unfold inner_lt in Hi. cbn [tl] in Hi. inversion Hn; subst.
  pose proof (Forall2_lt_rm _ _ H2 Hi) as Hr. cbn [rm] in Hb.
  destruct (Z.eqb_spec (Zprod dims) 0); [lia|].
  assert (Q : Z.quot (x * Zprod dims + rm dims c) (Zprod dims) = x).
  { rewrite Z.quot_div_nonneg by nia. symmetry. apply Z.div_unique with (r := rm dims c); lia. }
  assert (R : Z.rem (x * Zprod dims + rm dims c) (Zprod dims) = rm dims c).
  { rewrite Z.rem_mod_nonneg by nia. symmetry. apply Z.mod_unique with (q := x); lia. }
  rewrite Q, R, IH; auto; try lia.
  - unfold u64. rewrite Z.mod_small by nia. reflexivity.
  - unfold inner_lt. inversion Hi; subst; cbn; auto.
Qed.

(** The converse: only vectors whose inner coordinates are below the sizes survive. *)
Lemma sel_decode_encode_only : forall dims c, Forall (fun d => 0 < d) dims ->
  length c = length dims -> nonneg c -> rm dims c < 2 ^ 64 ->
  sel_decode (dsteps_of dims) (rm dims c) = Some c -> inner_lt dims c.
Proof.
  induction dims as [|d dims IH]; destruct c as [|x c]; intros Hd Hl Hn Hb H; cbn in Hl; try lia.
  - constructor.
  - unfold inner_lt. cbn [tl]. rewrite dsteps_of_cons in H. cbn [sel_decode rm] in H.
    cbn [rm] in Hb. inversion Hd; subst. inversion Hn; subst.
    assert (P : 0 < Zprod dims) by (apply Zprod_pos; auto).
    assert (Hr0 : 0 <= rm dims c).
    { apply rm_nonneg; auto. revert H3. unfold nonneg. apply Forall_impl. intros. lia. }
    destruct (Z.eqb_spec (Zprod dims) 0); [lia|].
    destruct (sel_decode (dsteps_of dims) _) as [cs|] eqn:E; [|discriminate].
    injection H as Hxq Hcs. subst cs.
    assert (HX : x = (x * Zprod dims + rm dims c) / Zprod dims).
    { rewrite <- Hxq at 1. rewrite Z.quot_div_nonneg by nia. unfold u64.
      apply Z.mod_small. split; [apply Z.div_pos; nia|].
      apply Z.div_lt_upper_bound; nia. }
    rewrite Z.add_comm, Z.div_add in HX by lia.
    assert (Hr : rm dims c < Zprod dims).
    { assert (Hz : rm dims c / Zprod dims = 0) by lia.
      apply Z.div_small_iff in Hz; lia. }
    rewrite Z.rem_mod_nonneg in E by nia.
    rewrite Z.add_comm, Z.mod_add, Z.mod_small in E by lia.
    apply IH in E; auto; try lia.
    destruct dims as [|d1 dims], c as [|x1 c]; cbn in Hl; try lia; constructor; auto.
    cbn [rm] in Hr. unfold Zprod in Hr; cbn [fold_right] in Hr; fold (Zprod dims) in Hr.
    pose proof (Forall_inv_tail H3) as T3. pose proof (Forall_inv_tail H5) as T5.
    assert (0 < Zprod dims) by (apply Zprod_pos; auto).
    assert (0 <= rm dims c).
    { apply rm_nonneg; auto. revert T3. unfold nonneg. apply Forall_impl. intros. lia. }
    nia.
Qed.

Lemma dsteps_last : forall dims, dims <> [] ->
  firstn (length dims - 1) (dsteps_of dims) ++ [1] = dsteps_of dims.
Proof.
  induction dims as [|d dims IH]; intros H; [congruence|].
  rewrite dsteps_of_cons. destruct dims as [|d1 dims]; [reflexivity|].
  replace (length (d :: d1 :: dims) - 1)%nat with (S (length (d1 :: dims) - 1)) by (cbn; lia).
  cbn [firstn app]. f_equal. apply IH. congruence.
Qed.
Lemma dsteps_skipn : forall k dims, skipn k (dsteps_of dims) = dsteps_of (skipn k dims).
Proof.
  induction k; intros; [reflexivity|]. destruct dims; [reflexivity|].
  rewrite dsteps_of_cons. cbn [skipn]. auto.
Qed.

(** ** Headers *)
Definition hdr_ok (h : hdr) : Prop :=
  0 < h_size h < 2 ^ 31 /\ 0 <= h_did h < 2 ^ 31 /\ 0 <= h_flag h < 2 ^ 31 /\
  0 <= h_foff h < 2 ^ 63 /\ 0 <= h_fsize h < 2 ^ 63.

Lemma enc_hdr_length : forall h, length (enc_hdr h) = HDR.
Proof. intros. unfold enc_hdr. rewrite !app_length, !le_length. reflexivity. Qed.

Lemma rd_hdr_at : forall buf pre h post off, buf = pre ++ enc_hdr h ++ post -> off = Zlen pre ->
  hdr_ok h -> rd_hdr buf off = Some h.
Proof.
  intros buf pre h post off Hb Ho (H1 & H2 & H3 & H4 & H5). unfold rd_hdr.
  erewrite rd_at; eauto using enc_hdr_length.
  unfold enc_hdr.
  assert (H : forall a b c d e : list Z, length a = 4%nat -> length b = 4%nat -> length c = 4%nat ->
    length d = 8%nat -> length e = 8%nat ->
    let l := a ++ b ++ c ++ d ++ e in
    firstn 4 l = a /\ firstn 4 (skipn 4 l) = b /\ firstn 4 (skipn 8 l) = c /\
    firstn 8 (skipn 12 l) = d /\ firstn 8 (skipn 20 l) = e).
  { clear. intros a b c d e Ha Hb Hc Hd He.
    do 5 (destruct a as [|? a]; try discriminate). do 5 (destruct b as [|? b]; try discriminate).
    do 5 (destruct c as [|? c]; try discriminate). do 9 (destruct d as [|? d]; try discriminate).
    do 9 (destruct e as [|? e]; try discriminate). repeat split; reflexivity. }
  destruct (H (le 4 (h_size h)) (le 4 (h_did h)) (le 4 (h_flag h)) (le 8 (h_foff h)) (le 8 (h_fsize h)))
    as (E1 & E2 & E3 & E4 & E5); try apply le_length.
  rewrite E1, E2, E3, E4, E5. rewrite !sle_le4, !sle_le8 by lia. destruct h; reflexivity.
Qed.

(** ** Entry bodies *)

(** The bytes after the header of an entry with its own selection. *)
Definition recnum_of (sels : list block) : Z :=
  match sels with b :: _ => hd 0 (b_start b) | [] => 0 end.
Definition selpart (rec mul enc : bool) (dims : list Z) (sels : list block) : list Z :=
  (if mul then le 4 (Zlen sels) else []) ++
  (if enc then words (firstn (length dims - (if rec then 1 else 0) - 1)
                             (dsteps_of (skipn (if rec then 1 else 0) dims))) else []) ++
  words (encode_words (if enc then Some (dsteps_of dims) else None) (if rec then 1%nat else 0%nat) sels).
Definition body (rec mul enc : bool) (dims : list Z) (sels : list block) : list Z :=
  (if rec then le 8 (recnum_of sels) else []) ++ selpart rec mul enc dims sels.

Definition word (w : Z) : Prop := 0 <= w < 2 ^ 63.

Definition blk_ok (ndim : nat) (b : block) : Prop :=
  length (b_start b) = ndim /\ length (b_count b) = ndim /\
  Forall word (b_start b) /\ Forall word (b_count b).

(** Well-formedness of the selection of an entry. *)
Definition body_ok (rec mul enc : bool) (dims : list Z) (sels : list block) : Prop :=
  0 < Zlen sels < 2 ^ 31 /\
  (mul = false -> length sels = 1%nat) /\
  Forall (blk_ok (length dims)) sels /\
  (rec = true -> (0 < length dims)%nat /\
     Forall (fun b => hd 0 (b_count b) = 1 /\ hd 0 (b_start b) = recnum_of sels) sels) /\
  (enc = true ->
     let dims' := skipn (if rec then 1 else 0) dims in
     dims' <> [] /\ Forall word (dsteps_of dims') /\
     Forall (fun b =>
       (inner_lt dims' (skipn (if rec then 1 else 0) (b_start b)) /\
        rm dims' (skipn (if rec then 1 else 0) (b_start b)) < 2 ^ 63) /\
       (inner_lt dims' (skipn (if rec then 1 else 0) (b_count b)) /\
        rm dims' (skipn (if rec then 1 else 0) (b_count b)) < 2 ^ 63)) sels).

Lemma cut_flat_map : forall (f : block -> list Z) k sels,
  Forall (fun b => length (f b) = k) sels -> cut (length sels) k (flat_map f sels) = map f sels.
Proof.
  induction sels; intros H; [reflexivity|]. inversion H; subst.
  cbn [length cut flat_map map]. rewrite firstn_app, firstn_all, Nat.sub_diag.
  cbn [firstn]. rewrite app_nil_r, skipn_app, skipn_all, Nat.sub_diag. cbn [skipn app].
  rewrite IHsels; auto.
Qed.

Lemma flat_map_length_const : forall (f : block -> list Z) k sels,
  Forall (fun b => length (f b) = k) sels -> length (flat_map f sels) = (length sels * k)%nat.
Proof.
  intros. apply flat_map_const_length. rewrite Forall_forall in H. auto.
Qed.

Lemma opt_map_map : forall A B C (f : B -> option C) (g : A -> B) (h : A -> C) l,
  Forall (fun a => f (g a) = Some (h a)) l -> opt_map f (map g l) = Some (map h l).
Proof.
  induction l; intros; [reflexivity|]. inversion H; subst. cbn. rewrite H2, IHl; auto.
Qed.

Lemma Forall_skipn : forall A (P : A -> Prop) k l, Forall P l -> Forall P (skipn k l).
Proof.
  induction k; intros; auto. destruct l; [constructor|]. inversion H; subst. cbn. auto.
Qed.

Lemma word_u64 : forall w, word w -> 0 <= w < 2 ^ 64.
Proof. unfold word. intros. lia. Qed.
Lemma word_nonneg : forall l, Forall word l -> nonneg l.
Proof. intros l. apply Forall_impl. unfold word. intros. lia. Qed.

Lemma Forall_flat_map : forall A B (P : B -> Prop) (f : A -> list B) l,
  Forall (fun a => Forall P (f a)) l -> Forall P (flat_map f l).
Proof. induction 1; cbn; auto. apply Forall_app; auto. Qed.

Lemma rm_word : forall dims c, Forall word (dsteps_of dims) -> length c = length dims ->
  Forall word c -> 0 <= rm dims c.
Proof.
  intros dims c Hd Hl Hc. apply word_nonneg in Hd. apply word_nonneg in Hc.
  rewrite <- sel_encode_rm. revert Hl Hd Hc. generalize (dsteps_of_length dims).
  generalize (dsteps_of dims). intros ds E Hl Hd Hc.
  assert (Hl' : length ds = length c) by lia. clear E Hl. revert c Hl' Hc.
  induction ds; destruct c; cbn; intros; try lia.
  inversion Hd; inversion Hc; subst. specialize (IHds H2 c ltac:(lia) H6). nia.
Qed.

Section DecodeSels.
  Variables (rec enc : bool) (dims : list Z) (sels : list block).
  Let k := if rec then 1%nat else 0%nat.
  Let encdim := (length dims - k)%nat.
  Hypothesis Hne : 0 < Zlen sels < 2 ^ 31.
  Hypothesis Hb : Forall (blk_ok (length dims)) sels.
  Hypothesis Hr : rec = true -> (0 < length dims)%nat.
  Hypothesis He : enc = true ->
     let dims' := skipn k dims in
     dims' <> [] /\ Forall word (dsteps_of dims') /\
     Forall (fun b =>
       (inner_lt dims' (skipn k (b_start b)) /\ rm dims' (skipn k (b_start b)) < 2 ^ 63) /\
       (inner_lt dims' (skipn k (b_count b)) /\ rm dims' (skipn k (b_count b)) < 2 ^ 63)) sels.

  Lemma decode_sels_ok : forall buf pre post pos,
    buf = pre ++ selpart rec false enc dims sels ++ post -> pos = Zlen pre ->
    decode_sels buf pos enc encdim (length sels) =
      Some (map (fun b => skipn k (b_start b)) sels, map (fun b => skipn k (b_count b)) sels).
  Proof using Hne Hb Hr He.
    intros buf pre post pos Hbuf Hpos. unfold decode_sels. unfold selpart in Hbuf. cbn [app] in Hbuf.
    assert (Hk : (length (skipn k dims) = encdim)%nat) by (rewrite skipn_length; reflexivity).
    destruct enc.
    - destruct (He eq_refl) as (Hd & Hw & HF). fold k in Hbuf.
      assert (Hge : (1 <= encdim)%nat) by (rewrite <- Hk; destruct (skipn k dims); cbn; [congruence|lia]).
      unfold encode_words in Hbuf. rewrite dsteps_skipn in Hbuf.
      replace (length dims - k - 1)%nat with (encdim - 1)%nat in Hbuf by lia.
      rewrite words_app in Hbuf.
      assert (Hf : Forall word (firstn (encdim - 1) (dsteps_of (skipn k dims)))).
      { rewrite <- (firstn_skipn (encdim - 1)) in Hw. apply Forall_app in Hw. tauto. }
      assert (Hlf : length (firstn (encdim - 1) (dsteps_of (skipn k dims))) = (encdim - 1)%nat).
      { rewrite firstn_length, dsteps_of_length. lia. }
      erewrite rd_words_at with (pre := pre) (ws := firstn (encdim - 1) (dsteps_of (skipn k dims)));
        [|rewrite Hbuf, <- !app_assoc; reflexivity|auto|auto|revert Hf; apply Forall_impl, word_u64].
      assert (Hm : map (to_signed 8) (firstn (encdim - 1) (dsteps_of (skipn k dims))) =
                   firstn (encdim - 1) (dsteps_of (skipn k dims))).
      { rewrite <- map_id. apply map_ext_in. intros w Hin. rewrite Forall_forall in Hf.
        apply to_signed8_id. apply Hf in Hin. exact Hin. }
      rewrite Hm. replace (encdim - 1)%nat with (length (skipn k dims) - 1)%nat by lia.
      rewrite dsteps_last by auto.
      assert (Hs : Forall word (map (fun b => rm (skipn k dims) (skipn k (b_start b))) sels) /\
                   Forall word (map (fun b => rm (skipn k dims) (skipn k (b_count b))) sels)).
      { rewrite !Forall_map. split; rewrite Forall_forall; intros b Hin;
          pose proof (proj1 (Forall_forall _ _) HF b Hin) as HFb; cbn beta in HFb;
          destruct (proj1 (Forall_forall _ _) Hb b Hin) as (L1 & L2 & W1 & W2);
          (split; [apply rm_word; auto; [rewrite !skipn_length; lia|apply Forall_skipn; auto]|tauto]). }
      assert (He1 : forall f : block -> list Z,
        map (fun b => sel_encode (dsteps_of (skipn k dims)) (f b)) sels =
        map (fun b => rm (skipn k dims) (f b)) sels).
      { intros. apply map_ext. intros. apply sel_encode_rm. }
      rewrite !He1 in Hbuf. destruct Hs as [Hs1 Hs2].
      erewrite rd_words_at with
        (pre := pre ++ words (firstn (length (skipn k dims) - 1) (dsteps_of (skipn k dims))))
        (ws := map (fun b => rm (skipn k dims) (skipn k (b_start b))) sels);
        [|rewrite Hbuf, Hk, <- !app_assoc; reflexivity
         |rewrite Hpos; unfold Zlen; rewrite !app_length, !words_length, Hk, Hlf; lia
         |rewrite map_length; auto
         |revert Hs1; apply Forall_impl, word_u64].
      erewrite rd_words_at with
        (pre := pre ++ words (firstn (length (skipn k dims) - 1) (dsteps_of (skipn k dims))) ++
                words (map (fun b => rm (skipn k dims) (skipn k (b_start b))) sels))
        (ws := map (fun b => rm (skipn k dims) (skipn k (b_count b))) sels);
        [|rewrite Hbuf, Hk, <- !app_assoc; reflexivity
         |rewrite Hpos; unfold Zlen; rewrite !app_length, !words_length, map_length, Hk, Hlf; lia
         |rewrite map_length; auto
         |revert Hs2; apply Forall_impl, word_u64].
      assert (Hd1 : forall f : block -> list Z,
        Forall (fun b => length (f b) = length (skipn k dims) /\ Forall word (f b) /\
                 inner_lt (skipn k dims) (f b) /\ rm (skipn k dims) (f b) < 2 ^ 63) sels ->
        opt_map (fun w => sel_decode (dsteps_of (skipn k dims)) (to_signed 8 w))
                (map (fun b => rm (skipn k dims) (f b)) sels) = Some (map f sels)).
      { intros f Hf1. apply opt_map_map. rewrite Forall_forall. intros b Hin.
        destruct (proj1 (Forall_forall _ _) Hf1 b Hin) as (F1 & F2 & F3 & F4).
        assert (0 <= rm (skipn k dims) (f b)) by (apply rm_word; auto).
        rewrite to_signed8_id by lia.
        apply sel_decode_encode; auto; [apply word_nonneg; auto|lia]. }
      rewrite !Hd1; auto; rewrite Forall_forall; intros b Hin;
        pose proof (proj1 (Forall_forall _ _) HF b Hin) as HFb; cbn beta in HFb;
        destruct (proj1 (Forall_forall _ _) Hb b Hin) as (L1 & L2 & W1 & W2);
        (repeat split; [rewrite !skipn_length; lia|apply Forall_skipn; auto|tauto|tauto]).
    - cbn [app] in Hbuf. fold k in Hbuf. unfold encode_words in Hbuf. rewrite words_app in Hbuf.
      assert (L1 : Forall (fun b => length (skipn k (b_start b)) = encdim) sels).
      { revert Hb. apply Forall_impl. intros b (L1 & L2 & _). rewrite skipn_length, L1. reflexivity. }
      assert (L2 : Forall (fun b => length (skipn k (b_count b)) = encdim) sels).
      { revert Hb. apply Forall_impl. intros b (_ & L2 & _). rewrite skipn_length, L2. reflexivity. }
      assert (W1 : Forall word (flat_map (fun b => skipn k (b_start b)) sels)).
      { apply Forall_flat_map. revert Hb. apply Forall_impl. intros b (_ & _ & W & _).
        apply Forall_skipn; auto. }
      assert (W2 : Forall word (flat_map (fun b => skipn k (b_count b)) sels)).
      { apply Forall_flat_map. revert Hb. apply Forall_impl. intros b (_ & _ & _ & W).
        apply Forall_skipn; auto. }
      pose proof (flat_map_length_const _ _ _ L1) as N1.
      pose proof (flat_map_length_const _ _ _ L2) as N2.
      erewrite rd_words_at with (pre := pre) (ws := flat_map (fun b => skipn k (b_start b)) sels);
        [|rewrite Hbuf, <- !app_assoc; reflexivity|auto|auto|revert W1; apply Forall_impl, word_u64].
      erewrite rd_words_at with (pre := pre ++ words (flat_map (fun b => skipn k (b_start b)) sels))
        (ws := flat_map (fun b => skipn k (b_count b)) sels);
        [|rewrite Hbuf, <- !app_assoc; reflexivity
         |rewrite Hpos; unfold Zlen; rewrite !app_length, !words_length, N1; lia|auto
         |revert W2; apply Forall_impl, word_u64].
      rewrite !cut_flat_map by auto. reflexivity.
  Qed.
End DecodeSels.

Definition dsize_of (esize : Z) (encdim : nat) (ms : list msel) : Z :=
  let lst := last ms (mkmsel [] [] 0) in
  esize * Zprod (firstn encdim (ms_count lst)) + ms_doff lst.

(** An entry carrying its own selection decodes to that selection. *)
Lemma decode_ok : forall z dip buf pre post off h rec mul enc dims sels,
  hdr_ok h ->
  has (h_flag h) FLAG_REC = rec -> has (h_flag h) FLAG_MUL_SEL = mul ->
  has (h_flag h) FLAG_SEL_ENCODE = enc -> has (h_flag h) FLAG_SEL_DEFLATE = false ->
  length dims = di_ndim dip ->
  body_ok rec mul enc dims sels ->
  buf = pre ++ enc_hdr h ++ body rec mul enc dims sels ++ post -> off = Zlen pre ->
  decode z dip buf off =
    Ok (mkmentry h (add_doffs (di_esize dip) 0 sels)
          (dsize_of (di_esize dip) (di_ndim dip - (if rec then 1 else 0))
                    (add_doffs (di_esize dip) 0 sels))).
Proof.
  intros z dip buf pre post off h rec mul enc dims sels Hh Fr Fm Fe Fd Hnd Hbo Hbuf Hoff.
  destruct Hbo as (Hne & Hmul & Hb & Hr & He).
  unfold decode. rewrite (rd_hdr_at _ _ _ _ _ Hbuf Hoff Hh). cbn [or_ub bind].
  destruct (Z.leb_spec (h_size h) 0); [destruct Hh; lia|].
  rewrite Fr, Fm, Fe, Fd, andb_false_r, <- Hnd.
  replace (rec && (length dims =? 0)%nat) with false
    by (destruct rec; cbn; [destruct (Hr eq_refl); destruct (Nat.eqb_spec (length dims) 0); lia|auto]).
  unfold body in Hbuf.
  assert (Hrec : (if rec then or_ub (rd_u64 buf (off + Z.of_nat HDR)) else Ok 0) =
                 Ok (if rec then recnum_of sels else 0)).
  { destruct rec; [|reflexivity].
    erewrite rd_u64_at with (pre := pre ++ enc_hdr h) (z := recnum_of sels);
      [reflexivity|rewrite Hbuf, <- !app_assoc; reflexivity
      |rewrite Hoff; unfold Zlen; rewrite !app_length, enc_hdr_length; lia|].
    apply word_u64. destruct (Hr eq_refl) as [H0 _].
    destruct sels as [|b sels]; cbn; [unfold word; lia|].
    inversion Hb; subst. destruct H3 as (L & _ & W & _).
    destruct (b_start b); cbn in *; [lia|]. inversion W; auto. }
  rewrite Hrec. cbn [bind].
  set (p2 := if rec then off + Z.of_nat HDR + 8 else off + Z.of_nat HDR).
  set (q2 := pre ++ enc_hdr h ++ (if rec then le 8 (recnum_of sels) else [])).
  assert (Hp2 : p2 = Zlen q2).
  { subst p2 q2. rewrite Hoff. unfold Zlen. rewrite !app_length, enc_hdr_length.
    destruct rec; rewrite ?le_length; cbn [length]; lia. }
  unfold selpart in Hbuf.
  assert (Hnsel : (if mul then or_ub (rd_i32 buf p2) else Ok 1) = Ok (Zlen sels)).
  { destruct mul.
    - erewrite rd_i32_at with (pre := q2) (z := Zlen sels); [reflexivity| |auto|lia].
      rewrite Hbuf. subst q2. rewrite <- !app_assoc. reflexivity.
    - unfold Zlen. rewrite (Hmul eq_refl). reflexivity. }
  rewrite Hnsel. cbn [bind].
  set (p3 := if mul then p2 + 4 else p2).
  destruct (Z.leb_spec (Zlen sels) 0); [lia|].
  replace (if rec then (length dims - 1)%nat else length dims) with
    (length dims - (if rec then 1 else 0))%nat by (destruct rec; lia).
  replace (enc && (length dims - (if rec then 1 else 0) =? 0)%nat) with false.
  2:{ destruct enc; cbn; auto. destruct (He eq_refl) as (Hd & _).
      assert (length (skipn (if rec then 1 else 0) dims) <> 0)%nat
        by (destruct (skipn _ dims); cbn; congruence).
      rewrite skipn_length in H1. destruct (Nat.eqb_spec (length dims - (if rec then 1 else 0)) 0); lia. }
  cbn [bind fst snd].
  replace (Z.to_nat (Zlen sels)) with (length sels) by (unfold Zlen; lia).
  erewrite decode_sels_ok with
    (pre := q2 ++ (if mul then le 4 (Zlen sels) else [])) (post := post) (rec := rec);
    auto.
  4:{ subst p3. rewrite Zlen_app, <- Hp2. destruct mul; unfold Zlen; rewrite ?le_length; cbn [length]; lia. }
  3:{ rewrite Hbuf. subst q2. unfold selpart. cbn [app]. rewrite <- !app_assoc. reflexivity. }
  2:{ intros E. destruct (Hr E); auto. }
  cbn [or_ub bind fst snd].
  match goal with |- Ok (mkmentry h (add_doffs _ 0 ?bs) _) = _ => assert (Hbs : bs = sels) end.
  { clear - Hb Hr. revert Hb Hr. generalize (recnum_of sels). intros rn Hb Hr.
    assert (Hr' : rec = true -> (0 < length dims)%nat /\
      Forall (fun b => hd 0 (b_count b) = 1 /\ hd 0 (b_start b) = rn) sels) by (intros; auto).
    clear Hr. induction Hb as [|b sels Hbk Hb IH]; [reflexivity|].
    cbn [map combine fst snd]. rewrite IH.
    - f_equal. destruct rec.
      + destruct (Hr' eq_refl) as [Hl HF]. inversion HF; subst. destruct H1 as [C S].
        destruct Hbk as (L1 & L2 & _). destruct b as [bs bc]. cbn in *.
        destruct bs, bc; cbn in *; try lia. subst. reflexivity.
      + destruct b; reflexivity.
    - intros E. destruct (Hr' E) as [Hl HF]. inversion HF; subst. auto. }
  rewrite Hbs. reflexivity.
Qed.
