(** The request queue of one process represents the list of writes made. *)
From Verif Require Import Base BaseProofs Spec MetaModel QueueModel FlushModel IndexModel GeomProofs MetaProofs.
From Coq Require Import ZifyBool ZifyNat ZifyN.

(** ** Plain requests *)
Definition recd (rec : bool) : nat := if rec then 1%nat else 0%nat.
Definition enc_of (cfg : Z) (rec mul : bool) (ndim : nat) : bool :=
  mul && (1 <? ndim - recd rec)%nat && has cfg CFG_SEL_ENCODE.
Definition mul_of (sels : list block) : bool := (1 <? length sels)%nat.
Definition flags_of (rec mul enc dfl : bool) : Z :=
  Z.lor (if rec then FLAG_REC else 0)
  (Z.lor (if mul then FLAG_MUL_SEL else 0)
  (Z.lor (if enc then FLAG_SEL_ENCODE else 0) (if dfl then FLAG_SEL_DEFLATE else 0))).

(** What the constructor needs from the dataset description. *)
Definition info_ok (cfg : Z) (d : dinfo) : Prop :=
  0 < di_esize d /\ length (di_mdims d) = length (di_dims d) /\
  (has cfg CFG_SEL_ENCODE = true -> di_dsteps d = dsteps_of (di_dims d)).

Lemma is_rec_ndim : forall cfg d sels, info_ok cfg d -> is_rec d sels = true -> (0 < di_ndim d)%nat.
Proof.
  intros cfg d sels (_ & L & _) H. unfold is_rec in H. unfold di_ndim.
  destruct (di_mdims d); [discriminate|]. cbn in L. lia.
Qed.

Lemma is_rec_blocks : forall d sels, is_rec d sels = true ->
  sels <> [] /\ Forall (fun b => hd 0 (b_count b) = 1 /\ hd 0 (b_start b) = recnum_of sels) sels.
Proof.
  intros d sels H. unfold is_rec in H. destruct (di_mdims d); [discriminate|].
  destruct sels as [|b0 sels]; [discriminate|]. split; [congruence|].
  apply andb_prop in H. destruct H as [_ H].
  rewrite forallb_forall in H. rewrite Forall_forall. intros b Hb. specialize (H b Hb).
  cbn [recnum_of]. lia.
Qed.

Lemma selpart_length : forall rec mul enc dims sels,
  body_ok rec mul enc dims sels ->
  Zlen (selpart rec mul enc dims sels) =
    (if mul then 4 else 0) +
    (if enc then 8 * (Z.of_nat (length dims - recd rec) - 1 + Zlen sels * 2)
     else 8 * (Z.of_nat (length dims - recd rec) * Zlen sels * 2)).
Proof.
  intros rec mul enc dims sels (Hne & _ & Hb & _ & He). unfold selpart.
  rewrite !Zlen_app. fold (recd rec).
  assert (A : Zlen (if mul then le 4 (Zlen sels) else []) = (if mul then 4 else 0)) by
    (destruct mul; unfold Zlen; rewrite ?le_length; reflexivity).
  rewrite A. destruct enc.
  - destruct (He eq_refl) as (Hd & _). fold (recd rec) in Hd.
    assert (1 <= length dims - recd rec)%nat.
    { rewrite <- (skipn_length (recd rec) dims). destruct (skipn (recd rec) dims); cbn; [congruence|lia]. }
    unfold encode_words. unfold Zlen.
    rewrite !words_length, !app_length, !map_length, firstn_length, dsteps_of_length, skipn_length. lia.
  - unfold encode_words. unfold Zlen. rewrite !words_length, !app_length.
    assert (L : forall f : block -> list Z, Forall (fun b => length (f b) = length dims - recd rec)%nat sels ->
      length (flat_map f sels) = (length sels * (length dims - recd rec))%nat).
    { intros. apply flat_map_length_const; auto. }
    rewrite !L; [cbn [length]; nia| |];
      (revert Hb; apply Forall_impl; intros b (L1 & L2 & _); rewrite skipn_length; unfold recd in *; lia).
Qed.

Lemma body_length : forall rec mul enc dims sels,
  Zlen (body rec mul enc dims sels) = (if rec then 8 else 0) + Zlen (selpart rec mul enc dims sels).
Proof.
  intros. unfold body. rewrite Zlen_app. f_equal. destruct rec; unfold Zlen; rewrite ?le_length; reflexivity.
Qed.

Lemma mk_wreq_form : forall cfg did dip mdsize sels,
  info_ok cfg dip ->
  let rec := is_rec dip sels in
  let mul := mul_of sels in
  let enc := enc_of cfg rec mul (di_ndim dip) in
  body_ok rec mul enc (di_dims dip) sels ->
  mk_wreq cfg did dip mdsize sels =
    mkwreq (mkhdr (Z.of_nat HDR + Zlen (body rec mul enc (di_dims dip) sels)) did
                  (flags_of rec mul enc (mul && has cfg CFG_SEL_DEFLATE)) 0 0)
           (body rec mul enc (di_dims dip) sels) (if rec then 8%nat else 0%nat) mdsize [].
Proof.
  intros cfg did dip mdsize sels Hi rec mul enc Hb.
  assert (E : (if rec then (di_ndim dip - 1)%nat else di_ndim dip) = (di_ndim dip - recd rec)%nat).
  { destruct rec; cbn; lia. }
  unfold mk_wreq. fold rec. fold (mul_of sels). fold mul. rewrite E.
  change (mul && (1 <? di_ndim dip - recd rec)%nat && has cfg CFG_SEL_ENCODE) with enc.
  f_equal.
  - f_equal. rewrite body_length, selpart_length by auto.
    unfold Zlen, di_ndim. destruct rec, mul, enc; lia.
  - unfold body, selpart. apply (f_equal2 (@app Z)); [destruct rec; reflexivity|].
    apply (f_equal2 (@app Z)); [reflexivity|].
    assert (Hds : enc = true -> di_dsteps dip = dsteps_of (di_dims dip)).
    { intros He. destruct Hi as (_ & _ & H). apply H. unfold enc, enc_of in He. lia. }
    apply (f_equal2 (@app Z)); destruct enc; auto.
    + rewrite Hds by auto. fold (recd rec). rewrite <- dsteps_skipn.
      unfold di_ndim.
      assert (recd rec <= length (di_dims dip))%nat.
      { destruct rec eqn:R; cbn; [|lia]. subst rec. pose proof (is_rec_ndim _ _ _ Hi R).
        unfold di_ndim in H. lia. }
      replace (length (di_dims dip) - (length (di_dims dip) - recd rec))%nat with (recd rec) by lia.
      reflexivity.
    + rewrite Hds by auto. reflexivity.
Qed.

(** ** Comparison of two plain requests *)
Lemma memcmp_same_length : forall a b, length a = length b ->
  (memcmp a b = Equal /\ a = b) \/ memcmp a b = Differ.
Proof.
  induction a as [|x a IH]; destruct b as [|y b]; cbn; intros H; try lia; auto.
  destruct (Z.eqb_spec x y); auto. subst. destruct (IH b ltac:(lia)) as [[H1 H2]|H1]; auto.
  left. split; auto. congruence.
Qed.

Lemma le_inj : forall n a b, 0 <= a < 2 ^ (8 * Z.of_nat n) -> 0 <= b < 2 ^ (8 * Z.of_nat n) ->
  le n a = le n b -> a = b.
Proof. intros. rewrite <- (unle_le_id n a), <- (unle_le_id n b) by auto. congruence. Qed.

Lemma app_inv_len : forall A (a b c d : list A), length a = length c -> a ++ b = c ++ d -> a = c /\ b = d.
Proof.
  induction a; destruct c; cbn; intros; try lia; auto.
  injection H0 as -> H0. apply IHa in H0; [|lia]. destruct H0; subst; auto.
Qed.

Lemma selpart_inj : forall E rec mul n1 n2 dims1 dims2 sels1 sels2,
  n1 = length dims1 -> n2 = length dims2 ->
  body_ok rec mul (enc_of E rec mul n1) dims1 sels1 -> mul = mul_of sels1 ->
  body_ok rec mul (enc_of E rec mul n2) dims2 sels2 -> mul = mul_of sels2 ->
  selpart rec mul (enc_of E rec mul n1) dims1 sels1 =
  selpart rec mul (enc_of E rec mul n2) dims2 sels2 ->
  length dims1 = length dims2 /\
  map (fun b => skipn (recd rec) (b_start b)) sels1 = map (fun b => skipn (recd rec) (b_start b)) sels2 /\
  map (fun b => skipn (recd rec) (b_count b)) sels1 = map (fun b => skipn (recd rec) (b_count b)) sels2.
Proof.
  intros E rec mul n1 n2 dims1 dims2 sels1 sels2 Hn1 Hn2 H1 M1 H2 M2 Heq.
  pose proof (selpart_length _ _ _ _ _ H1) as L1. pose proof (selpart_length _ _ _ _ _ H2) as L2.
  rewrite Heq, L2 in L1. clear L2.
  assert (Hns : Zlen sels1 = Zlen sels2 /\
    selpart rec false (enc_of E rec mul n1) dims1 sels1 = selpart rec false (enc_of E rec mul n2) dims2 sels2).
  { destruct H1 as (Ha1 & Hb1 & _), H2 as (Ha2 & Hb2 & _).
    unfold selpart in Heq |- *. destruct mul.
    - apply app_inv_len in Heq; [|rewrite !le_length; auto]. destruct Heq as [Hl Heq].
      split; [|exact Heq]. apply le_inj in Hl; auto; change (2 ^ (8 * Z.of_nat 4)) with (2 ^ 32); lia.
    - split; [|exact Heq]. unfold Zlen. rewrite Hb1, Hb2; auto. }
  destruct Hns as [Hns Hsp].
  assert (Hr1 : rec = true -> (0 < length dims1)%nat) by (intros; destruct H1 as (_&_&_&H1&_); destruct H1; auto).
  assert (Hr2 : rec = true -> (0 < length dims2)%nat) by (intros; destruct H2 as (_&_&_&H2&_); destruct H2; auto).
  assert (Hen : length dims1 = length dims2 /\ enc_of E rec mul n1 = enc_of E rec mul n2).
  { rewrite Hns in L1. destruct H2 as (Hpos & _).
    assert (Hd : (length dims1 - recd rec = length dims2 - recd rec)%nat).
    { unfold enc_of in L1. subst n1 n2.
      remember (length dims1 - recd rec)%nat as e1. remember (length dims2 - recd rec)%nat as e2.
      destruct mul; cbn [andb] in L1; [|nia].
      destruct (has E CFG_SEL_ENCODE); rewrite ?andb_true_r, ?andb_false_r in L1; [|nia].
      destruct (Nat.ltb_spec 1 e1), (Nat.ltb_spec 1 e2); try nia. }
    split; [|unfold enc_of; subst n1 n2; rewrite Hd; reflexivity].
    destruct rec; cbn in Hd; [specialize (Hr1 eq_refl); specialize (Hr2 eq_refl)|]; lia. }
  destruct Hen as [Hdl Hen].
  assert (D1 := H1). assert (D2 := H2).
  destruct D1 as (A1 & _ & B1 & _ & C1), D2 as (A2 & _ & B2 & _ & C2).
  pose proof (decode_sels_ok rec (enc_of E rec mul n1) dims1 sels1 A1 B1 Hr1 C1
    (selpart rec false (enc_of E rec mul n1) dims1 sels1) [] [] 0) as P1.
  pose proof (decode_sels_ok rec (enc_of E rec mul n2) dims2 sels2 A2 B2 Hr2 C2
    (selpart rec false (enc_of E rec mul n2) dims2 sels2) [] [] 0) as P2.
  rewrite app_nil_r in P1, P2. specialize (P1 eq_refl eq_refl). specialize (P2 eq_refl eq_refl).
  rewrite Hsp, Hdl, Hen in P1.
  replace (length sels1) with (length sels2) in P1 by (unfold Zlen in Hns; lia).
  rewrite P2 in P1. injection P1 as P1 P3. unfold recd. repeat split; auto.
Qed.

(** The shape of a request as stored in the deduplication table. *)
Record plain (cfg : Z) (w : wreq) (rec : bool) (dims : list Z) (sels : list block) : Prop := {
  pl_ok : body_ok rec (mul_of sels) (enc_of cfg rec (mul_of sels) (length dims)) dims sels;
  pl_body : w_body w = body rec (mul_of sels) (enc_of cfg rec (mul_of sels) (length dims)) dims sels;
  pl_pos : w_selpos w = if rec then 8%nat else 0%nat;
  pl_size : h_size (w_hdr w) = Z.of_nat HDR + Zlen (w_body w);
  pl_rec : has (h_flag (w_hdr w)) FLAG_REC = rec }.

Lemma plain_sel_bytes : forall cfg w rec dims sels, plain cfg w rec dims sels ->
  sel_bytes w = selpart rec (mul_of sels) (enc_of cfg rec (mul_of sels) (length dims)) dims sels.
Proof.
  intros. destruct H. unfold sel_bytes. rewrite pl_body0, pl_pos0. unfold body.
  destruct rec; [|reflexivity].
  rewrite skipn_app, skipn_all2 by (rewrite le_length; auto). rewrite le_length. reflexivity.
Qed.

Lemma memcmp_prefix : forall p q a b, length p = length q -> p <> q -> memcmp (p ++ a) (q ++ b) = Differ.
Proof.
  induction p as [|x p IH]; destruct q as [|y q]; cbn; intros a b L N; try lia; try congruence.
  destruct (Z.eqb_spec x y); auto. apply IH; [lia|congruence].
Qed.

Lemma rec_sizes : forall (enc : bool) (r1 r2 : bool) (d1 d2 : nat) n,
  (r1 = true -> 0 < d1)%nat -> (r2 = true -> 0 < d2)%nat -> 2 <= n ->
  let sz (r : bool) (d : nat) :=
    (if r then 8 else 0) +
    (4 + (if (1 <? d - recd r)%nat && enc then 8 * (Z.of_nat (d - recd r) - 1 + n * 2)
          else 8 * (Z.of_nat (d - recd r) * n * 2))) in
  sz r1 d1 = sz r2 d2 -> r1 <> r2 -> enc = true /\ d1 = d2.
Proof.
  intros enc r1 r2 d1 d2 n H1 H2 Hn sz E N.
  assert (HH : forall d d' : nat, (0 < d)%nat -> sz true d = sz false d' -> enc = true /\ d = d').
  { clear E. intros d d' Hd E. unfold sz in E. cbn [recd] in E. rewrite Nat.sub_0_r in E.
    set (m := (d - 1)%nat) in *. assert (Em : d = S m) by lia. clearbody m. subst d. clear - Hn E.
    assert (P : forall a b, 8 + (4 + 8 * (Z.of_nat a * n * 2)) = 0 + (4 + 8 * (Z.of_nat b * n * 2)) -> False).
    { intros a b Q. assert (1 + 2 * (Z.of_nat a * n) = 2 * (Z.of_nat b * n)) by lia. lia. }
    destruct enc; rewrite ?andb_true_r, ?andb_false_r in E; [|exfalso; eapply P; exact E].
    destruct (Nat.ltb_spec 1 m) as [A|A], (Nat.ltb_spec 1 d') as [B|B].
    - split; auto. lia.
    - exfalso. destruct d' as [|[|d']]; [| |lia]; cbn [Z.of_nat Pos.of_succ_nat] in E; lia.
    - destruct m as [|[|m]]; [| |lia]; cbn [Z.of_nat Pos.of_succ_nat] in E; [exfalso; lia|].
      split; auto. lia.
    - exfalso. eapply P. exact E. }
  destruct r1, r2; try congruence.
  - apply HH; auto.
  - destruct (HH d2 d1 (H2 eq_refl) (eq_sym E)). auto.
Qed.

Lemma plain_eq : forall cfg w1 w2 rec1 rec2 dims1 dims2 sels1 sels2,
  plain cfg w1 rec1 dims1 sels1 -> plain cfg w2 rec2 dims2 sels2 ->
  (has cfg CFG_SEL_ENCODE = true -> mul_of sels1 = true -> mul_of sels2 = true ->
   length dims1 = length dims2 -> length sels1 = length sels2 -> rec1 = rec2) ->
  exists b, wreq_eq w1 w2 = Ok b /\
    (b = true -> rec1 = rec2 /\ length dims1 = length dims2 /\
       map (fun b => skipn (recd rec1) (b_start b)) sels1 = map (fun b => skipn (recd rec1) (b_start b)) sels2 /\
       map (fun b => skipn (recd rec1) (b_count b)) sels1 = map (fun b => skipn (recd rec1) (b_count b)) sels2).
Proof.
  intros cfg w1 w2 rec1 rec2 dims1 dims2 sels1 sels2 P1 P2 Hshare.
  unfold wreq_eq. rewrite (plain_sel_bytes _ _ _ _ _ P1), (plain_sel_bytes _ _ _ _ _ P2).
  destruct P1 as [B1 Y1 _ S1 _], P2 as [B2 Y2 _ S2 _].
  rewrite S1, S2, Y1, Y2, !body_length, !selpart_length by auto.
  match goal with |- exists b, (if ?x =? ?y then _ else _) = _ /\ _ => destruct (Z.eqb_spec x y) as [Hs|] end.
  2:{ eexists; split; [reflexivity|discriminate]. }
  assert (N1 : mul_of sels1 = false -> Zlen sels1 = 1).
  { intros Hm. destruct B1 as (_ & B & _). unfold Zlen. rewrite B; auto. }
  assert (N2 : mul_of sels2 = false -> Zlen sels2 = 1).
  { intros Hm. destruct B2 as (_ & B & _). unfold Zlen. rewrite B; auto. }
  assert (Hm : mul_of sels1 = mul_of sels2).
  { destruct (mul_of sels1), (mul_of sels2); auto; exfalso;
      cbn [enc_of andb] in Hs; unfold enc_of in Hs; cbn [andb] in Hs;
      destruct rec1, rec2;
      repeat match type of Hs with context [if ?b then _ else _] => destruct b end; lia. }
  assert (Hr : rec1 = rec2 \/ (mul_of sels1 = true /\ Zlen sels1 <> Zlen sels2)).
  { destruct (Bool.bool_dec rec1 rec2) as [R|R]; auto. right.
    destruct (mul_of sels1) eqn:M1.
    - split; auto. intros En. apply R. rewrite <- Hm in Hs. rewrite <- En in Hs. unfold enc_of in Hs. cbn [andb] in Hs.
      destruct (rec_sizes (has cfg CFG_SEL_ENCODE) rec1 rec2 (length dims1) (length dims2) (Zlen sels1)) as [E1 E2]; auto.
      + intros Q. destruct B1 as (_ & _ & _ & B & _). destruct (B Q). auto.
      + intros Q. destruct B2 as (_ & _ & _ & B & _). destruct (B Q). auto.
      + unfold mul_of in M1. unfold Zlen. lia.
      + clear - Hs. lia.
      + apply Hshare; auto. unfold Zlen in En. lia.
    - exfalso. rewrite <- Hm in *. rewrite N1, N2 in Hs by auto. unfold enc_of in Hs. cbn [andb] in Hs.
      destruct rec1, rec2; auto; lia. }
  destruct Hr as [Hr|[M1 Hn]].
  2:{ unfold selpart at 1 2. rewrite <- Hm, M1. rewrite memcmp_prefix; [|rewrite !le_length; auto|].
      - eexists; split; [reflexivity|discriminate].
      - intros Q. apply Hn. destruct B1 as (Z1 & _), B2 as (Z2 & _).
        apply le_inj in Q; auto; change (2 ^ (8 * Z.of_nat 4)) with (2 ^ 32); lia. }
  subst rec2.
  assert (Hl : length (selpart rec1 (mul_of sels1) (enc_of cfg rec1 (mul_of sels1) (length dims1)) dims1 sels1)
             = length (selpart rec1 (mul_of sels2) (enc_of cfg rec1 (mul_of sels2) (length dims2)) dims2 sels2)).
  { pose proof (selpart_length _ _ _ _ _ B1) as L1. pose proof (selpart_length _ _ _ _ _ B2) as L2.
    assert (forall a b : Z, a = b -> Z.to_nat a = Z.to_nat b) by (intros; congruence).
    unfold Zlen in L1, L2, Hs. lia. }
  destruct (memcmp_same_length _ _ Hl) as [[-> Heq]| ->].
  2:{ eexists; split; [reflexivity|discriminate]. }
  eexists; split; [reflexivity|]. intros _. split; auto.
  rewrite <- Hm in *.
  eapply selpart_inj with (E := cfg) (mul := mul_of sels1); eauto.
Qed.

(** ** Representation of a queue *)

(** A write as the user made it. *)
Record awr := mkawr { a_did : Z; a_sels : list block; a_data : list Z }.

(** Is the first dimension unlimited? *)
Definition unlim (d : dinfo) : bool :=
  match di_mdims d with m0 :: _ => m0 =? UNLIMITED | [] => false end.

Lemma is_rec_unlim : forall d sels, is_rec d sels = true -> unlim d = true.
Proof.
  intros d sels H. unfold is_rec in H. unfold unlim. destruct (di_mdims d); [discriminate|].
  destruct sels; [discriminate|]. apply andb_prop in H. tauto.
Qed.

(** Rank, element size and kind of the linked datasets. *)
Definition geom (infos : list (option dinfo)) (did : Z) : option (nat * Z * bool) :=
  match nth_error infos (Z.to_nat did) with
  | Some (Some d) => Some (di_ndim d, di_esize d, unlim d)
  | _ => None
  end.

(** Entries with their own selection seen so far: position, write, record flag. *)
Definition pctx := list (Z * (awr * bool)).

Definition re_record (rn : Z) (b : block) : block :=
  mkblock (set_first rn (b_start b)) (set_first 1 (b_count b)).

Definition eplain (cfg : Z) (nd : nat) (w : wreq) (a : awr) : Prop :=
  exists dims mul,
    let rec := has (h_flag (w_hdr w)) FLAG_REC in
    let enc := enc_of cfg rec mul nd in
    length dims = nd /\
    has (h_flag (w_hdr w)) FLAG_MUL_SEL = mul /\
    has (h_flag (w_hdr w)) FLAG_SEL_ENCODE = enc /\
    body_ok rec mul enc dims (a_sels a) /\
    w_body w = body rec mul enc dims (a_sels a).

Definition eref (k : kind) (G : Z -> option (nat * Z * bool)) (nd : nat) (es : Z) (ctx : pctx)
           (w : wreq) (a : awr) : Prop :=
  exists m t rt es' u',
    In (m, (t, rt)) ctx /\ G (a_did t) = Some (nd, es', u') /\
    0 <= m < 2 ^ 62 /\ 0 <= w_metaoff w < 2 ^ 62 /\
    (k = KArray -> length (a_sels t) = 1%nat \/ es' = es) /\
    let fr := has (h_flag (w_hdr w)) FLAG_REC in
    w_body w = (if fr then le 8 (recnum_of (a_sels a)) else []) ++ le 8 (m - w_metaoff w) /\
    if fr then rt = true /\ a_sels a = map (re_record (recnum_of (a_sels a))) (a_sels t)
    else a_sels a = a_sels t /\ (k = KCompact -> rt = false).

Definition ereq (k : kind) (cfg : Z) (G : Z -> option (nat * Z * bool)) (ctx : pctx) (w : wreq) (a : awr)
  : Prop :=
  h_did (w_hdr w) = a_did a /\ 0 <= a_did a < 2 ^ 31 /\
  h_fsize (w_hdr w) = Zlen (a_data a) /\ w_data w = a_data a /\
  h_size (w_hdr w) = Z.of_nat HDR + Zlen (w_body w) /\ h_size (w_hdr w) < 2 ^ 31 /\
  0 <= h_flag (w_hdr w) < 2 ^ 31 /\ has (h_flag (w_hdr w)) FLAG_SEL_DEFLATE = false /\
  exists nd es u, G (a_did a) = Some (nd, es, u) /\
    (has (h_flag (w_hdr w)) FLAG_REC = true -> u = true) /\
    0 < Zlen (a_sels a) < 2 ^ 31 /\ Forall (blk_ok nd) (a_sels a) /\
    if has (h_flag (w_hdr w)) FLAG_SEL_REF
    then has cfg CFG_METADATA_SHARE = true /\ eref k G nd es ctx w a
    else eplain cfg nd w a.

Definition ctx_add (off : Z) (w : wreq) (a : awr) (ctx : pctx) : pctx :=
  if has (h_flag (w_hdr w)) FLAG_SEL_REF then ctx
  else (off, (a, has (h_flag (w_hdr w)) FLAG_REC)) :: ctx.

Fixpoint qrep (k : kind) (cfg : Z) (G : Z -> option (nat * Z * bool)) (off : Z) (ctx : pctx)
         (ws : list wreq) (l : list awr) : Prop :=
  match ws, l with
  | [], [] => True
  | w :: ws', a :: l' =>
      w_metaoff w = off /\ ereq k cfg G ctx w a /\
      qrep k cfg G (off + h_size (w_hdr w)) (ctx_add off w a ctx) ws' l'
  | _, _ => False
  end.

Fixpoint ctx_of (off : Z) (ctx : pctx) (ws : list wreq) (l : list awr) : pctx :=
  match ws, l with
  | w :: ws', a :: l' => ctx_of (off + h_size (w_hdr w)) (ctx_add off w a ctx) ws' l'
  | _, _ => ctx
  end.

Lemma qrep_length : forall k cfg G ws l off ctx, qrep k cfg G off ctx ws l -> length ws = length l.
Proof. induction ws; destruct l; cbn; intros; try tauto. f_equal. eapply IHws. apply H. Qed.

Lemma qrep_snoc : forall k cfg G ws l off ctx w a, qrep k cfg G off ctx ws l ->
  w_metaoff w = off + Zsum (map (fun w => h_size (w_hdr w)) ws) ->
  ereq k cfg G (ctx_of off ctx ws l) w a ->
  qrep k cfg G off ctx (ws ++ [w]) (l ++ [a]).
Proof.
  induction ws as [|x ws IH]; destruct l as [|y l]; intros off ctx w a Hq Hm He; cbn [qrep] in Hq; try tauto.
  - cbn in *. split; [lia|]. split; auto.
  - destruct Hq as (Q1 & Q2 & Q3). cbn [app qrep]. split; auto. split; auto.
    apply IH; auto. cbn in Hm. unfold Zsum. lia.
Qed.

Lemma ctx_of_snoc : forall ws l off ctx w a, length ws = length l ->
  ctx_of off ctx (ws ++ [w]) (l ++ [a]) =
  ctx_add (off + Zsum (map (fun w => h_size (w_hdr w)) ws)) w a (ctx_of off ctx ws l).
Proof.
  induction ws as [|x ws IH]; destruct l as [|y l]; intros off ctx w a Hl; cbn in Hl; try lia.
  - cbn. f_equal. lia.
  - cbn [app ctx_of]. rewrite IH by lia. f_equal. cbn. unfold Zsum. lia.
Qed.

Lemma ctx_add_In : forall off w a ctx x, In x ctx -> In x (ctx_add off w a ctx).
Proof. intros. unfold ctx_add. destruct (has _ _); auto. right; auto. Qed.

Lemma ctx_of_In : forall ws l off ctx x, In x ctx -> In x (ctx_of off ctx ws l).
Proof.
  induction ws; destruct l; cbn; intros; auto. apply IHws. unfold ctx_add.
  destruct (has _ _); auto. right; auto.
Qed.

Lemma ctx_of_bound : forall k cfg G ws l off ctx m x, qrep k cfg G off ctx ws l ->
  In (m, x) (ctx_of off ctx ws l) -> In (m, x) ctx \/ off <= m.
Proof.
  induction ws as [|w ws IH]; destruct l as [|a l]; cbn [qrep ctx_of]; intros off ctx m x Hq Hi; auto; try tauto.
  destruct Hq as (Q1 & Q2 & Q3). destruct (IH _ _ _ _ _ Q3 Hi) as [H|H].
  - unfold ctx_add in H. destruct (has _ _); auto. destruct H as [H|H]; auto.
    injection H as <- _. right. lia.
  - right. destruct Q2 as (_ & _ & _ & _ & Q2 & _). rewrite Q2 in H. unfold Zlen in H. lia.
Qed.

Lemma ctx_of_bound2 : forall k cfg G ws l off ctx m x, qrep k cfg G off ctx ws l ->
  (forall m x, In (m, x) ctx -> m <= off) ->
  In (m, x) (ctx_of off ctx ws l) -> m <= off + Zsum (map (fun w => h_size (w_hdr w)) ws).
Proof.
  induction ws as [|w ws IH]; destruct l as [|a l]; cbn [qrep ctx_of]; intros off ctx m x Hq Hb Hi; try tauto.
  - apply Hb in Hi. cbn. lia.
  - destruct Hq as (Q1 & Q2 & Q3).
    destruct Q2 as (_ & _ & _ & _ & Q2 & _). unfold Zlen in Q2.
    eapply IH in Hi; eauto.
    + cbn. unfold Zsum in Hi. lia.
    + intros m' x' H. unfold ctx_add in H. destruct (has _ _); [apply Hb in H; lia|].
      destruct H as [H|H]; [injection H as <- _; lia|apply Hb in H; lia].
Qed.

(** Extension of the dataset table. *)
Definition geom_le (G G' : Z -> option (nat * Z * bool)) : Prop := forall d g, G d = Some g -> G' d = Some g.

Lemma ereq_mono : forall k cfg G G' ctx w a, geom_le G G' -> ereq k cfg G ctx w a -> ereq k cfg G' ctx w a.
Proof.
  intros k cfg G G' ctx w a HG (E1 & E2 & E3 & E4 & E5 & E6 & E7 & E8 & nd & es & u & E9 & EU & E10 & E11 & E12).
  repeat (split; auto; try lia). exists nd, es, u. repeat (split; auto; try lia).
  destruct (has (h_flag (w_hdr w)) FLAG_SEL_REF); auto.
  destruct E12 as (S & m & t & rt & es' & u' & R1 & R2 & R). split; auto.
  exists m, t, rt, es', u'. repeat (split; auto).
Qed.
Lemma qrep_mono : forall k cfg G G' ws l off ctx, geom_le G G' ->
  qrep k cfg G off ctx ws l -> qrep k cfg G' off ctx ws l.
Proof.
  induction ws; destruct l; cbn; intros; auto. destruct H0 as (H1 & H2 & H3).
  split; auto. split; auto. eapply ereq_mono; eauto.
Qed.

(** ** Adding a write *)

(** A selection without its record. *)
Definition skey (rec : bool) (sels : list block) : list block :=
  if rec then map (fun b => mkblock (tl (b_start b)) (tl (b_count b))) sels else sels.

Record rinv (k : kind) (cfg : Z) (R0 : nat -> nat -> bool) (E0 : list block -> Z) (G : Z -> option (nat * Z * bool)) (st : rank)
       (l : list awr) : Prop := {
  ri_q : qrep k cfg G 0 [] (k_wreqs st) l;
  ri_md : k_mdsize st = meta_len st;
  ri_hash : forall key tgt, In (key, tgt) (k_hash st) -> key = tgt /\
    exists rec dims a es u,
      plain cfg key rec dims (a_sels a) /\
      In (w_metaoff key, (a, rec)) (ctx_of 0 [] (k_wreqs st) l) /\ In a l /\
      G (a_did a) = Some (length dims, es, u) /\
      (has cfg CFG_SEL_ENCODE = true -> mul_of (a_sels a) = true ->
       rec = R0 (length dims) (length (a_sels a))) /\
      (k = KArray -> mul_of (a_sels a) = true -> es = E0 (skey rec (a_sels a))) }.

Lemma rinv_mono : forall k cfg R0 E0 G G' st l, geom_le G G' ->
  rinv k cfg R0 E0 G st l -> rinv k cfg R0 E0 G' st l.
Proof.
  intros k cfg R0 E0 G G' st l HG [Q M H]. constructor; auto.
  - eapply qrep_mono; eauto.
  - intros key tgt Hi. destruct (H key tgt Hi) as (-> & rec & dims & a & es & u & P1 & P2 & P3 & P4 & P5).
    split; auto. exists rec, dims, a, es, u. repeat (split; auto).
Qed.

Lemma rinv0 : forall k cfg R0 E0 G zb, rinv k cfg R0 E0 G (mkrank [] 0 0 [] zb) [].
Proof. intros. constructor; cbn; auto; try tauto. Qed.

(** Conditions under which the write path is used. *)
Record wr_ok (k : kind) (cfg : Z) (R0 : nat -> nat -> bool) (E0 : list block -> Z) (dip : dinfo) (sels : list block) (prev : list awr)
  : Prop := {
  wo_info : info_ok cfg dip;
  wo_nsel : 0 < Zlen sels < 2 ^ 31;
  wo_blk : Forall (blk_ok (di_ndim dip)) sels;
  wo_size : Z.of_nat HDR + 12 + 8 * Z.of_nat (di_ndim dip) * (1 + 2 * Zlen sels) + 16 * Zlen sels < 2 ^ 31;
  wo_enc : has cfg CFG_SEL_ENCODE = true -> mul_of sels = true ->
    let dims' := skipn (recd (is_rec dip sels)) (di_dims dip) in
    (1 < length dims')%nat ->
    Forall word (dsteps_of dims') /\
    Forall (fun b =>
       (inner_lt dims' (skipn (recd (is_rec dip sels)) (b_start b)) /\
        rm dims' (skipn (recd (is_rec dip sels)) (b_start b)) < 2 ^ 63) /\
       (inner_lt dims' (skipn (recd (is_rec dip sels)) (b_count b)) /\
        rm dims' (skipn (recd (is_rec dip sels)) (b_count b)) < 2 ^ 63)) sels;
  wo_share : has cfg CFG_METADATA_SHARE = true ->
    (has cfg CFG_SEL_ENCODE = true -> mul_of sels = true ->
     is_rec dip sels = R0 (di_ndim dip) (length sels)) /\
    (k = KArray -> mul_of sels = true -> di_esize dip = E0 (skey (is_rec dip sels) sels)) /\
    (k = KCompact -> is_rec dip sels = true -> forall a, In a prev -> a_sels a <> sels) }.

Lemma mul_of_false : forall sels, 0 < Zlen sels -> mul_of sels = false -> length sels = 1%nat.
Proof. unfold mul_of, Zlen. intros. lia. Qed.

Lemma wr_body_ok : forall k cfg R0 E0 dip sels prev, wr_ok k cfg R0 E0 dip sels prev ->
  body_ok (is_rec dip sels) (mul_of sels)
    (enc_of cfg (is_rec dip sels) (mul_of sels) (di_ndim dip)) (di_dims dip) sels.
Proof.
  intros k cfg R0 E0 dip sels prev H. destruct H. split; auto. split.
  { intros. apply mul_of_false; auto. lia. }
  split; auto. split.
  { intros R. split; [eapply is_rec_ndim; eauto|apply is_rec_blocks in R; tauto]. }
  intros He. unfold enc_of in He. fold (recd (is_rec dip sels)).
  assert (HL : (1 < length (skipn (recd (is_rec dip sels)) (di_dims dip)))%nat)
    by (rewrite skipn_length; unfold di_ndim in He; lia).
  destruct (wo_enc0 ltac:(lia) ltac:(lia) HL) as [W F].
  cbn zeta. split; [destruct (skipn _ (di_dims dip)); cbn in HL; [lia|congruence]|]. auto.
Qed.

Lemma wr_size : forall k cfg R0 E0 dip sels prev, wr_ok k cfg R0 E0 dip sels prev ->
  Z.of_nat HDR + Zlen (body (is_rec dip sels) (mul_of sels)
    (enc_of cfg (is_rec dip sels) (mul_of sels) (di_ndim dip)) (di_dims dip) sels) < 2 ^ 31.
Proof.
  intros k cfg R0 E0 dip sels prev H. pose proof (wr_body_ok _ _ _ _ _ _ _ H) as B.
  rewrite body_length, selpart_length by auto. destruct H. fold (di_ndim dip).
  destruct (is_rec dip sels), (mul_of sels), (enc_of cfg _ _ _); cbn [recd]; nia.
Qed.

Lemma hash_find_spec : forall cfg r rec dims sels tbl,
  plain cfg r rec dims sels ->
  (forall key tgt, In (key, tgt) tbl -> key = tgt /\ exists rec' dims' sels', plain cfg key rec' dims' sels' /\
     (has cfg CFG_SEL_ENCODE = true -> mul_of sels = true -> mul_of sels' = true ->
      length dims = length dims' -> length sels = length sels' -> rec = rec')) ->
  hash_find r tbl = Ok None \/
  exists tgt, In (tgt, tgt) tbl /\ hash_find r tbl = Ok (Some tgt) /\ wreq_eq r tgt = Ok true.
Proof.
  induction tbl as [|[key tgt] tbl IH]; intros P H; [left; reflexivity|].
  destruct (H key tgt (or_introl eq_refl)) as (-> & rec' & dims' & sels' & P' & S).
  destruct (plain_eq _ _ _ _ _ _ _ _ _ P P' S) as (b & Hb & _).
  cbn [hash_find]. rewrite Hb. cbn [bind]. destruct b.
  - right. exists tgt. split; [left; auto|]. auto.
  - destruct IH as [IH|(t & I1 & I2 & I3)]; auto.
    + intros. apply H. right; auto.
    + right. exists t. split; [right; auto|]. auto.
Qed.

Lemma flags_ok : forall rec mul enc dfl, let f := flags_of rec mul enc dfl in
  0 <= f < 2 ^ 31 /\ has f FLAG_REC = rec /\ has f FLAG_MUL_SEL = mul /\ has f FLAG_SEL_ENCODE = enc /\
  has f FLAG_SEL_DEFLATE = dfl /\ has f FLAG_SEL_REF = false /\
  clear_bit f FLAG_SEL_DEFLATE = flags_of rec mul enc false.
Proof. intros. subst f. destruct rec, mul, enc, dfl; vm_compute; repeat split; congruence. Qed.

Lemma ref_flags_ok : forall rec mul enc dfl (b : bool),
  let f1 := clear_bit (Z.lor (flags_of rec mul enc dfl) FLAG_SEL_REF) FLAG_SEL_DEFLATE in
  has f1 FLAG_REC = rec /\
  let f := if b then clear_bit f1 FLAG_REC else f1 in
  0 <= f < 2 ^ 31 /\ has f FLAG_REC = (if b then false else rec) /\ has f FLAG_SEL_REF = true /\
  has f FLAG_SEL_DEFLATE = false.
Proof. intros. subst f1. destruct rec, mul, enc, dfl, b; vm_compute; repeat split; congruence. Qed.

(** Blocks are determined by their first coordinates and the rest. *)
Lemma sels_of_parts : forall nd (s1 s2 : list block) rn, Forall (blk_ok nd) s1 -> Forall (blk_ok nd) s2 ->
  (0 < nd)%nat ->
  Forall (fun b => hd 0 (b_count b) = 1 /\ hd 0 (b_start b) = rn) s1 ->
  map (fun b => skipn 1 (b_start b)) s1 = map (fun b => skipn 1 (b_start b)) s2 ->
  map (fun b => skipn 1 (b_count b)) s1 = map (fun b => skipn 1 (b_count b)) s2 ->
  s1 = map (re_record rn) s2.
Proof.
  induction s1 as [|b1 s1 IH]; destruct s2 as [|b2 s2]; intros rn H1 H2 Hn H3 E1 E2; try discriminate; auto.
  cbn [map] in E1, E2. assert (F1 := f_equal (@tl _) E1). assert (F2 := f_equal (@tl _) E2).
  assert (G1 := f_equal (hd []) E1). assert (G2 := f_equal (hd []) E2). cbn in F1, F2, G1, G2.
  cbn [map]. f_equal.
  - destruct b1 as [st1 ct1], b2 as [st2 ct2]. unfold re_record. cbn in *.
    pose proof (Forall_inv H1) as (L1 & L2 & _). pose proof (Forall_inv H2) as (L3 & L4 & _).
    pose proof (Forall_inv H3) as (C1 & C2).
    cbn in *. destruct st1, ct1, st2, ct2; cbn in *; try lia. subst. reflexivity.
  - apply IH; eauto using Forall_inv_tail.
Qed.

Lemma re_record_same : forall nd s rn, Forall (blk_ok nd) s -> (0 < nd)%nat ->
  Forall (fun b => hd 0 (b_count b) = 1 /\ hd 0 (b_start b) = rn) s -> map (re_record rn) s = s.
Proof.
  intros. symmetry. eapply sels_of_parts; eauto.
Qed.

Lemma sels_of_maps : forall s1 s2 : list block,
  map (fun b => skipn 0 (b_start b)) s1 = map (fun b => skipn 0 (b_start b)) s2 ->
  map (fun b => skipn 0 (b_count b)) s1 = map (fun b => skipn 0 (b_count b)) s2 -> s1 = s2.
Proof.
  induction s1 as [|b1 s1 IH]; destruct s2 as [|b2 s2]; cbn; intros; try discriminate; auto.
  injection H as A B. injection H0 as C D. f_equal; auto. destruct b1, b2; cbn in *. congruence.
Qed.

Lemma skey_eq : forall rec s1 s2,
  map (fun b => skipn (recd rec) (b_start b)) s1 = map (fun b => skipn (recd rec) (b_start b)) s2 ->
  map (fun b => skipn (recd rec) (b_count b)) s1 = map (fun b => skipn (recd rec) (b_count b)) s2 ->
  skey rec s1 = skey rec s2.
Proof.
  intros [|] s1 s2 H1 H2; cbn [recd] in *; [|apply sels_of_maps; auto].
  revert s2 H1 H2. induction s1 as [|x s1 IH]; destruct s2 as [|y s2]; cbn; intros H1 H2; try discriminate; auto.
  injection H1 as A1 A2. injection H2 as C1 C2. f_equal; [|apply IH; auto].
  f_equal; auto.
Qed.

Lemma ds_write_unfold : forall z cfg infos st did sels data, sels <> [] ->
  ds_write z cfg infos st did sels data =
      match nth_error infos (Z.to_nat did) with
      | Some (Some dip) =>
          do m <- finish_meta z cfg st (mk_wreq cfg did dip (k_mdsize st) sels);
          let '(r, tbl, zb) := m in
          Ok (mkrank (k_wreqs st ++ [set_data r data]) (k_nflushed st)
                     (k_mdsize st + h_size (w_hdr r)) tbl zb)
      | _ => UB
      end.
Proof. intros. unfold ds_write. destruct sels; [congruence|reflexivity]. Qed.

Lemma ds_write_ok : forall z k cfg R0 E0 infos st did sels data dip l,
  rinv k cfg R0 E0 (geom infos) st l ->
  nth_error infos (Z.to_nat did) = Some (Some dip) -> 0 <= did < 2 ^ 31 ->
  wr_ok k cfg R0 E0 dip sels l ->
  k_mdsize st < 2 ^ 62 ->
  exists st' w, ds_write z cfg infos st did sels data = Ok st' /\
    k_wreqs st' = k_wreqs st ++ [w] /\ k_nflushed st' = k_nflushed st /\
    h_size (w_hdr w) <= Z.of_nat HDR + 12 + 8 * Z.of_nat (di_ndim dip) * (1 + 2 * Zlen sels) + 16 * Zlen sels /\
    rinv k cfg R0 E0 (geom infos) st' (l ++ [mkawr did sels data]).
Proof.
  intros z k cfg R0 E0 infos st did sels data dip l HI Hn Hd HW Hmd.
  pose proof (wr_body_ok _ _ _ _ _ _ _ HW) as HB.
  pose proof (wr_size _ _ _ _ _ _ _ HW) as HS.
  assert (HS2 : Z.of_nat HDR + Zlen (body (is_rec dip sels) (mul_of sels)
    (enc_of cfg (is_rec dip sels) (mul_of sels) (di_ndim dip)) (di_dims dip) sels) <=
    Z.of_nat HDR + 12 + 8 * Z.of_nat (di_ndim dip) * (1 + 2 * Zlen sels) + 16 * Zlen sels).
  { rewrite body_length, selpart_length by auto. fold (di_ndim dip). destruct HW.
    destruct (is_rec dip sels), (mul_of sels), (enc_of cfg _ _ _); cbn [recd]; nia. }
  assert (HG : geom infos did = Some (di_ndim dip, di_esize dip, unlim dip)) by (unfold geom; rewrite Hn; auto).
  pose proof (mk_wreq_form cfg did dip (k_mdsize st) sels (wo_info _ _ _ _ _ _ _ HW) HB) as HF.
  cbn zeta in HF.
  set (rec := is_rec dip sels) in *. set (mul := mul_of sels) in *.
  set (enc := enc_of cfg rec mul (di_ndim dip)) in *.
  set (bd := body rec mul enc (di_dims dip) sels) in *.
  set (r := mk_wreq cfg did dip (k_mdsize st) sels) in *.
  set (dfl := mul && has cfg CFG_SEL_DEFLATE) in *.
  pose proof (flags_ok rec mul enc dfl) as (FB & F1 & F2 & F3 & F4 & F5 & F6). cbn zeta in FB, F1.
  assert (HP : plain cfg r rec (di_dims dip) sels).
  { rewrite HF. constructor; auto. }
  (* the request after deduplication failed *)
  set (rp := mkwreq (mkhdr (Z.of_nat HDR + Zlen bd) did (flags_of rec mul enc false) 0 0) bd
                    (if rec then 8%nat else 0%nat) (k_mdsize st) []).
  assert (Hselsz : selsize_of r = Zlen bd - (if rec then 8 else 0)).
  { rewrite HF. unfold selsize_of. cbn [w_hdr h_size w_selpos]. destruct rec; clear; lia. }
  pose proof (flags_ok rec mul enc false) as (FB' & F1' & F2' & F3' & F4' & F5' & _).
  assert (Hplain : exists sz2 zb, compress_sel z (k_zbsize st) r (selsize_of r) = (rp, sz2, zb) /\ shrink rp sz2 = rp).
  { unfold compress_sel, shrink. rewrite Hselsz. rewrite HF. cbn [w_hdr h_flag w_selpos w_body w_metaoff w_data]. rewrite F4.
    destruct dfl.
    - destruct (z_deflate z _ _) as [okc out].
      replace (((if okc then 1 else 0) =? 0) &&
         ((if okc then Zlen out else Z.max (k_zbsize st) (Zlen bd - (if rec then 8 else 0))) <?
          Zlen bd - (if rec then 8 else 0))) with false by (destruct okc; cbn [Z.eqb andb]; clear; lia).
      cbn [set_flag w_hdr h_size h_did h_flag h_foff h_fsize w_body w_selpos w_metaoff w_data].
      rewrite F6. eexists _, _. split; [reflexivity|].
      cbn [rp w_hdr h_size w_selpos].
      replace (Z.of_nat HDR + Z.of_nat (if rec then 8 else 0) + (Zlen bd - (if rec then 8 else 0)) <?
               Z.of_nat HDR + Zlen bd) with false by (destruct rec; clear; lia).
      reflexivity.
    - eexists _, _. split; [reflexivity|]. cbn [rp w_hdr h_size w_selpos].
      replace (Z.of_nat HDR + Z.of_nat (if rec then 8 else 0) + (Zlen bd - (if rec then 8 else 0)) <?
               Z.of_nat HDR + Zlen bd) with false by (destruct rec; clear; lia).
      reflexivity. }
  destruct Hplain as (szp & zbp & Hplain & Hshr).
  set (a := mkawr did sels data).
  assert (Hrp : forall ctx, ereq k cfg (geom infos) ctx (set_data rp data) a).
  { intros ctx. unfold ereq. cbn [set_data rp w_hdr h_did h_fsize h_size h_flag w_data w_body a a_did a_data a_sels].
    split; [auto|]. split; [auto|]. split; [auto|]. split; [auto|]. split; [auto|]. split; [exact HS|].
    split; [auto|]. split; [auto|]. exists (di_ndim dip), (di_esize dip), (unlim dip).
    split; [auto|]. split; [rewrite F1'; apply is_rec_unlim|]. split; [apply (wo_nsel _ _ _ _ _ _ _ HW)|]. split; [apply (wo_blk _ _ _ _ _ _ _ HW)|].
    rewrite F5'. exists (di_dims dip), mul. cbn [set_data rp w_hdr h_did h_fsize h_size h_flag w_data w_body a a_sels].
    rewrite F1', F2', F3'. fold mul. fold enc. split; [auto|]. split; [auto|]. split; [auto|]. split; [exact HB|auto]. }
  assert (Hmlen : forall st' w, k_wreqs st' = k_wreqs st ++ [w] -> k_mdsize st' = k_mdsize st + h_size (w_hdr w) ->
    k_mdsize st' = meta_len st').
  { intros st' w E1 E2. rewrite E2, (ri_md _ _ _ _ _ _ _ HI). unfold meta_len.
    rewrite E1, map_app, Zsum_app. cbn. clear; lia. }
  pose proof (qrep_length _ _ _ _ _ _ _ (ri_q _ _ _ _ _ _ _ HI)) as HQL.
  assert (Hmeta0 : 0 <= k_mdsize st).
  { rewrite (ri_md _ _ _ _ _ _ _ HI). unfold meta_len. apply Zsum_nonneg.
    pose proof (ri_q _ _ _ _ _ _ _ HI) as Q. revert Q. generalize (@nil (Z * (awr * bool))) (k_wreqs st) l.
    generalize 0 at 1. intros o c ws ll. revert o c ll.
    induction ws; destruct ll; cbn; intros; try tauto; constructor.
    - destruct Q as (_ & (_ & _ & _ & _ & Q & _) & _). rewrite Q. unfold Zlen. clear; lia.
    - destruct Q as (_ & _ & Q). eapply IHws; eauto. }
  (* common conclusion for a plain request *)
  assert (Hdone : forall tbl zb,
    (forall key tgt, In (key, tgt) tbl -> In (key, tgt) (k_hash st) \/
       (key = r /\ tgt = r /\ has cfg CFG_METADATA_SHARE = true)) ->
    rinv k cfg R0 E0 (geom infos)
      (mkrank (k_wreqs st ++ [set_data rp data]) (k_nflushed st) (k_mdsize st + h_size (w_hdr rp)) tbl zb)
      (l ++ [a])).
  { intros tbl zb Htbl. constructor; cbn [k_wreqs k_mdsize k_hash].
    - apply qrep_snoc; [apply HI| |apply Hrp].
      cbn. rewrite (ri_md _ _ _ _ _ _ _ HI). reflexivity.
    - exact (Hmlen (mkrank _ _ _ _ _) (set_data rp data) eq_refl eq_refl).
    - intros key tgt Hin. rewrite ctx_of_snoc by auto. destruct (Htbl key tgt Hin) as [Ho|(-> & -> & Hsh)].
      + destruct (ri_hash _ _ _ _ _ _ _ HI key tgt Ho) as (-> & rec' & dims' & a' & es' & u' & P1 & P2 & P3 & P4 & P5).
        split; auto. exists rec', dims', a', es', u'. split; auto. split.
        { apply ctx_add_In; auto. }
        split; [apply in_or_app; auto|]. auto.
      + split; auto. exists rec, (di_dims dip), a, (di_esize dip), (unlim dip). split; auto. split.
        { unfold ctx_add. cbn [set_data rp w_hdr h_flag]. rewrite F5', F1'. left.
          rewrite HF. cbn [w_metaoff]. f_equal. rewrite (ri_md _ _ _ _ _ _ _ HI). reflexivity. }
        split; [apply in_or_app; right; left; auto|]. split; [auto|].
        destruct (wo_share _ _ _ _ _ _ _ HW Hsh) as (S1 & S2 & S3). auto. }
  rewrite ds_write_unfold.
  2:{ intros E. pose proof (wo_nsel _ _ _ _ _ _ _ HW) as N. rewrite E in N. cbn in N. clear - N; lia. }
  rewrite Hn. fold r. unfold finish_meta, dedup.
  destruct (has cfg CFG_METADATA_SHARE && (8 <? selsize_of r)) eqn:Hdd.
  2:{ cbn [bind]. rewrite Hplain, Hshr. cbn [bind].
      eexists _, (set_data rp data). split; [reflexivity|]. cbn [k_wreqs k_nflushed].
      split; [reflexivity|]. split; [reflexivity|]. split; [exact HS2|]. apply Hdone. auto. }
  apply andb_prop in Hdd. destruct Hdd as [Hsh Hbig].
  destruct (wo_share _ _ _ _ _ _ _ HW Hsh) as (S1 & S2 & S3).
  assert (Hkeys : forall key tgt, In (key, tgt) (k_hash st) -> key = tgt /\
    exists rec' dims' sels'', plain cfg key rec' dims' sels'' /\
     (has cfg CFG_SEL_ENCODE = true -> mul = true -> mul_of sels'' = true ->
      length (di_dims dip) = length dims' -> length sels = length sels'' -> rec = rec')).
  { intros key tgt Hi. destruct (ri_hash _ _ _ _ _ _ _ HI key tgt Hi) as (-> & rec' & dims' & a' & es' & u' & P1 & P2 & P3 & P4 & P5 & P6).
    split; auto. exists rec', dims', (a_sels a'). split; auto. intros A B C D F. rewrite (P5 A C), <- D, <- F. apply S1; auto. }
  destruct (hash_find_spec cfg r rec (di_dims dip) sels (k_hash st) HP Hkeys)
    as [->|(tgt & T1 & -> & T2)]; cbn [bind].
  { rewrite Hplain, Hshr. cbn [bind]. eexists _, (set_data rp data). split; [reflexivity|]. cbn [k_wreqs k_nflushed].
    split; [reflexivity|]. split; [reflexivity|]. split; [exact HS2|]. apply Hdone. intros key tgt Hi. apply in_app_or in Hi.
    destruct Hi as [Hi|[Hi|[]]]; auto. injection Hi as <- <-. auto. }
  (* a reference *)
  destruct (ri_hash _ _ _ _ _ _ _ HI tgt tgt T1) as (_ & rec' & dims' & t & es' & u' & P1 & P2 & P3 & P4 & P5 & P6).
  destruct (plain_eq _ _ _ _ _ _ _ _ _ HP P1 ltac:(intros A B C D F; rewrite (P5 A C), <- D, <- F; apply S1; auto))
    as (b & Hb & Hb2). rewrite T2 in Hb. injection Hb as <-.
  destruct (Hb2 eq_refl) as (Er & Ed & Es & Ec). subst rec'. clear Hb2.
  set (same := rec && (recnum_of sels =? recnum_of (a_sels t))).
  assert (Hbt : Forall (blk_ok (di_ndim dip)) (a_sels t)).
  { destruct P1 as [(_ & _ & B & _) _ _ _ _]. unfold di_ndim. rewrite Ed. exact B. }
  assert (Hnst : Zlen (a_sels t) = Zlen sels).
  { assert (E := f_equal (@length _) Es). rewrite !map_length in E. unfold Zlen. clear - E; lia. }
  assert (Hrw : rec = true -> word (recnum_of sels) /\ word (recnum_of (a_sels t)) /\ (0 < di_ndim dip)%nat).
  { intros R. destruct HB as (Hz & _ & B & Hr & _). destruct (Hr R) as [Hl _]. unfold di_ndim.
    assert (forall s, 0 < Zlen s -> Forall (blk_ok (length (di_dims dip))) s -> word (recnum_of s)).
    { intros s H1 H2. destruct s as [|b s]; [cbn in H1; discriminate H1|]. 
      destruct (Forall_inv H2) as (L & _ & W & _). cbn. destruct (b_start b); cbn in L, W |- *; [clear - L Hl; lia|]. inversion W; auto. }
    destruct Hz as [Hz _]. split; [apply H; auto|]. split; [apply H; auto; rewrite Hnst; auto|]. auto. }
  set (roff := w_metaoff tgt - k_mdsize st).
  assert (Hmake : compress_sel z (k_zbsize st) (make_ref r tgt (k_mdsize st)) 8 =
                    (make_ref r tgt (k_mdsize st), 8, k_zbsize st) /\
     exists f, 0 <= f < 2 ^ 31 /\ has f FLAG_REC = rec && negb same /\ has f FLAG_SEL_REF = true /\
       has f FLAG_SEL_DEFLATE = false /\
       let bd' := (if rec && negb same then le 8 (recnum_of sels) else []) ++ le 8 roff in
       shrink (make_ref r tgt (k_mdsize st)) 8 = mkwreq (mkhdr (Z.of_nat HDR + Zlen bd') did f 0 0) bd' (if rec && negb same then 8%nat else 0%nat)
                   (k_mdsize st) []).
  { assert (Hsame : has (clear_bit (Z.lor (flags_of rec mul enc dfl) FLAG_SEL_REF) FLAG_SEL_DEFLATE) FLAG_REC &&
       has (h_flag (w_hdr tgt)) FLAG_REC && (unle (firstn 8 bd) =? unle (firstn 8 (w_body tgt))) = same).
    { destruct (ref_flags_ok rec mul enc dfl false) as [R1 _]. rewrite R1. rewrite (pl_rec _ _ _ _ _ P1).
      unfold same. destruct rec; cbn [andb]; auto. rewrite (pl_body _ _ _ _ _ P1). subst bd.
      destruct (Hrw eq_refl) as (W1 & W2 & _). unfold body.
      rewrite !firstn_app, !le_length, !Nat.sub_diag, !firstn_O, !app_nil_r.
      rewrite !firstn_all2 by (rewrite le_length; auto).
      rewrite !unle_le8 by (apply word_u64; auto). reflexivity. }
    assert (Hm : make_ref r tgt (k_mdsize st) =
      let f1 := clear_bit (Z.lor (flags_of rec mul enc dfl) FLAG_SEL_REF) FLAG_SEL_DEFLATE in
      let pos := if same then 0%nat else if rec then 8%nat else 0%nat in
      mkwreq (mkhdr (Z.of_nat HDR + Zlen bd) did (if same then clear_bit f1 FLAG_REC else f1) 0 0)
        (firstn pos bd ++ le 8 roff ++ skipn (pos + 8) bd) pos (k_mdsize st) []).
    { unfold make_ref. rewrite HF. cbn [w_hdr h_flag w_body w_selpos w_metaoff w_data h_size h_did h_foff h_fsize].
      rewrite Hsame. destruct same eqn:Sm; cbn zeta; auto.
      assert (rec = true) by (unfold same in Sm; destruct rec; auto). rewrite H. reflexivity. }
    rewrite Hm. unfold compress_sel, shrink. cbn zeta. cbn [w_hdr h_flag w_body w_selpos w_metaoff w_data h_size h_did h_foff h_fsize].
    destruct (ref_flags_ok rec mul enc dfl same) as (_ & G1 & G2 & G3 & G4). cbn zeta in G1, G2, G3, G4.
    rewrite G4. cbn [w_hdr h_flag w_body w_selpos w_metaoff w_data h_size h_did h_foff h_fsize].
    split; auto.
    assert (Hlt : 8 < Zlen bd - (if rec then 8 else 0)) by (apply Z.ltb_lt in Hbig; clear - Hbig Hselsz; rewrite <- Hselsz; exact Hbig).
    match goal with |- context [if ?c then w_resize _ _ else _] => replace c with true end.
    2:{ symmetry. apply Z.ltb_lt. destruct same, rec; clear - Hlt; lia. }
    eexists. split; [exact G1|]. split.
    { rewrite G2. destruct same eqn:Sm, rec; auto. }
    split; auto. split; auto.
    unfold w_resize. cbn [w_hdr h_flag w_body w_selpos w_metaoff w_data h_size h_did h_foff h_fsize].
    assert (Hpos : (if same then 0%nat else if rec then 8%nat else 0%nat) =
                   if rec && negb same then 8%nat else 0%nat).
    { unfold same. destruct rec; cbn [andb negb]; auto.
      destruct (recnum_of sels =? recnum_of (a_sels t)); auto. }
    rewrite Hpos.
    assert (Hfp : firstn (if rec && negb same then 8 else 0) bd =
                  if rec && negb same then le 8 (recnum_of sels) else []).
    { destruct (rec && negb same) eqn:RS; [|reflexivity]. destruct rec; [|discriminate].
      subst bd. unfold body. rewrite firstn_app, le_length, Nat.sub_diag, firstn_O, app_nil_r.
      apply firstn_all2. rewrite le_length. auto. }
    rewrite Hfp.
    assert (HX : forall (A B C : list Z) n, n = length (A ++ B) -> firstn n (A ++ B ++ C) = A ++ B).
    { intros A B C n ->. rewrite app_assoc, firstn_app, firstn_all, Nat.sub_diag. cbn. apply app_nil_r. }
    assert (Hll : length ((if rec && negb same then le 8 (recnum_of sels) else []) ++ le 8 roff) =
                  ((if rec && negb same then 8 else 0) + 8)%nat).
    { rewrite app_length, le_length. destruct (rec && negb same); rewrite ?le_length; auto. }
    rewrite HX.
    2:{ rewrite Hll. clear. destruct (rec && negb same); lia. }
    f_equal. f_equal. unfold Zlen. rewrite Hll. clear. destruct (rec && negb same); lia. }
  destruct Hmake as (-> & f & G1 & G2 & G3 & G4 & G5).
  cbn zeta in G5. rewrite G5. cbn [bind].
  set (rr := mkwreq _ _ _ _ _).
  eexists _, (set_data rr data). split; [reflexivity|]. cbn [k_wreqs k_nflushed].
  split; auto. split; auto.
  assert (Hrsz : h_size (w_hdr rr) <= Z.of_nat HDR + 16 /\ h_size (w_hdr rr) = Z.of_nat HDR + Zlen (w_body rr)).
  { subst rr. cbn [w_hdr h_size w_body]. rewrite Zlen_app. unfold Zlen.
    destruct (rec && negb same); rewrite ?le_length; cbn [length]; clear; split; lia. }
  split. { cbn [set_data w_hdr h_size]. destruct HW. clear - Hrsz wo_nsel0. nia. }
  assert (Hmo : 0 <= w_metaoff tgt < 2 ^ 62).
  { pose proof P2 as B2. pose proof P2 as B1.
    eapply ctx_of_bound in B1; [|apply HI]. eapply ctx_of_bound2 in B2; [|apply HI|cbn; tauto].
    fold (meta_len st) in B2. rewrite <- (ri_md _ _ _ _ _ _ _ HI) in B2. destruct B1 as [[]|B1]; clear - B1 B2 Hmd; lia. }
  assert (Hrr : ereq k cfg (geom infos) (ctx_of 0 [] (k_wreqs st) l) (set_data rr data) a).
  { unfold ereq. cbn [set_data rr w_hdr h_did h_fsize h_size h_flag w_data w_body a a_did a_data a_sels].
    destruct Hrsz as [Hrs1 Hrs2]. cbn [rr w_hdr h_size w_body] in Hrs1, Hrs2.
    split; [auto|]. split; [auto|]. split; [auto|]. split; [auto|]. split; [auto|]. split; [clear - Hrs1; cbn in Hrs1 |- *; lia|].
    split; [auto|]. split; [auto|].
    exists (di_ndim dip), (di_esize dip), (unlim dip).
    split; [auto|]. split; [rewrite G2; intros R; apply andb_prop in R; apply (is_rec_unlim _ sels), R|]. split; [apply (wo_nsel _ _ _ _ _ _ _ HW)|]. split; [apply (wo_blk _ _ _ _ _ _ _ HW)|].
    rewrite G3. split; auto.
    exists (w_metaoff tgt), t, rec, es', u'. split; auto.
    split; [unfold di_ndim; rewrite Ed; auto|]. split; auto. split; [cbn; clear - Hmeta0 Hmd; lia|].
    split. { intros K. destruct (mul_of (a_sels t)) eqn:Mt.
             - right. rewrite (P6 K eq_refl). rewrite <- (skey_eq rec sels (a_sels t) Es Ec). symmetry. apply S2; auto.
               unfold mul, mul_of. unfold mul_of in Mt. unfold Zlen in Hnst. clear - Mt Hnst; lia.
             - left. apply mul_of_false; auto. rewrite Hnst. apply (wo_nsel _ _ _ _ _ _ _ HW). }
    cbn [set_data rr w_hdr h_flag w_body w_metaoff a a_sels]. rewrite G2. cbn zeta. split; auto.
    pose proof (wo_blk _ _ _ _ _ _ _ HW) as Hbs.
    assert (Hrecsame : rec = true -> sels = map (re_record (recnum_of sels)) (a_sels t)).
    { intros R. destruct (Hrw R) as (_ & _ & Hnd). rewrite R in Es, Ec. cbn [recd] in Es, Ec.
      eapply sels_of_parts; eauto.
      destruct HB as (_ & _ & _ & Hr & _). apply Hr; auto. }
    destruct (rec && negb same) eqn:RS.
    - apply andb_prop in RS. destruct RS as [R _]. split; auto.
    - assert (Hse : sels = a_sels t).
      { destruct rec eqn:R.
        - cbn [andb] in RS. apply negb_false_iff in RS. unfold same in RS. cbn [andb] in RS.
          rewrite (Hrecsame eq_refl). apply Z.eqb_eq in RS. rewrite RS.
          destruct (Hrw eq_refl) as (_ & _ & Hnd).
          eapply re_record_same; eauto.
          destruct P1 as [(_ & _ & _ & Hr & _) _ _ _ _]. apply Hr; auto.
        - cbn [recd] in Es, Ec. apply sels_of_maps; auto. }
      split; auto. intros K. destruct rec eqn:R; auto. exfalso. apply (S3 K R t P3). auto. }
  constructor; cbn [k_wreqs k_mdsize k_hash].
  - apply qrep_snoc; [apply HI| |exact Hrr]. cbn. rewrite (ri_md _ _ _ _ _ _ _ HI). reflexivity.
  - exact (Hmlen (mkrank _ _ _ _ _) (set_data rr data) eq_refl eq_refl).
  - intros key tg Ho. rewrite ctx_of_snoc by auto.
    destruct (ri_hash _ _ _ _ _ _ _ HI key tg Ho) as (-> & rec'' & dims'' & a'' & es'' & u'' & Q1 & Q2 & Q3 & Q4).
    split; auto. exists rec'', dims'', a'', es'', u''. split; auto. split.
    { apply ctx_add_In; auto. }
    split; [apply in_or_app; auto|]. auto.
Qed.
