(** A decision procedure for [SysSpec.ok_history], used to show that the hypotheses of the
    property theorems are met by concrete histories. *)
From Verif Require Import Base BaseProofs Spec MetaModel QueueModel FlushModel IndexModel ReadModel SysModel
  SysSpec History HistoryProofs.
From Coq Require Import ZifyNat ZifyN.

Definition fits_b (nd : nat) (b : block) : bool :=
  (length (b_start b) =? nd)%nat && (length (b_count b) =? nd)%nat &&
  forallb (fun x => (0 <=? x) && (x <? 2 ^ 62)) (b_start b) &&
  forallb (fun x => (0 <? x) && (x <? 2 ^ 31)) (b_count b).

Fixpoint lt2_b (a b : list Z) : bool :=
  match a, b with
  | [], [] => true
  | d :: a', x :: b' => (x <? d) && lt2_b a' b'
  | _, _ => false
  end.
Definition encodable_b (dims c : list Z) : bool :=
  lt2_b (tl dims) (tl c) && (sel_encode (dsteps_of dims) c <? 2 ^ 63).
Definition blk_encodable_b (dims : list Z) (b : block) : bool :=
  encodable_b dims (b_start b) && encodable_b dims (b_count b).

Fixpoint apart_b (sa ca sb cb : list Z) : bool :=
  match sa, ca, sb, cb with
  | a :: sa', x :: ca', b :: sb', y :: cb' => (a + x <=? b) || (b + y <=? a) || apart_b sa' ca' sb' cb'
  | _, _, _, _ => false
  end.
Definition disj_b (a b : block) : bool := apart_b (b_start a) (b_count a) (b_start b) (b_count b).
Fixpoint pairwise_b (l : list block) : bool :=
  match l with [] => true | b :: t => forallb (disj_b b) t && pairwise_b t end.

Definition create_b (cfg : Z) (d : dinfo) : bool :=
  (0 <? di_esize d) && (length (di_mdims d) =? length (di_dims d))%nat &&
  (negb (has cfg CFG_SEL_ENCODE) || negb (length (di_dims d) =? 0)%nat) &&
  match di_fill d with Some f => Zlen f =? di_esize d | None => true end.

Fixpoint le2_b (new mdims : list Z) : bool :=
  match new, mdims with
  | [], [] => true
  | n :: a', m :: b' => ((m =? UNLIMITED) || (n <=? m)) && le2_b a' b'
  | _, _ => false
  end.
Definition extent_b (s : sstate) (did : Z) (dims : list Z) : bool :=
  match set_of s did with
  | Some d => (length dims =? di_ndim d)%nat && le2_b dims (di_mdims d)
  | None => false
  end.

Definition block_eqb (a b : block) : bool :=
  coord_eqb (b_start a) (b_start b) && coord_eqb (b_count a) (b_count b).
Fixpoint sels_eqb (a b : list block) : bool :=
  match a, b with
  | [], [] => true
  | x :: a', y :: b' => block_eqb x y && sels_eqb a' b'
  | _, _ => false
  end.
Definition kind_eqb (a b : kind) : bool :=
  match a, b with KArray, KArray | KCompact, KCompact => true | _, _ => false end.

Section Check.
Context (e : env) (cfg : Z) (cv : conv).

Definition write_b (s : sstate) (h : hstate) (rk : nat) (did : Z) (sels : list block) (data : list Z) : bool :=
  match nth_error (hs_seen h) rk with
  | None => false
  | Some seen =>
      match sels with
      | [] => true
      | _ =>
        match set_of s did with
        | None => false
        | Some d =>
            let dims := if is_rec d sels then tl (di_dims d) else di_dims d in
            (did <? 2 ^ 31) && forallb (fits_b (di_ndim d)) sels &&
            (Zlen data =? di_esize d * sel_size sels) &&
            (meta_bound (Z.of_nat (di_ndim d)) (Zlen sels) <? 2 ^ 31) &&
            (negb (has cfg CFG_SEL_ENCODE && multi sels && (1 <? length dims)%nat) ||
             (forallb (fun x => (0 <=? x) && (x <? 2 ^ 63)) (dsteps_of dims) &&
              forallb (fun b => blk_encodable_b dims (if is_rec d sels then drop1 b else b)) sels)) &&
            (negb (has cfg CFG_METADATA_SHARE) ||
             ((negb (has cfg CFG_SEL_ENCODE && multi sels) ||
               Bool.eqb (is_rec d sels) (c_rec cv (di_ndim d) (length sels))) &&
              (negb (kind_eqb (e_kind e) KArray && multi sels) || 
               (di_esize d =? c_esize cv (if is_rec d sels then map drop1 sels else sels))) &&
              (negb (kind_eqb (e_kind e) KCompact && is_rec d sels) || negb (existsb (sels_eqb sels) seen)))) &&
            (negb (kind_eqb (e_kind e) KCompact && has_unlimited d) ||
             forallb (fun b => hd 0 (b_start b) <? 2 ^ 31) sels)
        end
      end
  end.

Definition flush_b (s : sstate) (h : hstate) (doff : Z) : bool :=
  (pend_bytes s =? 0) || ((hs_hi h <=? doff) && (doff + pend_bytes s <? 2 ^ 63)).

Definition call_b (s : sstate) (c : rcall) : bool :=
  negb (length (rc_sels c) =? 0)%nat &&
  match set_of s (rc_did c) with
  | None => false
  | Some d =>
      forallb (fits_b (di_ndim d)) (rc_sels c) &&
      forallb (fun b => last (b_count b) 1 * di_esize d <? 2 ^ 31) (rc_sels c) &&
      pairwise_b (rc_sels c) &&
      (negb (kind_eqb (e_kind e) KCompact && has_unlimited d) ||
       forallb (fun b => hd 0 (b_start b) <? 2 ^ 31) (rc_sels c))
  end.

Definition read_b (s : sstate) (h : hstate) (doff : Z) (calls : list rcall) : bool :=
  (if e_coll e then flush_b s h doff else (length (concat (ss_pend s)) =? 0)%nat) &&
  (match e_limit e with None => true
   | Some _ => negb (hs_hi h =? 0) || negb (length (concat (ss_pend s)) =? 0)%nat end) &&
  negb (length calls =? 0)%nat && forallb (call_b s) calls.

Definition op_b (s : sstate) (h : hstate) (o : op) : bool :=
  match o with
  | OCreate d => create_b cfg d
  | OSetExtent did dims => extent_b s did dims
  | OWrite rk did sels data => write_b s h rk did sels data
  | OFlush doff => flush_b s h doff
  | ORead doff calls => read_b s h doff calls
  | OReopen doff np => (0 <? np)%nat && (Z.of_nat np <? 2 ^ 31) && flush_b s h doff
  end.

Fixpoint run_b (s : sstate) (h : hstate) (ops : list op) : bool :=
  match ops with
  | [] => true
  | o :: rest => op_b s h o && run_b (fst (sstep (e_coll e) s o)) (hstep e s h o) rest
  end.

Definition history_b (np : nat) (ops : list op) : bool :=
  (0 <=? cfg) && (cfg <? 16) && negb (has cfg CFG_METADATA_MERGE) &&
  (0 <? np)%nat && (Z.of_nat np <? 2 ^ 31) && (Z.of_nat (length ops) <? 2 ^ 30) &&
  run_b (sinit np) (mkhs 0 (repeat [] np)) ops.

(** Soundness. *)
Lemma forallb_Forall : forall A (f : A -> bool) (P : A -> Prop) l,
  (forall a, f a = true -> P a) -> forallb f l = true -> Forall P l.
Proof. intros A f P l H Hf. rewrite forallb_forall in Hf. apply Forall_forall. auto. Qed.

Lemma fits_b_ok : forall nd b, fits_b nd b = true -> blk_fits nd b.
Proof.
  unfold fits_b, blk_fits. intros nd b H. rewrite !andb_true_iff in H. destruct H as [[[H1 H2] H3] H4].
  apply Nat.eqb_eq in H1, H2. split; auto. split; auto. split.
  - revert H3. apply forallb_Forall. intros a. rewrite andb_true_iff. intros [A B]. apply Z.leb_le in A. apply Z.ltb_lt in B. lia.
  - revert H4. apply forallb_Forall. intros a. rewrite andb_true_iff. intros [A B]. apply Z.ltb_lt in A. apply Z.ltb_lt in B. lia.
Qed.

Lemma lt2_b_ok : forall a b, lt2_b a b = true -> Forall2 (fun d x => x < d) a b.
Proof.
  induction a as [|d a IH]; intros [|x b] H; cbn in H; try discriminate; constructor; apply andb_true_iff in H; destruct H as [H1 H2]; auto.
  apply Z.ltb_lt. exact H1.
Qed.

Lemma blk_encodable_b_ok : forall dims b, blk_encodable_b dims b = true -> blk_encodable dims b.
Proof.
  unfold blk_encodable_b, encodable_b, blk_encodable, encodable. intros dims b H. rewrite !andb_true_iff in H.
  destruct H as [[H1 H2] [H3 H4]]. apply Z.ltb_lt in H2, H4. auto using lt2_b_ok.
Qed.

Lemma apart_b_ok : forall sa ca sb cb c, apart_b sa ca sb cb = true -> inside sa ca c -> inside sb cb c -> False.
Proof.
  induction sa as [|a sa IH]; intros [|x ca] [|b sb] [|y cb] [|z c] H H1 H2; cbn in *; try discriminate; try tauto.
  destruct H1 as [A1 A2], H2 as [B1 B2]. rewrite !orb_true_iff in H. destruct H as [[H|H]|H].
  - apply Z.leb_le in H. lia.
  - apply Z.leb_le in H. lia.
  - eauto.
Qed.

Lemma pairwise_b_ok : forall l, pairwise_b l = true -> ForallOrdPairs disjoint_blocks l.
Proof.
  induction l as [|b l IH]; intros H; [constructor|]. cbn in H. apply andb_true_iff in H. destruct H as [H1 H2]. constructor; auto.
  revert H1. apply forallb_Forall. intros a Ha c. unfold in_block. apply apart_b_ok. exact Ha.
Qed.

Lemma sels_eqb_refl : forall a, sels_eqb a a = true.
Proof.
  assert (C : forall l, coord_eqb l l = true) by (intros l; unfold coord_eqb; destruct (list_eq_dec Z.eq_dec l l); congruence).
  induction a as [|b a IH]; [reflexivity|]. cbn. unfold block_eqb. rewrite !C, IH. reflexivity.
Qed.

Lemma le2_b_ok : forall a b, le2_b a b = true -> Forall2 (fun n m => m = UNLIMITED \/ n <= m) a b.
Proof.
  induction a as [|d a IH]; intros [|x b] H; cbn [le2_b] in H; try discriminate; constructor; apply andb_true_iff in H; destruct H as [H1 H2]; auto.
  apply orb_true_iff in H1. destruct H1 as [H1|H1]; [left; apply Z.eqb_eq|right; apply Z.leb_le]; exact H1.
Qed.

Lemma kind_eqb_refl : forall k, kind_eqb k k = true.
Proof. destruct k; reflexivity. Qed.

Lemma write_b_ok : forall s h rk did sels data, write_b s h rk did sels data = true -> ok_write e cfg cv s h rk did sels data.
Proof.
  unfold write_b, ok_write. intros s h rk did sels data H. destruct (nth_error (hs_seen h) rk) as [seen|]; [|discriminate].
  exists seen. split; auto. intros Hne. destruct sels as [|b0 sels0]; [congruence|]. set (sels := b0 :: sels0) in *.
  destruct (set_of s did) as [d|]; [|discriminate]. exists d. split; auto. cbv zeta in H.
  apply andb_true_iff in H. destruct H as [H H7]. apply andb_true_iff in H. destruct H as [H H6]. apply andb_true_iff in H. destruct H as [H H5].
  apply andb_true_iff in H. destruct H as [H H4]. apply andb_true_iff in H. destruct H as [H H3]. apply andb_true_iff in H. destruct H as [H1 H2].
  apply Z.ltb_lt in H1. apply Z.eqb_eq in H3. apply Z.ltb_lt in H4.
  split; auto. split; [revert H2; apply forallb_Forall; apply fits_b_ok|]. split; auto. split; auto. split; [|split].
  - intros E M L. apply orb_true_iff in H5. destruct H5 as [H5|H5].
    + rewrite E, M in H5. apply Nat.ltb_lt in L. rewrite L in H5. discriminate.
    + apply andb_true_iff in H5. destruct H5 as [A B]. split.
      * revert A. apply forallb_Forall. intros a. rewrite andb_true_iff. intros [P Q]. apply Z.leb_le in P. apply Z.ltb_lt in Q. lia.
      * revert B. apply forallb_Forall. intros b. apply blk_encodable_b_ok.
  - intros E. rewrite E in H6. cbn [negb orb] in H6. rewrite !andb_true_iff in H6. destruct H6 as [[A B] C].
    split; [|split].
    + intros N M. rewrite N, M in A. cbn [andb negb orb] in A. apply eqb_prop. exact A.
    + intros K M. rewrite K, M in B. cbn [kind_eqb andb negb orb] in B. apply Z.eqb_eq. exact B.
    + intros K R Hin. rewrite K, R in C. cbn [kind_eqb andb negb orb] in C. apply negb_true_iff in C.
      assert (X : existsb (sels_eqb sels) seen = true) by (apply existsb_exists; exists sels; split; auto using sels_eqb_refl). congruence.
  - intros K U. rewrite K, U in H7. cbn [kind_eqb andb negb orb] in H7. revert H7. apply forallb_Forall. intros b. apply Z.ltb_lt.
Qed.

Lemma flush_b_ok : forall s h doff, flush_b s h doff = true -> ok_flush s h doff.
Proof.
  unfold flush_b, ok_flush. intros s h doff H Hn. apply orb_true_iff in H. destruct H as [H|H].
  - apply Z.eqb_eq in H. congruence.
  - apply andb_true_iff in H. destruct H as [A B]. apply Z.leb_le in A. apply Z.ltb_lt in B. auto.
Qed.

Lemma call_b_ok : forall s c, call_b s c = true -> ok_call e s c.
Proof.
  unfold call_b, ok_call. intros s c H. apply andb_true_iff in H. destruct H as [H0 H]. split.
  { intros Q. rewrite Q in H0. discriminate. }
  destruct (set_of s (rc_did c)) as [d|]; [|discriminate]. exists d. split; auto.
  rewrite !andb_true_iff in H. destruct H as [[[H1 H2] H3] H4].
  split; [revert H1; apply forallb_Forall; apply fits_b_ok|].
  split; [revert H2; apply forallb_Forall; intros b; apply Z.ltb_lt|].
  split; [apply pairwise_b_ok; exact H3|].
  intros K U. rewrite K, U in H4. cbn [kind_eqb andb negb orb] in H4. revert H4. apply forallb_Forall. intros b. apply Z.ltb_lt.
Qed.

Lemma op_b_ok : forall s h o, op_b s h o = true -> ok_op e cfg cv s h o.
Proof.
  intros s h [d|did dims|rk did sels data|doff|doff calls|doff np]; cbn [op_b ok_op]; intros H.
  - unfold create_b in H. rewrite !andb_true_iff in H. destruct H as [[[H1 H2] H3] H4]. apply Z.ltb_lt in H1. apply Nat.eqb_eq in H2.
    split; auto. split; auto. split.
    + intros E Q. rewrite E, Q in H3. discriminate.
    + destruct (di_fill d); auto. apply Z.eqb_eq. exact H4.
  - unfold extent_b in H. destruct (set_of s did) as [d|] eqn:E; [|discriminate]. apply andb_true_iff in H. destruct H as [H1 H2].
    exists d. split; auto. split; [apply Nat.eqb_eq; exact H1|apply le2_b_ok; exact H2].
  - apply write_b_ok. exact H.
  - apply flush_b_ok. exact H.
  - unfold read_b in H. rewrite !andb_true_iff in H. destruct H as [[[H1 H2] H3] H4]. split; [|split; [|split]].
    + destruct (e_coll e); [apply flush_b_ok; exact H1|]. apply Nat.eqb_eq in H1. apply length_zero_iff_nil. exact H1.
    + intros L. destruct (e_limit e); [|congruence]. apply orb_true_iff in H2. destruct H2 as [H2|H2].
      * left. intros Q. rewrite Q in H2. discriminate.
      * right. intros Q. rewrite Q in H2. discriminate.
    + intros Q. rewrite Q in H3. discriminate.
    + revert H4. apply forallb_Forall. intros c. apply call_b_ok.
  - rewrite !andb_true_iff in H. destruct H as [[H1 H2] H3]. split; [apply Nat.ltb_lt; exact H1|]. split; [apply Z.ltb_lt; exact H2|apply flush_b_ok; exact H3].
Qed.

Lemma run_b_ok : forall ops s h, run_b s h ops = true -> ok_run e cfg cv s h ops.
Proof.
  induction ops as [|o ops IH]; intros s h H; [exact I|]. cbn [run_b] in H. apply andb_true_iff in H. destruct H as [H1 H2].
  split; [apply op_b_ok; exact H1|apply IH; exact H2].
Qed.

Theorem history_b_ok : forall np ops, is_sort (e_sort e) -> history_b np ops = true -> ok_history e cfg cv np ops.
Proof.
  intros np ops HS H. unfold history_b in H. rewrite !andb_true_iff in H.
  destruct H as [[[[[[H1 H2] H3] H4] H5] H6] H7].
  apply Z.leb_le in H1. apply Z.ltb_lt in H2, H5, H6. apply negb_true_iff in H3. apply Nat.ltb_lt in H4.
  split; [split; auto|]. split; auto. split; auto. split; auto. split; auto. apply run_b_ok. exact H7.
Qed.
End Check.
