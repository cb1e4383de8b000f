(** A metadata dataset that was created and not written, and a dataset whose creation was not completed. *)
From Verif Require Import Base BaseProofs Spec MetaModel QueueModel FlushModel IndexModel ReadModel SysModel
  SysSpec FlushProofs SysProofs AnySpec AnyProofs CrashModel CrashSpec CrashProofs CrashClaims CrashClaims2 FaultModel FaultSpec FaultProofs FaultSim FaultClaims.
From Coq Require Import ZifyNat ZifyN.

(** ** Zeros are not metadata *)
Definition zeros (n : nat) : list Z := repeat 0 n.
Lemma firstn_zeros : forall k n, firstn k (zeros n) = zeros (Nat.min k n).
Proof. induction k; intros [|n]; cbn; auto. f_equal. apply IHk. Qed.
Lemma skipn_zeros : forall k n, skipn k (zeros n) = zeros (n - k).
Proof. induction k; intros [|n]; cbn; auto. Qed.
Lemma unle_zeros : forall n, unle (zeros n) = 0.
Proof. induction n; cbn [zeros repeat unle]; auto. fold (zeros n). rewrite IHn. reflexivity. Qed.
Lemma sle_zeros : forall n, (0 < n)%nat -> sle (zeros n) = 0.
Proof.
  intros n H. unfold sle, to_signed. rewrite unle_zeros. unfold zeros. rewrite repeat_length. destruct (Z.ltb_spec 0 (2 ^ (8 * Z.of_nat n - 1))); auto.
  assert (0 < 2 ^ (8 * Z.of_nat n - 1)) by (apply Z.pow_pos_nonneg; lia). lia.
Qed.
Lemma rd_zeros : forall n off k b, rd (zeros n) off k = Some b -> b = zeros k.
Proof.
  intros n off k b H. unfold rd in H. destruct (Z.leb_spec 0 off); cbn [andb] in H; [|discriminate]. destruct (Z.leb_spec (off + Z.of_nat k) (Z.of_nat (length (zeros n)))) as [L|]; [|discriminate]. injection H as <-.
  unfold zeros in L. rewrite repeat_length in L. rewrite skipn_zeros, firstn_zeros. f_equal. lia.
Qed.
Lemma hdr_zeros : forall n h, rd_hdr (zeros n) 0 = Some h -> h_size h = 0.
Proof.
  intros n h H. unfold rd_hdr in H. destruct (rd (zeros n) 0 HDR) as [b|] eqn:E; [|discriminate]. apply rd_zeros in E. subst b. injection H as <-. reflexivity.
Qed.
Lemma zeros_array : forall fuel n z cfg infos bc l, (0 < n)%nat -> parse_array fuel z cfg infos (zeros n) 0 bc <> Ok l.
Proof.
  induction fuel as [|fuel IH]; intros n z cfg infos bc l H; cbn [parse_array]; [discriminate|]. assert (L : (Zlen (zeros n) <=? 0) = false) by (unfold Zlen, zeros; rewrite repeat_length; apply Z.leb_gt; lia). rewrite L.
  destruct (rd_hdr (zeros n) 0) as [h|] eqn:E; cbn [or_ub bind]; [|discriminate]. apply hdr_zeros in E. rewrite E, Z.add_0_r. destruct (info_at infos _) as [[d|]|]; cbn [or_ub bind]; try discriminate; [|apply IH; auto].
  destruct (_ && _).
  - destruct (ref_decode _ _ _ _); cbn [bind]; try discriminate. destruct (parse_array _ _ _ _ _ _ _) eqn:E1; cbn [bind]; try discriminate. exfalso. eapply IH; eauto.
  - destruct (decode _ _ _ _); cbn [bind]; try discriminate. destruct (parse_array _ _ _ _ _ _ _) eqn:E1; cbn [bind]; try discriminate. exfalso. eapply IH; eauto.
Qed.
Lemma zeros_compact : forall fuel n z cfg infos bc l, (0 < n)%nat -> parse_compact fuel z cfg infos (zeros n) 0 bc <> Ok l.
Proof.
  induction fuel as [|fuel IH]; intros n z cfg infos bc l H; cbn [parse_compact]; [discriminate|]. assert (L : (Zlen (zeros n) <=? 0) = false) by (unfold Zlen, zeros; rewrite repeat_length; apply Z.leb_gt; lia). rewrite L.
  destruct (rd_hdr (zeros n) 0) as [h|] eqn:E; cbn [or_ub bind]; [|discriminate]. apply hdr_zeros in E. rewrite E, Z.add_0_r. destruct (info_at infos _) as [[d|]|]; cbn [or_ub bind]; try discriminate; [|apply IH; auto].
  destruct (_ && _).
  - destruct (if has (h_flag h) FLAG_REC then _ else _); cbn [bind]; try discriminate. destruct (or_ub (rd_i64 _ _)); cbn [bind]; try discriminate. destruct (parse_compact _ _ _ _ _ _ _) eqn:E1; cbn [bind]; try discriminate. exfalso. eapply IH; eauto.
  - destruct (decode _ _ _ _); cbn [bind]; try discriminate. destruct (parse_compact _ _ _ _ _ _ _) eqn:E1; cbn [bind]; try discriminate. exfalso. eapply IH; eauto.
Qed.
Lemma zeros_parse : forall z cfg infos i n j, (0 < n)%nat -> idx_parse z cfg infos i (zeros n) <> Ok j.
Proof.
  intros z cfg infos i n j H. unfold idx_parse. destruct i.
  - destruct (parse_array _ _ _ _ _ _ _) eqn:E; cbn [bind]; try discriminate. exfalso. eapply zeros_array; eauto.
  - destruct (parse_compact _ _ _ _ _ _ _) eqn:E; cbn [bind]; try discriminate. exfalso. eapply zeros_compact; eauto.
Qed.
Lemma i64_zeros : forall n k, rd_i64 (zeros n) 0 = Some k -> k = 0.
Proof. intros n k H. unfold rd_i64 in H. destruct (rd _ _ _) as [b|] eqn:E; cbn in H; [|discriminate]. apply rd_zeros in E. subst. injection H as <-. reflexivity. Qed.
Lemma body_zeros : forall n b, (8 < n)%nat -> md_body (zeros n) = Some b -> b = zeros (n - 8).
Proof.
  intros n b H E. unfold md_body in E. destruct (rd_i64 (zeros n) 0) as [k|] eqn:K; [|discriminate]. apply i64_zeros in K. subst k. apply rd_zeros in E. subst. f_equal. unfold Zlen, zeros. rewrite repeat_length. lia.
Qed.
Lemma zeros_load : forall z cfg infos mds i j n, (8 < n)%nat -> In (zeros n) mds -> load_all z cfg infos i mds <> Ok j.
Proof.
  intros z cfg infos. induction mds as [|md mds IH]; intros i j n H Hi; [destruct Hi|]. cbn [load_all]. destruct (md_body md) as [b|] eqn:B; cbn [or_ub bind]; [|discriminate].
  destruct (idx_parse z cfg infos i b) as [i'| |] eqn:P; cbn [bind]; try discriminate. destruct Hi as [->|Hi]; [|eapply IH; eauto]. apply body_zeros in B; auto. subst. exfalso. eapply zeros_parse; [|exact P]. lia.
Qed.
Lemma zeros_parts : forall fuel z cfg infos k lim mds md sec rs m n l, nth_error mds m = Some (zeros n) -> (md <= m)%nat ->
  search_parts fuel z cfg infos k lim mds md sec rs <> Ok l.
Proof.
  induction fuel as [|fuel IH]; intros z cfg infos k lim mds md sec rs m n l N L; cbn [search_parts]; [discriminate|].
  assert (Lm : (m < length mds)%nat) by (apply nth_error_Some; congruence).
  destruct (load_part lim mds md sec) as [[b nx]| |] eqn:P; cbn [bind fst snd]; try discriminate.
  assert (Q : exists md' sec', nx = Some (md', sec') /\ (md' <= m)%nat).
  { unfold load_part in P. destruct (nth_error mds md) as [bytes|] eqn:N1; [|discriminate]. destruct (rd_i64 bytes 0) as [nsec|] eqn:Ns; cbn [or_ub bind] in P; [|discriminate].
    destruct (rd_words _ _ _) as [offs|]; cbn [or_ub bind] in P; [|discriminate]. destruct (Z.leb_spec nsec (Z.of_nat sec)) as [|Hs]; [discriminate|].
    assert (md <> m). { intros ->. rewrite N in N1. injection N1 as <-. apply i64_zeros in Ns. lia. }
    destruct (nsec <=? _).
    - destruct (rd bytes _ _); cbn [or_ub bind] in P; [|discriminate]. destruct (Nat.leb_spec (length mds) (S md)); [lia|]. injection P as <- <-. exists (S md), 0%nat. split; auto. lia.
    - destruct (rd bytes _ _); cbn [or_ub bind] in P; [|discriminate]. destruct (Nat.leb_spec (length mds) md); [lia|]. injection P as <- <-. eexists md, _. split; [reflexivity|]. lia. }
  destruct Q as (md' & sec' & -> & L'). destruct (idx_parse _ _ _ _ _); cbn [bind]; try discriminate. destruct (idx_search _ _ _); cbn [bind]; try discriminate.
  destruct (search_parts fuel _ _ _ _ _ _ _ _ _) eqn:E; cbn [bind]; try discriminate. exfalso. eapply IH; eauto.
Qed.
Lemma zeros_search : forall z cfg infos k lim mds rs n r, (8 < n)%nat -> In (zeros n) mds -> read_search z cfg infos k lim mds None rs <> Ok r.
Proof.
  intros z cfg infos k lim mds rs n r H Hi. unfold read_search. destruct lim as [lim|].
  - apply In_nth_error in Hi. destruct Hi as (m & Hm). destruct (search_parts _ _ _ _ _ _ _ _ _ _) eqn:E; cbn [bind]; try discriminate. exfalso. eapply zeros_parts; [exact Hm| |exact E]. lia.
  - destruct (load_all _ _ _ _ _) eqn:E; cbn [bind]; try discriminate. exfalso. eapply zeros_load; eauto.
Qed.
Lemma zeros_each : forall e g cs p n, (8 < n)%nat -> In (zeros n) (g_mdsets g) -> read_each e g None cs = Ok p -> Forall (fun c => rc_sels c = []) cs /\ snd p = None.
Proof.
  intros e g. induction cs as [|c cs IH]; intros p n H Hi R; cbn [read_each] in R; [injection R as <-; split; auto|]. destruct (read_one e g None c) as [[b i]| |] eqn:E; cbn [bind fst snd] in R; try discriminate.
  unfold read_one in E. destruct (rc_sels c) as [|s ss] eqn:S0.
  - injection E as <- <-. destruct (read_each e g None cs) as [q| |] eqn:E1; cbn [bind] in R; try discriminate. injection R as <-. destruct (IH _ _ H Hi eq_refl). cbn. auto.
  - exfalso. destruct (info_at _ _) as [[d|]|]; try discriminate. destruct (read_search _ _ _ _ _ _ _ _) eqn:E1; cbn [bind] in E; try discriminate. eapply zeros_search; eauto.
Qed.

(** ** The zeros stay *)
Lemma get_zero : forall n off, get (fun _ => 0) off n = zeros n.
Proof. intros n off. unfold get, zeros. rewrite <- (seq_length n 0) at 2. generalize (seq 0 n). induction l; cbn; f_equal; auto. Qed.
(** Metadata dataset [m] holds [size] zero bytes, in the open file and on the disk. *)
Record zeroed (m : nat) (size : Z) (x : fstate) : Prop := {
  zd_size : 8 < size;
  zd_mem : nth_error (g_mdsets (s_g (x_sys x))) m = Some (zeros (Z.to_nat size));
  zd_disk : find_key (Z.of_nat m) (dk_mds (x_disk x)) = Some (size, fun _ => 0);
  zd_idx : g_metadirty (s_g (x_sys x)) = true \/ s_idx (x_sys x) = None;
  zd_dead : x_dead x = false }.

Definition off_md (m : Z) (x : effect) : Prop := match x with XMdPut n _ _ => n <> m | _ => True end.
Lemma find_app_some : forall A k (l l' : list (Z * A)) a, find_key k l = Some a -> find_key k (l ++ l') = Some a.
Proof. induction l as [|p l IH]; intros l' a H; cbn in *; [discriminate|]. destruct (_ =? k); auto. Qed.
Lemma find_at_other : forall A k j (f : A -> A) l, j <> k -> find_key k (at_key j f l) = find_key k l.
Proof.
  induction l as [|p l IH]; intros N; unfold at_key in *; cbn [map find_key]; auto. destruct (Z.eqb_spec (fst p) j) as [E|E]; cbn [fst snd]; [|rewrite IH; auto]. destruct (Z.eqb_spec (fst p) k); [congruence|auto].
Qed.
Lemma apply_mds : forall m a dk x dk', off_md m x -> find_key m (dk_mds dk) = Some a -> apply dk x = Ok dk' -> find_key m (dk_mds dk') = Some a.
Proof.
  intros m a dk x dk' O F A. destruct x; cbn [apply off_md] in *; try (injection A as <-; exact F).
  - destruct (find_key k (dk_sets dk)); [discriminate|]. injection A as <-. exact F.
  - destruct (existsb _ _); [discriminate|]. injection A as <-. exact F.
  - destruct (find_key n (dk_mds dk)); [discriminate|]. injection A as <-. cbn. apply find_app_some. exact F.
  - injection A as <-. cbn [dk_mds]. rewrite find_at_other by auto. exact F.
Qed.
Lemma attempt_mds : forall m a bad xs n dk dk' k, Forall (off_md m) xs -> find_key m (dk_mds dk) = Some a -> attempt bad n dk xs = (dk', k) -> find_key m (dk_mds dk') = Some a.
Proof.
  induction xs as [|x xs IH]; intros n dk dk' k O F A; cbn [attempt] in A; [injection A as <- <-; auto|]. inversion O as [|? ? O1 O2]; subst. destruct (bad x); [injection A as <- <-; auto|].
  destruct (apply dk x) as [d| |] eqn:E; try (injection A as <- <-; auto; fail). eapply IH; [exact O2| |exact A]. eapply apply_mds; eauto.
Qed.
Lemma off_flush : forall m doff g, Forall (off_md m) (flush_effects doff g).
Proof. intros. unfold flush_effects. destruct (_ =? 0); constructor; cbn; auto. apply Forall_map, Forall_forall. intros; exact Logic.I. Qed.
Lemma off_meta : forall m g, (m < length (g_mdsets g))%nat -> Forall (off_md (Z.of_nat m)) (meta_effects g).
Proof. intros m g H. unfold meta_effects. destruct (_ <? _); constructor; cbn; auto. apply Forall_map, Forall_forall. intros p _. cbn. unfold Zlen. lia. Qed.
Lemma flush_mdsets : forall doff g, g_mdsets (flush_writes doff g) = g_mdsets g.
Proof. intros. unfold flush_writes. destruct (_ =? 0); reflexivity. Qed.
Lemma flush_dirty : forall doff g, g_metadirty g = true -> g_metadirty (flush_writes doff g) = true.
Proof. intros. unfold flush_writes. destruct (_ =? 0); auto. Qed.
Lemma meta_mdsets : forall g m a, nth_error (g_mdsets g) m = Some a -> nth_error (g_mdsets (metaflush g)) m = Some a.
Proof. intros g m a H. cbn. destruct (_ <? _); auto. rewrite nth_error_app1; auto. apply nth_error_Some. congruence. Qed.
Lemma off_effects : forall e s o m, (m < length (g_mdsets (s_g s)))%nat -> Forall (off_md (Z.of_nat m)) (effects e s o).
Proof.
  intros e s o m H. destruct o; cbn [effects].
  - repeat constructor.
  - destruct (info_at _ _) as [[d|]|]; repeat constructor.
  - constructor.
  - destruct (any_pending _); auto using off_flush.
  - apply Forall_app. split; [destruct (_ && _); auto using off_flush|]. destruct (g_metadirty _); auto. apply off_meta. destruct (_ && _); rewrite ?flush_mdsets; auto.
  - apply Forall_app. split; [apply off_flush|]. apply Forall_app. split; [apply off_meta; rewrite flush_mdsets; auto|]. repeat constructor.
Qed.
Lemma open_mds_nth : forall mds ns l i n a, open_mds mds ns = Ok l -> nth_error ns i = Some n -> find_key n mds = Some a -> nth_error l i = Some (get (snd a) 0 (Z.to_nat (fst a))).
Proof.
  induction ns as [|k ns IH]; intros l i n a H N F; [destruct i; discriminate|]. cbn [open_mds] in H. destruct (find_key k mds) as [b|] eqn:Fk; [|discriminate]. destruct (open_mds mds ns) eqn:E; cbn [bind] in H; try discriminate. injection H as <-.
  destruct i as [|i]; cbn in N |- *; [injection N as ->; congruence|]. eapply IH; eauto.
Qed.
Lemma zseq_nth : forall n i, (i < Z.to_nat n)%nat -> nth_error (zseq n) i = Some (Z.of_nat i).
Proof. intros n i H. unfold zseq. rewrite nth_error_map. rewrite (nth_error_nth' _ 0%nat) by (rewrite seq_length; auto). rewrite seq_nth by auto. reflexivity. Qed.
(** Closing and opening. *)
Lemma zero_reopen : forall m size np dk s, 8 < size -> find_key (Z.of_nat m) (dk_mds dk) = Some (size, fun _ => 0) -> Z.of_nat m < at_nmdset (dk_att dk) -> recover np dk = Ok s -> zeroed m size (mkfs s dk false).
Proof.
  intros m size np dk s H F L R. apply recover_fields in R. destruct R as (_ & R2 & R3 & R4). constructor; auto; cbn [x_sys x_disk x_dead].
  rewrite (open_mds_nth _ _ _ m _ _ R4 (zseq_nth (at_nmdset (dk_att dk)) m ltac:(lia)) F). cbn [fst snd]. rewrite get_zero. reflexivity.
Qed.
Lemma apply_last : forall xs dk a dk', apply_all dk (xs ++ [XAtt a]) = Ok dk' -> dk_att dk' = a.
Proof.
  induction xs as [|x xs IH]; intros dk a dk' H; cbn [app apply_all] in H; [cbn in H; injection H as <-; reflexivity|]. destruct (apply dk x); cbn [bind] in H; try discriminate. eauto.
Qed.

Lemma zero_step : forall e x f x1 o m size, zeroed m size x -> fstep e x f = Ok (x1, o) -> (is_close f = true -> o <> None) -> zeroed m size x1 /\ (reads f -> o = None).
Proof.
  intros e x f x1 o m size Zx H N. pose proof Zx as [Z1 Z2 Z3 Z4 Z5]. unfold fstep in H. assert (Lm : (m < length (g_mdsets (s_g (x_sys x))))%nat) by (apply nth_error_Some; congruence).
  destruct f as [bad op| |doff np].
  - rewrite Z5 in H. destruct op as [d|did dims|rk did sels data|doff|doff calls|doff np].
    + split; [|intros []]. cbn [refused] in H. destruct (attempt _ _ _ _) as [dk' [k|]] eqn:A; apply (attempt_mds (Z.of_nat m) _ _ _ _ _ _ _ (off_effects e _ _ _ Lm) Z3) in A.
      * injection H as <- <-. constructor; auto.
      * cbn [step] in H. destruct (create_info _ _); cbn [bind fst snd] in H; try discriminate. injection H as <- <-. constructor; auto.
    + split; [|intros []]. assert (Q : forall k dk, find_key (Z.of_nat m) (dk_mds dk) = Some (size, fun _ => 0) -> zeroed m size (mkfs (stopped e (x_sys x) (OSetExtent did dims) k dk) dk false)).
      { intros k dk F. cbn [stopped]. destruct (info_at _ _) as [[d|]|]; constructor; auto. }
      destruct (refused _ _); [injection H as <- <-; apply (Q 0%nat); exact Z3|]. destruct (attempt _ _ _ _) as [dk' [k|]] eqn:A; apply (attempt_mds (Z.of_nat m) _ _ _ _ _ _ _ (off_effects e _ _ _ Lm) Z3) in A.
      * injection H as <- <-. apply (Q k). exact A.
      * cbn [step] in H. destruct (info_at _ _) as [[d|]|]; try discriminate. destruct (set_extent _ _ _) as [d' []]; cbn [bind fst snd] in H; try discriminate. injection H as <- <-. constructor; auto.
    + split; [|intros []]. cbn [refused effects attempt step] in H. destruct (nth_error (g_ranks _) _) as [st|]; cbn [bind] in H; try discriminate. destruct (ds_write _ _ _ _ _ _ _); cbn [bind fst snd] in H; try discriminate.
      injection H as <- <-. constructor; auto.
    + split; [|intros []]. cbn [refused] in H. destruct (attempt _ _ _ _) as [dk' [k|]] eqn:A; apply (attempt_mds (Z.of_nat m) _ _ _ _ _ _ _ (off_effects e _ _ _ Lm) Z3) in A.
      * injection H as <- <-. constructor; auto.
      * cbn [step bind fst snd] in H. injection H as <- <-. destruct (any_pending _); [|constructor; auto]. constructor; auto; cbn [x_sys x_disk s_g s_idx]; rewrite ?flush_mdsets; auto. destruct Z4; auto using flush_dirty.
    + cbn [refused] in H. destruct (attempt _ _ _ _) as [dk' [k|]] eqn:A; apply (attempt_mds (Z.of_nat m) _ _ _ _ _ _ _ (off_effects e _ _ _ Lm) Z3) in A.
      * injection H as <- <-. split; auto. cbn [stopped orphan closes_file orb]. set (g1 := if e_coll e && any_pending (s_g (x_sys x)) then flush_writes doff (s_g (x_sys x)) else s_g (x_sys x)).
        destruct (k <? _)%nat; [constructor; auto|].
        assert (Q : nth_error (g_mdsets g1) m = Some (zeros (Z.to_nat size)) /\ (g_metadirty g1 = true \/ s_idx (x_sys x) = None)).
        { subst g1. destruct (_ && _); auto. rewrite flush_mdsets. split; auto. destruct Z4; auto using flush_dirty. }
        destruct Q as [Q1 Q2]. destruct (k - _)%nat; [constructor; auto|]. constructor; auto. cbn. rewrite nth_error_app1; auto. apply nth_error_Some. congruence.
      * cbn [step] in H. set (g1 := if e_coll e && any_pending (s_g (x_sys x)) then flush_writes doff (s_g (x_sys x)) else s_g (x_sys x)) in *.
        assert (Q : nth_error (g_mdsets g1) m = Some (zeros (Z.to_nat size)) /\ (g_metadirty g1 = true \/ s_idx (x_sys x) = None)).
        { subst g1. destruct (_ && _); auto. rewrite flush_mdsets. split; auto. destruct Z4; auto using flush_dirty. }
        destruct Q as [Q1 Q2]. set (g2 := if g_metadirty g1 then metaflush g1 else g1) in *.
        assert (Q3 : nth_error (g_mdsets g2) m = Some (zeros (Z.to_nat size))) by (subst g2; destruct (g_metadirty g1); auto; apply meta_mdsets; auto).
        replace (if g_metadirty g1 then None else s_idx (x_sys x)) with (@None index) in H by (destruct (g_metadirty g1); destruct Q2; congruence).
        destruct (read_each e g2 None calls) as [p| |] eqn:Re; cbn [bind fst snd] in H; try discriminate. injection H as <- <-.
        destruct (zeros_each _ _ _ _ (Z.to_nat size) ltac:(lia) (nth_error_In _ _ Q3) Re) as [E1 E2]. split.
        -- constructor; auto.
        -- cbn. intros Ex. exfalso. apply Exists_exists in Ex. destruct Ex as (c & C1 & C2). rewrite Forall_forall in E1. auto.
    + split; [|intros []]. cbn [refused] in H. destruct (attempt _ _ _ _) as [dk' [k|]] eqn:A; pose proof (attempt_mds (Z.of_nat m) _ _ _ _ _ _ _ (off_effects e _ _ _ Lm) Z3 A) as A'.
      * exfalso. injection H as <- <-. apply N; auto.
      * destruct (recover np dk') as [s'| |] eqn:R; cbn [bind] in H; try discriminate. injection H as <- <-. apply attempt_all in A. cbn [effects] in A. rewrite app_assoc in A. apply apply_last in A. eapply zero_reopen; eauto. rewrite A. cbn [at_nmdset].
        pose proof (meta_mdsets (flush_writes doff (s_g (x_sys x))) m (zeros (Z.to_nat size))) as M. rewrite flush_mdsets in M. specialize (M Z2). assert (Lq : (m < length (g_mdsets (metaflush (flush_writes doff (s_g (x_sys x))))))%nat) by (apply nth_error_Some; congruence). unfold Zlen. lia.
  - split; [|intros []]. destruct (any_pending _); [|injection H as <- <-; auto].
    assert (O : Forall (off_md (Z.of_nat m)) (nowhere_effects (s_g (x_sys x)))) by (unfold nowhere_effects; destruct (_ =? 0); repeat constructor).
    destruct (attempt _ _ _ _) as [dk' [k|]] eqn:A; apply (attempt_mds (Z.of_nat m) _ _ _ _ _ _ _ O Z3) in A; injection H as <- <-; constructor; auto; cbn; rewrite ?flush_mdsets; auto. destruct Z4; auto using flush_dirty.
  - split; [|intros []]. rewrite Z5 in H. destruct (apply_all _ _) as [dk'| |] eqn:A; cbn [bind] in H; try discriminate. destruct (recover np dk') as [s'| |] eqn:R; cbn [bind] in H; try discriminate. injection H as <- <-.
    assert (O : Forall (off_md (Z.of_nat m)) (flush_effects doff (s_g (x_sys x)) ++ meta_nowhere_effects (flush_writes doff (s_g (x_sys x))) ++
       [XAtt (mkatt (Zlen (g_infos (metaflush (flush_writes doff (s_g (x_sys x)))))) (g_nldset (metaflush (flush_writes doff (s_g (x_sys x))))) (Zlen (g_mdsets (metaflush (flush_writes doff (s_g (x_sys x)))))) (g_cfg (metaflush (flush_writes doff (s_g (x_sys x))))))])).
    { apply Forall_app. split; [apply off_flush|]. apply Forall_app. split; [|repeat constructor]. unfold meta_nowhere_effects. destruct (_ <? _); repeat constructor. }
    pose proof (attempt_ok (fun _ => false) _ 0%nat _ _ (fun _ _ => eq_refl) A) as A1. apply (attempt_mds _ _ _ _ _ _ _ _ O Z3) in A1. rewrite app_assoc in A. apply apply_last in A. eapply zero_reopen; eauto. rewrite A. cbn [at_nmdset].
    pose proof (meta_mdsets (flush_writes doff (s_g (x_sys x))) m (zeros (Z.to_nat size))) as M. rewrite flush_mdsets in M. specialize (M Z2). assert (Lq : (m < length (g_mdsets (metaflush (flush_writes doff (s_g (x_sys x))))))%nat) by (apply nth_error_Some; congruence). unfold Zlen. lia.
Qed.
Lemma zero_run : forall e fs x x1 os m size, zeroed m size x -> frun e x fs = Ok (x1, os) -> Forall2 (fun f o => is_close f = true -> o <> None) fs os -> Forall2 (fun f o => reads f -> o = None) fs os.
Proof.
  intros e. induction fs as [|f fs IH]; intros x x1 os m size Zx H N; cbn [frun] in H; [injection H as <- <-; constructor|]. destruct (fstep e x f) as [[x2 o]| |] eqn:E; cbn [bind fst snd] in H; try discriminate.
  destruct (frun e x2 fs) as [[x3 o3]| |] eqn:E3; cbn [bind fst snd] in H; try discriminate. injection H as <- <-. inversion N; subst. destruct (zero_step _ _ _ _ _ _ _ Zx E ltac:(auto)). constructor; eauto.
Qed.
