(** Lemmas behind P_Fail. *)
From Verif Require Import Base BaseProofs Spec MetaModel QueueModel FlushModel IndexModel FailModel FailSpec MetaExamples.
From Coq Require Import Lia ZifyNat.

(** The compression buffer does not matter. *)
Lemma compress_any : forall z zb zb' r sz,
  (let '(r1, s1, _) := compress_sel z zb r sz in (r1, s1)) = (let '(r1, s1, _) := compress_sel z zb' r sz in (r1, s1)).
Proof.
  intros z zb zb' r sz. unfold compress_sel. destruct (has _ _); [|reflexivity].
  destruct (z_deflate z _ (Z.max zb sz)) as [ok out]. destruct (z_deflate z _ (Z.max zb' sz)) as [ok' out'].
  assert (H : forall (o : bool) (l : list Z) b, ((if o then 1 else 0) =? 0) && ((if o then Zlen l else Z.max b sz) <? sz) = false).
  { intros o l b. destruct o; [reflexivity|]. cbn [andb Z.eqb]. apply Z.ltb_ge. lia. }
  cbv zeta. rewrite !H. reflexivity.
Qed.

Definition same_but_zb (a b : rank) : Prop :=
  k_wreqs a = k_wreqs b /\ k_nflushed a = k_nflushed b /\ k_mdsize a = k_mdsize b /\ k_hash a = k_hash b.

Lemma write_any : forall z cfg infos a b did sels data, same_but_zb a b ->
  match ds_write z cfg infos a did sels data, ds_write z cfg infos b did sels data with
  | Ok a', Ok b' => same_but_zb a' b'
  | UB, UB => True
  | Err, Err => True
  | _, _ => False
  end.
Proof.
  intros z cfg infos a b did sels data (H1 & H2 & H3 & H4). unfold ds_write.
  destruct sels as [|b0 sels]; [repeat split; auto|].
  destruct (nth_error infos (Z.to_nat did)) as [[dip|]|]; auto.
  unfold finish_meta. rewrite H3. set (r := mk_wreq _ _ _ _ _).
  unfold dedup. rewrite H3, H4.
  destruct (if has cfg CFG_METADATA_SHARE && (8 <? selsize_of r) then _ else _) as [[[r1 tbl] sz]| |]; cbn [bind]; auto.
  pose proof (compress_any z (k_zbsize a) (k_zbsize b) r1 sz) as Hc.
  destruct (compress_sel z (k_zbsize a) r1 sz) as [[ra sa] za], (compress_sel z (k_zbsize b) r1 sz) as [[rb sb] zb].
  injection Hc as -> ->. cbn [bind]. repeat split; cbn [k_wreqs k_nflushed k_mdsize k_hash]; congruence.
Qed.

Lemma same_but_zb_future : forall z cfg infos a b, same_but_zb a b -> same_future z cfg infos a b.
Proof.
  intros z cfg infos a b H ws. revert a b H. induction ws as [|[[did sels] data] ws IH]; intros a b H.
  - destruct H as (H1 & H2 & H3 & _). unfold queue. cbn [ds_writes bind]. now rewrite H1, H2, H3.
  - cbn [ds_writes]. pose proof (write_any z cfg infos a b did sels data H) as Hw.
    destruct (ds_write z cfg infos a did sels data), (ds_write z cfg infos b did sels data); try contradiction; auto.
    cbn [bind]. now apply IH.
Qed.

Lemma failed_without_sharing : forall z cfg infos st did sels st', has cfg CFG_METADATA_SHARE = false ->
  ds_write_failed z cfg infos st did sels = Ok st' -> same_future z cfg infos st st'.
Proof.
  intros z cfg infos st did sels st' Hs H. apply same_but_zb_future.
  unfold ds_write_failed in H. destruct sels as [|b0 sels]; [injection H as <-; repeat split; auto|].
  destruct (nth_error infos (Z.to_nat did)) as [[dip|]|]; try discriminate.
  unfold finish_meta, dedup in H. rewrite Hs in H. cbn [andb bind] in H.
  destruct (compress_sel _ _ _ _) as [[r2 sz2] zb]. injection H as <-. repeat split; auto.
Qed.

(** The same selection was written before since the last metadata flush. *)
Lemma failed_known : forall z cfg infos st did dip sels st' tgt,
  nth_error infos (Z.to_nat did) = Some (Some dip) ->
  hash_find (mk_wreq cfg did dip (k_mdsize st) sels) (k_hash st) = Ok (Some tgt) ->
  ds_write_failed z cfg infos st did sels = Ok st' -> same_future z cfg infos st st'.
Proof.
  intros z cfg infos st did dip sels st' tgt Hi Hf H. apply same_but_zb_future.
  unfold ds_write_failed in H. destruct sels as [|b0 sels]; [injection H as <-; repeat split; auto|].
  rewrite Hi in H. unfold finish_meta, dedup in H. rewrite Hf in H. cbn [bind] in H.
  destruct (has cfg CFG_METADATA_SHARE && _); cbn [bind] in H;
    destruct (compress_sel _ _ _ _) as [[r2 sz2] zb]; injection H as <-; repeat split; auto.
Qed.

Lemma hash_find_app : forall k tbl x, hash_find k tbl = Ok None ->
  hash_find k (tbl ++ [x]) = hash_find k [x].
Proof.
  induction tbl as [|[key tgt] tbl IH]; intros x H; [reflexivity|]. cbn [hash_find app] in *.
  destruct (wreq_eq k key) as [[]| |]; cbn [bind] in *; try discriminate. now apply IH.
Qed.
Lemma memcmp_refl : forall l, memcmp l l = Equal.
Proof. induction l; cbn; auto. now rewrite Z.eqb_refl. Qed.
Lemma wreq_eq_refl : forall r, wreq_eq r r = Ok true.
Proof. intros. unfold wreq_eq. rewrite Z.eqb_refl, memcmp_refl. reflexivity. Qed.

(** The entry of a request says that the selection is that of the entry [d] bytes away. *)
Definition refers (w : wreq) (d : Z) : Prop :=
  has (h_flag (w_hdr w)) FLAG_SEL_REF = true /\ rd_i64 (w_body w) (Z.of_nat (w_selpos w)) = Some d.

Lemma has_ref : forall f, has (clear_bit (Z.lor f FLAG_SEL_REF) FLAG_SEL_DEFLATE) FLAG_SEL_REF = true.
Proof.
  intros f. unfold has, clear_bit. apply negb_true_iff, Z.eqb_neq. intros H.
  apply (f_equal (fun x => Z.testbit x 4)) in H.
  rewrite Z.bits_0, !Z.land_spec, Z.lor_spec, Z.lnot_spec in H by lia.
  cbn in H. rewrite orb_true_r in H. discriminate.
Qed.

Lemma mk_wreq_selpos : forall cfg did dip md sels, (w_selpos (mk_wreq cfg did dip md sels) <= length (w_body (mk_wreq cfg did dip md sels)))%nat.
Proof.
  intros. unfold mk_wreq. cbn [w_selpos w_body]. destruct (is_rec dip sels); [|lia].
  rewrite app_length. change (length (le 8 ?x)) with 8%nat. lia.
Qed.
Lemma skipn_firstn_len : forall (a b : list Z) n, n = length a -> skipn n (a ++ b) = b.
Proof. intros a b n ->. rewrite skipn_app, skipn_all, Nat.sub_diag. reflexivity. Qed.

Lemma make_ref_refers : forall r tgt md, (w_selpos r <= length (w_body r))%nat ->
  w_metaoff tgt = md -> refers (shrink (make_ref r tgt md) 8) 0.
Proof.
  intros r tgt md Hp Hm. unfold make_ref. rewrite Hm, Z.sub_diag.
  set (f1 := clear_bit (Z.lor (h_flag (w_hdr r)) FLAG_SEL_REF) FLAG_SEL_DEFLATE).
  set (same := has f1 FLAG_REC && _ && _).
  set (p := if same then (w_selpos r - 8)%nat else w_selpos r).
  set (f2 := if same then clear_bit f1 FLAG_REC else f1).
  assert (Hf : has f2 FLAG_SEL_REF = true).
  { unfold f2, f1. destruct same; [|apply has_ref].
    unfold has, clear_bit. apply negb_true_iff, Z.eqb_neq. intros H.
    apply (f_equal (fun x => Z.testbit x 4)) in H.
    rewrite Z.bits_0, !Z.land_spec, Z.lor_spec, !Z.lnot_spec in H by lia.
    cbn in H. rewrite orb_true_r in H. discriminate. }
  assert (Hlen : (p <= length (w_body r))%nat) by (unfold p; destruct same; lia).
  clearbody same f1. clear Hp.
  set (body := firstn p (w_body r) ++ le 8 0 ++ skipn (p + 8) (w_body r)).
  assert (Hfl : length (firstn p (w_body r)) = p) by (rewrite firstn_length; lia).
  assert (Hbl : (p + 8 <= length body)%nat).
  { unfold body. rewrite !app_length, Hfl. change (length (le 8 0)) with 8%nat. lia. }
  assert (Hrd : forall b', (p + 8 <= length b')%nat -> firstn (p + 8) b' = firstn (p + 8) body -> rd_i64 b' (Z.of_nat p) = Some 0).
  { intros b' Hb' Hpre. unfold rd_i64, rd. rewrite Nat2Z.id.
    replace ((0 <=? Z.of_nat p) && (Z.of_nat p + Z.of_nat 8 <=? Z.of_nat (length b'))) with true
      by (symmetry; apply andb_true_iff; split; apply Z.leb_le; lia).
    replace (firstn 8 (skipn p b')) with (skipn p (firstn (p + 8) b')).
    - rewrite Hpre. unfold body. rewrite firstn_app, Hfl. replace (p + 8 - p)%nat with 8%nat by lia.
      rewrite (firstn_all2 (firstn p (w_body r))) by lia. rewrite skipn_firstn_len by lia. reflexivity.
    - rewrite firstn_skipn_comm. reflexivity. }
  split; [unfold shrink; destruct (_ <? _); exact Hf|].
  unfold shrink. cbn [w_selpos w_hdr h_size w_body].
  destruct (_ <? _).
  - cbn [w_resize w_body w_selpos].
    replace (Z.to_nat (Z.of_nat HDR + Z.of_nat p + 8 - Z.of_nat HDR)) with (p + 8)%nat by lia.
    apply Hrd.
    + rewrite firstn_length. fold body. lia.
    + fold body. rewrite firstn_firstn. f_equal. lia.
  - cbn [w_body w_selpos]. apply Hrd; auto.
Qed.

Lemma failed_refers_to_itself : forall z cfg infos st did dip sels data st1 st2,
  has cfg CFG_METADATA_SHARE = true -> sels <> [] ->
  nth_error infos (Z.to_nat did) = Some (Some dip) ->
  8 < selsize_of (mk_wreq cfg did dip (k_mdsize st) sels) ->
  hash_find (mk_wreq cfg did dip (k_mdsize st) sels) (k_hash st) = Ok None ->
  ds_write_failed z cfg infos st did sels = Ok st1 ->
  ds_write z cfg infos st1 did sels data = Ok st2 ->
  exists w, k_wreqs st2 = k_wreqs st ++ [w] /\ refers w 0.
Proof.
  intros z cfg infos st did dip sels data st1 st2 Hs Hne Hi Hsz Hf H1 H2.
  unfold ds_write_failed in H1. unfold ds_write in H2. destruct sels as [|b0 sels]; [congruence|].
  rewrite Hi in H1, H2. remember (mk_wreq cfg did dip (k_mdsize st) (b0 :: sels)) as r eqn:Er.
  unfold finish_meta, dedup in H1. rewrite Hs, Hf in H1. cbn [andb] in H1.
  replace (8 <? selsize_of r) with true in H1 by (symmetry; apply Z.ltb_lt; lia). cbn [bind] in H1.
  destruct (compress_sel _ _ _ _) as [[r2 sz2] zb] in H1. injection H1 as <-. cbn [k_mdsize k_wreqs k_hash k_zbsize k_nflushed] in H2.
  rewrite <- Er in H2. unfold finish_meta, dedup in H2. cbn [k_mdsize k_hash k_zbsize] in H2.
  rewrite Hs, hash_find_app in H2 by exact Hf. cbn [hash_find] in H2. rewrite wreq_eq_refl in H2. cbn [andb bind] in H2.
  replace (8 <? selsize_of r) with true in H2 by (symmetry; apply Z.ltb_lt; lia). cbn [bind] in H2.
  assert (Hnd : has (h_flag (w_hdr (make_ref r r (k_mdsize st)))) FLAG_SEL_DEFLATE = false).
  { unfold make_ref. cbn [w_hdr h_flag]. set (same := _ && _ && _). clearbody same.
    unfold has, clear_bit. apply negb_false_iff, Z.eqb_eq. apply Z.bits_inj'. intros n Hn.
    rewrite Z.bits_0. destruct same; rewrite !Z.land_spec, ?Z.lnot_spec by lia; destruct (Z.testbit FLAG_SEL_DEFLATE n); cbn; rewrite ?andb_false_r; auto. }
  unfold compress_sel in H2. rewrite Hnd in H2. cbn [bind] in H2. injection H2 as <-. cbn [k_wreqs].
  eexists. split; [reflexivity|].
  assert (Hr : refers (shrink (make_ref r r (k_mdsize st)) 8) 0).
  { apply make_ref_refers; [subst r; apply mk_wreq_selpos|]. subst r. reflexivity. }
  exact Hr.
Qed.

(** ** Witnesses *)
Definition f_d : dinfo := mkdinfo 1 [16] [16] (dsteps_of [16]) None.
Definition f_a : list block := [mkblock [0] [2]; mkblock [4] [2]].
Definition f_b : list block := [mkblock [8] [2]; mkblock [12] [2]].
Definition f_after (failed : bool) (ws : list (Z * list block * list Z)) : res rank :=
  if failed then do st <- ds_write_failed m_z 10 [Some f_d] rank0 0 f_a; ds_writes m_z 10 [Some f_d] st ws
  else ds_writes m_z 10 [Some f_d] rank0 ws.
(** Starts of the blocks that the two indexes find in the metadata section of the process. *)
Definition f_array (r : res rank) : res (list (list (list Z))) :=
  do st <- r;
  do es <- parse_array 20 m_z 10 [Some f_d] (meta_bytes st) 0 [];
  Ok (map (fun e => map ms_start (me_sels e)) es).
Definition f_compact (r : res rank) : res (list (option (Z * list Z))) :=
  do st <- r;
  do es <- parse_compact 20 m_z 10 [Some f_d] (meta_bytes st) 0 [];
  Ok (map own_blocks es).
Definition f_two : list (Z * list block * list Z) := [(0, f_b, [1;2;3;4]); (0, f_a, [5;6;7;8])].

Lemma failed_misplaced : 
  f_array (f_after false f_two) = Ok [[[8];[12]]; [[0];[4]]] /\
  f_array (f_after true f_two) = Ok [[[8];[12]]; [[8];[12]]] /\
  f_compact (f_after false f_two) = Ok [Some (2, [8;2;12;2]); Some (2, [0;2;4;2])] /\
  f_compact (f_after true f_two) = Ok [Some (2, [8;2;12;2]); Some (2, [8;2;12;2])].
Proof. vm_compute. auto. Qed.
Lemma failed_unreadable :
  f_array (f_after false [(0, f_a, [5;6;7;8])]) = Ok [[[0];[4]]] /\
  f_array (f_after true [(0, f_a, [5;6;7;8])]) = UB /\
  f_compact (f_after true [(0, f_a, [5;6;7;8])]) = Ok [None].
Proof. vm_compute. auto. Qed.
