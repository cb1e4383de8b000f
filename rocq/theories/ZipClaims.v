(** Lemmas behind P_Zip. *)
From Verif Require Import Base BaseProofs Spec MetaModel QueueModel FlushModel IndexModel ReadModel SysModel SysSpec AnySpec AnyProofs FailModel FailSpec FailClaims ZipModel ZipSpec MetaExamples.
From Coq Require Import Lia ZifyNat.

Lemma zcompress_some : forall s z zb r sz zb1 p, zcompress_sel s zb r sz = (Some p, zb1) ->
  exists zb', compress_sel z zb r sz = (fst p, snd p, zb').
Proof.
  intros s z zb r sz zb1 [r' sz'] H. destruct (compress_none z zb r sz) as (zb' & E). exists zb'. rewrite E.
  unfold zcompress_sel in H. destruct (has (h_flag (w_hdr r)) FLAG_SEL_DEFLATE) eqn:F.
  - destruct (zip_compress s _ _) as [[[|] out]| |]; try discriminate.
    + cbn [Z.eqb andb] in H. injection H as <- <- <-. reflexivity.
    + cbn [Z.eqb andb] in H. replace (Z.max zb sz <? sz) with false in H by (symmetry; apply Z.ltb_ge; lia).
      injection H as <- <- <-. reflexivity.
  - injection H as <- <- <-. cbn [fst snd]. f_equal. f_equal. unfold strip, set_flag. rewrite clear_none by exact F.
    destruct r as [[? ? ? ? ?] ? ? ? ?]. reflexivity.
Qed.

Lemma zwrite_true : forall s z cfg infos a b did sels data a', same_but_zb a b ->
  zwrite s cfg infos a did sels data = Ok (a', true) ->
  exists b', ds_write z cfg infos b did sels data = Ok b' /\ same_but_zb a' b'.
Proof.
  intros s z cfg infos a b did sels data a' (H1 & H2 & H3 & H4) H. unfold zwrite in H. unfold ds_write.
  destruct sels as [|b0 sels]; [injection H as <-; exists b; repeat split; auto|].
  destruct (nth_error infos (Z.to_nat did)) as [[dip|]|]; try discriminate.
  unfold finish_meta. rewrite <- H3. set (r := mk_wreq cfg did dip (k_mdsize a) (b0 :: sels)) in *.
  replace (dedup cfg b r) with (dedup cfg a r) by (unfold dedup; rewrite H3, H4; reflexivity).
  destruct (dedup cfg a r) as [[[r1 tbl] sz1]| |]; cbn [bind] in *; try discriminate.
  destruct (zcompress_sel s (k_zbsize a) r1 sz1) as [[[r2 sz2]|] zb] eqn:E; [|discriminate].
  destruct (zcompress_some s z _ _ _ _ _ E) as (zb' & C). cbn [fst snd] in C.
  pose proof (compress_any z (k_zbsize a) (k_zbsize b) r1 sz1) as Q. rewrite C in Q.
  destruct (compress_sel z (k_zbsize b) r1 sz1) as [[rb sb] zbb]. injection Q as <- <-. cbn [bind].
  injection H as <-. eexists. split; [reflexivity|]. repeat split; cbn; congruence.
Qed.

Lemma zwrites_true : forall s z cfg infos ws a b a' oks, same_but_zb a b ->
  zwrites s cfg infos a ws = Ok (a', oks) -> ~ In false oks ->
  exists b', ds_writes z cfg infos b ws = Ok b' /\ same_but_zb a' b'.
Proof.
  intros s z cfg infos ws. induction ws as [|[[did sels] data] ws IH]; intros a b a' oks R H N; cbn [zwrites ds_writes] in *.
  - injection H as <- <-. eauto.
  - destruct (zwrite s cfg infos a did sels data) as [[a1 ok]| |] eqn:E; cbn [bind fst snd] in H; try discriminate.
    destruct (zwrites s cfg infos a1 ws) as [[a2 oks']| |] eqn:E2; cbn [bind fst snd] in H; try discriminate.
    injection H as <- <-. destruct ok; [|exfalso; apply N; left; reflexivity].
    destruct (zwrite_true s z _ _ _ _ _ _ _ _ R E) as (b1 & -> & R1). cbn [bind].
    apply (IH a1 b1 a2 oks' R1 E2). intros I. apply N. right. exact I.
Qed.

Lemma minus_deflate : forall cfg, plain_cfg cfg -> has cfg CFG_SEL_DEFLATE = true ->
  has (cfg - CFG_SEL_DEFLATE) CFG_METADATA_SHARE = has cfg CFG_METADATA_SHARE /\
  has (cfg - CFG_SEL_DEFLATE) CFG_SEL_ENCODE = has cfg CFG_SEL_ENCODE /\ has (cfg - CFG_SEL_DEFLATE) CFG_SEL_DEFLATE = false.
Proof.
  intros cfg P H. unfold plain_cfg in P.
  assert (K : In cfg (map Z.of_nat (seq 0 16))) by (apply in_map_iff; exists (Z.to_nat cfg); split; [lia|apply in_seq; lia]).
  clear - K H. vm_compute in K. repeat (destruct K as [<-|K]; [try (vm_compute in H; discriminate H); vm_compute; repeat split; reflexivity|]). contradiction.
Qed.

Lemma ds_writes_sim : forall cfg cfg' z infos ws a b a',
  has cfg' CFG_METADATA_SHARE = has cfg CFG_METADATA_SHARE -> has cfg' CFG_SEL_ENCODE = has cfg CFG_SEL_ENCODE ->
  has cfg' CFG_SEL_DEFLATE = false -> rsim a b -> ds_writes z cfg infos a ws = Ok a' ->
  exists b', ds_writes z cfg' infos b ws = Ok b' /\ rsim a' b'.
Proof.
  intros cfg cfg' z infos ws a b a' Q1 Q2 Q3. revert a b. induction ws as [|[[did sels] data] ws IH]; intros a b R H; cbn [ds_writes] in *.
  - injection H as <-. eauto.
  - pose proof (write_sim cfg cfg' Q1 Q2 Q3 z infos a b did sels data R) as W.
    destruct (ds_write z cfg infos a did sels data) as [a1| |]; cbn [bind] in H; try discriminate.
    destruct (ds_write z cfg' infos b did sels data) as [b1| |]; try contradiction. cbn [bind]. eauto.
Qed.

Lemma compressor_none : forall s z cfg infos ws st oks, plain_cfg cfg -> has cfg CFG_SEL_DEFLATE = true ->
  zwrites s cfg infos rank0 ws = Ok (st, oks) -> ~ In false oks ->
  queue (ds_writes z (cfg - CFG_SEL_DEFLATE) infos rank0 ws) = Ok (k_wreqs st, k_nflushed st, k_mdsize st).
Proof.
  intros s z cfg infos ws st oks P D H N.
  destruct (zwrites_true s z cfg infos ws rank0 rank0 st oks (conj eq_refl (conj eq_refl (conj eq_refl eq_refl))) H N) as (b & E & R1 & R2 & R3 & R4).
  destruct (minus_deflate cfg P D) as (Q1 & Q2 & Q3).
  destruct (ds_writes_sim cfg (cfg - CFG_SEL_DEFLATE) z infos ws rank0 rank0 b Q1 Q2 Q3) as (c & F & S1 & S2 & S3 & S4);
    [repeat split; reflexivity|exact E|].
  unfold queue. rewrite F. cbn [bind]. rewrite S1, S2, S3, R1, R2, R3. reflexivity.
Qed.

Lemma has_deflate_mk : forall cfg did dip md sels, has (h_flag (w_hdr (mk_wreq cfg did dip md sels))) FLAG_SEL_DEFLATE = (1 <? length sels)%nat && has cfg CFG_SEL_DEFLATE.
Proof.
  intros. unfold mk_wreq. cbn [w_hdr h_flag].
  destruct (is_rec dip sels), (1 <? length sels)%nat, (has cfg CFG_SEL_ENCODE), (has cfg CFG_SEL_DEFLATE), (1 <? _)%nat; reflexivity.
Qed.
Lemma ref_no_deflate : forall r tgt md, has (h_flag (w_hdr (make_ref r tgt md))) FLAG_SEL_DEFLATE = false.
Proof.
  intros r tgt md. rewrite <- strip_ref. unfold strip, set_flag. cbn [w_hdr h_flag]. unfold has, clear_bit.
  rewrite <- Z.land_assoc. replace (Z.land (Z.lnot FLAG_SEL_DEFLATE) FLAG_SEL_DEFLATE) with 0 by reflexivity. rewrite Z.land_0_r. reflexivity.
Qed.

(** A write whose compressed selection fits. *)
Lemma compressor_fits : forall s cfg infos st did dip sels data st' ok, documented s ->
  nth_error infos (Z.to_nat did) = Some (Some dip) ->
  compressed_fits s (selection_part cfg did dip st sels) (Z.max (k_zbsize st) (selsize_of (mk_wreq cfg did dip (k_mdsize st) sels))) ->
  zwrite s cfg infos st did sels data = Ok (st', ok) -> ok = true.
Proof.
  intros s cfg infos st did dip sels data st' ok (I & D) Hi F H. unfold zwrite in H.
  destruct sels as [|b0 sels]; [injection H as <- <-; reflexivity|]. rewrite Hi in H.
  unfold selection_part in F. cbv zeta in F. unfold compressed_fits in F. destruct (D _ _ F) as (D1 & D2).
  set (r := mk_wreq cfg did dip (k_mdsize st) (b0 :: sels)) in *. clearbody r.
  assert (Z1 : forall p, snd p = true -> Ok p = Ok (st', ok) -> ok = true) by (intros [x y] E1 [= E2 E3]; cbn in E1; congruence).
  assert (K : exists q zb, zcompress_sel s (k_zbsize st) r (selsize_of r) = (Some q, zb)).
  { unfold zcompress_sel. destruct (has (h_flag (w_hdr r)) FLAG_SEL_DEFLATE); [|eauto].
    unfold zip_compress. rewrite I. cbn [Z.eqb negb]. rewrite F, D1, D2. cbn. eauto. }
  unfold dedup in H. destruct (has cfg CFG_METADATA_SHARE && (8 <? selsize_of r)).
  - destruct (hash_find r (k_hash st)) as [[tgt|]| |]; cbn [bind] in H; try discriminate.
    + unfold zcompress_sel in H. rewrite ref_no_deflate in H. revert H. apply Z1. reflexivity.
    + destruct K as ([q1 q2] & zb & K). rewrite K in H. revert H. apply Z1. reflexivity.
  - cbn [bind] in H. destruct K as ([q1 q2] & zb & K). rewrite K in H. revert H. apply Z1. reflexivity.
Qed.

Lemma find_flag : forall r tbl, hash_find (strip r) tbl = hash_find r tbl.
Proof.
  intros r tbl. induction tbl as [|[k t] tbl IH]; [reflexivity|]. cbn [hash_find].
  replace (wreq_eq (strip r) k) with (wreq_eq r k) by (destruct r as [[? ? ? ? ?] ? ? ? ?]; reflexivity). rewrite IH. reflexivity.
Qed.

(** zlib reports an error: the call fails, and without compression it would have succeeded. *)
Lemma compressor_error : forall s z cfg infos st did dip sels data, plain_cfg cfg -> has cfg CFG_SEL_DEFLATE = true ->
  (1 < length sels)%nat -> nth_error infos (Z.to_nat did) = Some (Some dip) -> not_shared cfg did dip st sels ->
  d_end (s_deflate s (selection_part cfg did dip st sels) (Z.max (k_zbsize st) (selsize_of (mk_wreq cfg did dip (k_mdsize st) sels)))) = Z_DATA_ERROR ->
  (exists st', zwrite s cfg infos st did sels data = Ok (st', false) /\ k_wreqs st' = k_wreqs st) /\
  (exists st' w, ds_write z (cfg - CFG_SEL_DEFLATE) infos st did sels data = Ok st' /\ k_wreqs st' = k_wreqs st ++ [w]).
Proof.
  intros s z cfg infos st did dip sels data P D L Hi NS E. unfold selection_part in E. cbv zeta in E.
  destruct sels as [|b0 sels]; [cbn in L; lia|]. split.
  - unfold zwrite. rewrite Hi. pose proof (has_deflate_mk cfg did dip (k_mdsize st) (b0 :: sels)) as HD. rewrite D, andb_true_r in HD.
    replace ((1 <? length (b0 :: sels))%nat) with true in HD by (symmetry; apply Nat.ltb_lt; exact L).
    unfold not_shared in NS. set (r := mk_wreq cfg did dip (k_mdsize st) (b0 :: sels)) in *. clearbody r.
    assert (K : zcompress_sel s (k_zbsize st) r (selsize_of r) = (None, Z.max (k_zbsize st) (selsize_of r))).
    { unfold zcompress_sel. rewrite HD. unfold zip_compress. destruct (negb (s_init s =? Z_OK)); [reflexivity|].
      destruct (negb _ && _); [reflexivity|]. rewrite E. reflexivity. }
    unfold dedup. destruct (has cfg CFG_METADATA_SHARE && (8 <? selsize_of r)) eqn:SH.
    + destruct NS as [NS|NS]; [rewrite NS in SH; discriminate|]. rewrite NS. cbn [bind]. rewrite K. eexists. split; reflexivity.
    + cbn [bind]. rewrite K. eexists. split; reflexivity.
  - unfold ds_write. rewrite Hi. destruct (minus_deflate cfg P D) as (Q1 & Q2 & Q3).
    rewrite (mk_strip cfg (cfg - CFG_SEL_DEFLATE) Q2 Q3). unfold not_shared in NS. set (r := mk_wreq cfg did dip (k_mdsize st) (b0 :: sels)) in *. clearbody r.
    unfold finish_meta, dedup. rewrite Q1.
    destruct (has cfg CFG_METADATA_SHARE && (8 <? selsize_of (strip r))) eqn:SH.
    + destruct NS as [NS|NS]; [rewrite NS in SH; discriminate|]. rewrite find_flag, NS. cbn [bind].
      destruct (compress_sel z _ _ _) as [[r2 sz2] zb]; cbn [bind]; eexists; eexists; split; reflexivity.
    + cbn [bind]. destruct (compress_sel z _ _ _) as [[r2 sz2] zb]; cbn [bind]. eexists. eexists. split; reflexivity.
Qed.

(** A dataset of 16 elements, a selection of two blocks and one of three. *)
Definition zp_small : list block := [mkblock [0] [2]; mkblock [4] [2]].
Definition zp_big : list block := [mkblock [0] [1]; mkblock [4] [1]; mkblock [9] [1]].
Definition zp_ws : list (Z * list block * list Z) :=
  [(0, zp_small, [5;6;7;8]); (0, zp_big, [1;2;3]); (0, zp_small, [5;6;7;8]); (0, [mkblock [1] [2]], [3;4])].
Lemma compressor_depends :
  (exists st, zwrites stored 4 [Some f_d] rank0 zp_ws = Ok (st, [false; false; true; true]) /\ length (k_wreqs st) = 2%nat) /\
  (exists st, ds_writes m_z 0 [Some f_d] rank0 zp_ws = Ok st /\ length (k_wreqs st) = 4%nat).
Proof. split; eexists; split; vm_compute; reflexivity. Qed.
Lemma zip_ex : plain_cfg 4 /\ has 4 CFG_SEL_DEFLATE = true /\
  (exists st, zwrites stored 4 [Some f_d] rank0 [(0, [mkblock [1] [2]], [3;4]); (0, [mkblock [7] [2]], [1;2])] = Ok (st, [true; true])) /\
  not_shared 4 0 f_d rank0 zp_small /\
  d_end (s_deflate stored (selection_part 4 0 f_d rank0 zp_small) (Z.max (k_zbsize rank0) (selsize_of (mk_wreq 4 0 f_d (k_mdsize rank0) zp_small)))) = Z_DATA_ERROR.
Proof.
  split; [unfold plain_cfg; split; [lia|reflexivity]|]. split; [reflexivity|]. split; [eexists; vm_compute; reflexivity|].
  split; [left; reflexivity|vm_compute; reflexivity].
Qed.
(** A write that fits: the second write of the small selection above. *)
Lemma zip_fits_ex : documented stored /\ exists st, zwrites stored 4 [Some f_d] rank0 [(0, zp_small, [5;6;7;8]); (0, zp_big, [1;2;3])] = Ok (st, [false; false]) /\
  compressed_fits stored (selection_part 4 0 f_d st zp_small) (Z.max (k_zbsize st) (selsize_of (mk_wreq 4 0 f_d (k_mdsize st) zp_small))).
Proof.
  split.
  - split; [reflexivity|]. intros input cap. unfold stored. cbn [s_deflate]. destruct (_ <=? _); cbn; [auto|discriminate].
  - eexists. split; vm_compute; reflexivity.
Qed.
