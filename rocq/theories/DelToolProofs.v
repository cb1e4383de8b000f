(** The utilities on files from which datasets were deleted. *)
From Verif Require Import Base BaseProofs Spec MetaModel QueueModel FlushModel IndexModel ReadModel SysModel
  SysSpec LogSpec History GeomProofs MetaProofs QueueProofs IndexProofs SearchProofs SortProofs ReadProofs HitProofs MdProofs StoreProofs
  FlushProofs ReadOneProofs SysProofs HistoryProofs ClaimProofs SysCheck Examples ClaimProofs2 SizedProofs DefSpec DefProofs SlotModel DumpModel DumpSpec DumpProofs DumpRun
  ReplayModel ReplayDataModel ReplayDataSpec ReplayDataProofs ReplayDataRun ReplayDataClaims DelModel DelSpec DelProofs.
From Coq Require Import ZifyNat ZifyN.

Lemma ref_hdr : forall d buf pos bc m, ref_decode d buf pos bc = Ok m -> rd_hdr buf pos = Some (me_hdr m).
Proof.
  intros d buf pos bc m H. unfold ref_decode in H. destruct (rd_hdr buf pos) as [h|]; cbn [or_ub bind] in H; [|discriminate].
  destruct (h_size h <=? 0); [discriminate|]. cbv zeta in H.
  destruct (if has (h_flag h) FLAG_REC then _ else _) as [rn| |] in H; cbn [bind] in H; try discriminate.
  destruct (or_ub (rd_i64 buf _)) as [ro| |]; cbn [bind] in H; try discriminate.
  destruct (or_ub (cache_get bc (pos + ro))) as [sl| |]; cbn [bind] in H; try discriminate.
  match type of H with match ?x with _ => _ end = _ => destruct x end; [discriminate|].
  apply (f_equal (fun r => match r with Ok a => me_hdr a | _ => h end)) in H. cbn [me_hdr] in H. congruence.
Qed.
Lemma dec_hdr : forall z d buf pos bc (ref : bool) m, (if ref then ref_decode d buf pos bc else decode z d buf pos) = Ok m -> rd_hdr buf pos = Some (me_hdr m).
Proof.
  intros z d buf pos bc [|] m H; [apply (ref_hdr _ _ _ _ _ H)|]. destruct (decode_hdr _ _ _ _ _ H) as (h & A & B). congruence.
Qed.

(** ** h5ldump *)
Definition de_did (d : dentry) : Z := h_did (de_hdr d).
Lemma dump_sec_same : forall m z infos file fuel buf pos bc l, dump_sec fuel z infos file buf pos bc = Ok l -> (forall d, In d l -> ~ In (de_did d) m) ->
  dump_sec fuel z (unlink m 0 infos) file buf pos bc = Ok l.
Proof.
  intros m z infos file. induction fuel as [|fuel IH]; intros buf pos bc l H N; [discriminate|]. cbn [dump_sec] in *.
  destruct (Zlen buf <=? pos); [exact H|].
  destruct (rd_hdr buf pos) as [h|]; [|discriminate]. cbn [or_ub bind] in *.
  destruct (info_at infos (h_did h)) as [inf|] eqn:EI; [|discriminate]. cbn [or_ub bind] in H. cbv zeta in H.
  destruct (if has (h_flag h) FLAG_SEL_REF then ref_decode (table_slot inf) buf pos bc else decode z (table_slot inf) buf pos) as [e| |] eqn:ED in H; try discriminate. cbn [bind] in H.
  destruct (dump_data (di_ndim (table_slot inf)) (di_esize (table_slot inf)) file e) as [data| |] eqn:EA in H; try discriminate. cbn [bind] in H.
  destruct (if has (h_flag h) FLAG_SEL_REF then do r <- or_ub (rd_i64 buf _); _ else Ok None) as [ro| |] eqn:ER in H; try discriminate. cbn [bind] in H.
  destruct (dump_blocks (di_ndim (table_slot inf)) (di_esize (table_slot inf)) data (me_sels e)) as [bs| |] eqn:EB in H; try discriminate. cbn [bind] in H.
  destruct (dump_sec fuel z infos file buf (pos + h_size h) _) as [rest| |] eqn:EF in H; try discriminate. cbn [bind] in H.
  assert (HL : l = mkde pos h ro bs :: rest) by congruence. subst l.
  assert (Hn : ~ In (h_did h) m) by (apply (N (mkde pos h ro bs)); left; reflexivity).
  rewrite (unlink_live _ _ _ Hn), EI. cbn [or_ub bind]. cbv zeta. rewrite ED. cbn [bind]. rewrite EA. cbn [bind]. rewrite ER. cbn [bind]. rewrite EB. cbn [bind].
  rewrite (IH _ _ _ _ EF); [reflexivity|]. intros d Hd. apply N. right. exact Hd.
Qed.
Lemma dump_sec_stuck : forall m z infos f fuel buf pos bc l, dump_sec fuel z infos (Some f) buf pos bc = Ok l ->
  forall d, In d l -> In (de_did d) m -> 0 < h_fsize (de_hdr d) -> forall bc' l', dump_sec fuel z (unlink m 0 infos) (Some f) buf pos bc' <> Ok l'.
Proof.
  intros m z infos f. induction fuel as [|fuel IH]; intros buf pos bc l H d Hd Hm Hf bc' l' H'; [discriminate|]. cbn [dump_sec] in *.
  destruct (Zlen buf <=? pos); [injection H as <-; destruct Hd|].
  destruct (rd_hdr buf pos) as [h|] eqn:EH; [|discriminate]. cbn [or_ub bind] in *. rewrite unlink_info in H'.
  destruct (info_at infos (h_did h)) as [inf|] eqn:EI; [|discriminate]. cbn [or_ub bind] in *. cbv zeta in *.
  set (inf' := if existsb (Z.eqb (h_did h)) m then None else inf) in *.
  destruct (if has (h_flag h) FLAG_SEL_REF then ref_decode (table_slot inf) buf pos bc else decode z (table_slot inf) buf pos) as [e| |] eqn:ED in H; try discriminate. cbn [bind] in H.
  destruct (dump_data (di_ndim (table_slot inf)) (di_esize (table_slot inf)) (Some f) e) as [data| |] eqn:EA in H; try discriminate. cbn [bind] in H.
  destruct (if has (h_flag h) FLAG_SEL_REF then do r <- or_ub (rd_i64 buf _); _ else Ok None) as [ro| |] eqn:ER in H; try discriminate. cbn [bind] in H.
  destruct (dump_blocks (di_ndim (table_slot inf)) (di_esize (table_slot inf)) data (me_sels e)) as [bs| |] eqn:EB in H; try discriminate. cbn [bind] in H.
  destruct (dump_sec fuel z infos (Some f) buf (pos + h_size h) _) as [rest| |] eqn:EF in H; try discriminate. cbn [bind] in H.
  assert (HL : l = mkde pos h ro bs :: rest) by congruence. subst l. clear H.
  destruct (if has (h_flag h) FLAG_SEL_REF then ref_decode (table_slot inf') buf pos bc' else decode z (table_slot inf') buf pos) as [e'| |] eqn:ED' in H'; try discriminate. cbn [bind] in H'.
  destruct (dump_data (di_ndim (table_slot inf')) (di_esize (table_slot inf')) (Some f) e') as [data'| |] eqn:EA' in H'; try discriminate. cbn [bind] in H'.
  destruct (if has (h_flag h) FLAG_SEL_REF then do r <- or_ub (rd_i64 buf _); _ else Ok None) as [ro'| |] in H'; try discriminate. cbn [bind] in H'.
  destruct (dump_blocks (di_ndim (table_slot inf')) (di_esize (table_slot inf')) data' (me_sels e')) as [bs'| |] in H'; try discriminate. cbn [bind] in H'.
  destruct (dump_sec fuel z (unlink m 0 infos) (Some f) buf (pos + h_size h) _) as [rest'| |] eqn:EF' in H'; try discriminate.
  destruct Hd as [<-|Hd].
  - unfold de_did in Hm. cbn [de_hdr] in *. apply dec_hdr in ED'. assert (HE : me_hdr e' = h) by congruence.
    unfold inf' in EA'. rewrite (proj2 (gone_In _ _) Hm) in EA'. unfold dump_data in EA'. cbn [table_slot di_ndim di_esize zero_info] in EA'. rewrite HE in EA'.
    assert (HB : dump_bsize (di_ndim zero_info) 0 (me_sels e') = 0) by (unfold dump_bsize; destruct (me_sels e'); [reflexivity|cbv zeta; apply Z.mul_0_r]).
    match type of EA' with (if ?a <? _ then _ else _) = _ => replace a with 0 in EA' by (symmetry; exact HB) end.
    destruct (Z.ltb_spec 0 (h_fsize h)); [discriminate|lia].
  - exact (IH _ _ _ _ EF d Hd Hm Hf _ _ EF').
Qed.

Lemma dump_secs_same : forall m z infos file md ends off l, dump_secs z infos file md off ends = Ok l -> (forall d, In d (concat l) -> ~ In (de_did d) m) ->
  dump_secs z (unlink m 0 infos) file md off ends = Ok l.
Proof.
  intros m z infos file md. induction ends as [|e ends IH]; intros off l H N; [exact H|]. cbn [dump_secs] in *.
  destruct (rd md off (Z.to_nat (e - off))) as [buf|]; [|discriminate].
  destruct (dump_sec (S (length buf)) z infos file buf 0 []) as [a| |] eqn:EA; try discriminate. cbn [bind] in H.
  destruct (dump_secs z infos file md e ends) as [b| |] eqn:EB; try discriminate. cbn [bind] in H. injection H as <-. cbn [concat] in N.
  rewrite (dump_sec_same m _ _ _ _ _ _ _ _ EA) by (intros d Hd; apply N, in_or_app; auto). cbn [bind].
  rewrite (IH _ _ EB) by (intros d Hd; apply N, in_or_app; auto). reflexivity.
Qed.
Lemma dump_secs_stuck : forall m z infos f md ends off l, dump_secs z infos (Some f) md off ends = Ok l ->
  forall d, In d (concat l) -> In (de_did d) m -> 0 < h_fsize (de_hdr d) -> forall l', dump_secs z (unlink m 0 infos) (Some f) md off ends <> Ok l'.
Proof.
  intros m z infos f md. induction ends as [|e ends IH]; intros off l H d Hd Hm Hf l' H'; cbn [dump_secs] in *; [injection H as <-; destruct Hd|].
  destruct (rd md off (Z.to_nat (e - off))) as [buf|]; [|discriminate].
  destruct (dump_sec (S (length buf)) z infos (Some f) buf 0 []) as [a| |] eqn:EA; try discriminate. cbn [bind] in H.
  destruct (dump_secs z infos (Some f) md e ends) as [b| |] eqn:EB; try discriminate. cbn [bind] in H. injection H as <-. cbn [concat] in Hd.
  destruct (dump_sec (S (length buf)) z (unlink m 0 infos) (Some f) buf 0 []) as [a'| |] eqn:EA'; try discriminate. cbn [bind] in H'.
  destruct (dump_secs z (unlink m 0 infos) (Some f) md e ends) as [b'| |] eqn:EB'; try discriminate.
  apply in_app_or in Hd. destruct Hd as [Hd|Hd]; [exact (dump_sec_stuck _ _ _ _ _ _ _ _ _ EA d Hd Hm Hf _ _ EA')|exact (IH _ _ EB d Hd Hm Hf _ EB')].
Qed.
Lemma dump_mdset_same : forall m z infos file md l, dump_mdset z infos file md = Ok l -> (forall d, In d (concat l) -> ~ In (de_did d) m) ->
  dump_mdset z (unlink m 0 infos) file md = Ok l.
Proof.
  intros m z infos file md l H N. unfold dump_mdset in *. destruct (rd_i64 md 0) as [n|]; [|discriminate]. cbn [or_ub bind] in *.
  destruct (n <? 0); [discriminate|]. destruct (rd_words md 8 (Z.to_nat n)); [|discriminate]. apply dump_secs_same; auto.
Qed.
Lemma dump_mdset_stuck : forall m z infos f md l, dump_mdset z infos (Some f) md = Ok l ->
  forall d, In d (concat l) -> In (de_did d) m -> 0 < h_fsize (de_hdr d) -> forall l', dump_mdset z (unlink m 0 infos) (Some f) md <> Ok l'.
Proof.
  intros m z infos f md l H. unfold dump_mdset in *. destruct (rd_i64 md 0) as [n|]; [|discriminate]. cbn [or_ub bind] in *.
  destruct (n <? 0); [discriminate|]. destruct (rd_words md 8 (Z.to_nat n)); [|discriminate]. eapply dump_secs_stuck; eauto.
Qed.
Lemma dump_mdsets_same : forall m z infos file mds l, dump_mdsets z infos file mds = Ok l -> (forall d, In d (concat (concat l)) -> ~ In (de_did d) m) ->
  dump_mdsets z (unlink m 0 infos) file mds = Ok l.
Proof.
  intros m z infos file. induction mds as [|md mds IH]; intros l H N; [exact H|]. cbn [dump_mdsets] in *.
  destruct (dump_mdset z infos file md) as [a| |] eqn:EA; try discriminate. cbn [bind] in H.
  destruct (dump_mdsets z infos file mds) as [b| |] eqn:EB; try discriminate. cbn [bind] in H. injection H as <-. cbn [concat] in N. rewrite concat_app in N.
  rewrite (dump_mdset_same m _ _ _ _ _ EA) by (intros d Hd; apply N, in_or_app; auto). cbn [bind].
  rewrite (IH _ eq_refl) by (intros d Hd; apply N, in_or_app; auto). reflexivity.
Qed.
Lemma dump_mdsets_stuck : forall m z infos f mds l, dump_mdsets z infos (Some f) mds = Ok l ->
  forall d, In d (concat (concat l)) -> In (de_did d) m -> 0 < h_fsize (de_hdr d) -> forall l', dump_mdsets z (unlink m 0 infos) (Some f) mds <> Ok l'.
Proof.
  intros m z infos f. induction mds as [|md mds IH]; intros l H d Hd Hm Hf l' H'; cbn [dump_mdsets] in *; [injection H as <-; destruct Hd|].
  destruct (dump_mdset z infos (Some f) md) as [a| |] eqn:EA; try discriminate. cbn [bind] in H.
  destruct (dump_mdsets z infos (Some f) mds) as [b| |] eqn:EB; try discriminate. cbn [bind] in H. injection H as <-. cbn [concat] in Hd. rewrite concat_app in Hd.
  destruct (dump_mdset z (unlink m 0 infos) (Some f) md) as [a'| |] eqn:EA'; try discriminate. cbn [bind] in H'.
  destruct (dump_mdsets z (unlink m 0 infos) (Some f) mds) as [b'| |] eqn:EB'; try discriminate.
  apply in_app_or in Hd. destruct Hd as [Hd|Hd]; [exact (dump_mdset_stuck _ _ _ _ _ _ EA d Hd Hm Hf _ EA')|exact (IH _ eq_refl d Hd Hm Hf _ eq_refl)].
Qed.

(** ** h5lreplay *)
Definition me_did (e : mentry) : Z := h_did (me_hdr e).
Lemma parse_same : forall m share z infos fuel buf off ep j bc es, parse_entries share z infos fuel buf off 1 ep j bc = Ok es -> (forall e, In e es -> ~ In (me_did e) m) ->
  parse_entries share z (unlink m 0 infos) fuel buf off 1 ep j bc = Ok es.
Proof.
  intros m share z infos. induction fuel as [|fuel IH]; intros buf off ep j bc es H N; [discriminate|]. cbn [parse_entries] in *.
  destruct (ep <? Zlen buf); [|exact H]. destruct (rd_hdr buf ep) as [h|] eqn:EH; [|discriminate]. cbn [or_ub bind Z.eqb] in *.
  cbv zeta in *. rewrite Z.rem_1_r in *. cbn [Z.eqb negb] in *. rewrite andb_false_r in *.
  destruct (info_at infos (h_did h)) as [inf|] eqn:EI; [|discriminate]. cbn [or_ub bind] in H.
  destruct (if share && has (h_flag h) FLAG_SEL_REF then ref_decode (table_slot inf) buf ep bc else decode z (table_slot inf) buf ep) as [e| |] eqn:ED in H; try discriminate. cbn [bind] in H.
  destruct (parse_entries share z infos fuel buf off 1 (ep + h_size h) (j + 1) _) as [r| |] eqn:ER in H; try discriminate. cbn [bind] in H. assert (HL : es = e :: r) by congruence. subst es.
  assert (HE : me_hdr e = h) by (apply dec_hdr in ED; congruence).
  assert (Hn : ~ In (h_did h) m) by (rewrite <- HE; apply N; left; reflexivity).
  rewrite (unlink_live _ _ _ Hn), EI. cbn [or_ub bind]. rewrite ED. cbn [bind]. rewrite (IH _ _ _ _ _ _ ER); [reflexivity|]. intros x Hx. apply N. right. exact Hx.
Qed.
Lemma parse_dids : forall m share z infos stride fuel buf off ep j bc bc' es es', parse_entries share z infos fuel buf off stride ep j bc = Ok es ->
  parse_entries share z (unlink m 0 infos) fuel buf off stride ep j bc' = Ok es' -> map me_hdr es' = map me_hdr es.
Proof.
  intros m share z infos stride. induction fuel as [|fuel IH]; intros buf off ep j bc bc' es es' H H'; [discriminate|]. cbn [parse_entries] in *.
  destruct (ep <? Zlen buf); [|congruence]. destruct (rd_hdr buf ep) as [h|] eqn:EH; [|discriminate]. cbn [or_ub bind] in *.
  destruct (stride =? 0); [discriminate|]. cbv zeta in *. set (mine := Z.rem (j - off) stride =? 0) in *.
  destruct (negb share && negb mine); [eapply IH; eauto|]. rewrite unlink_info in H'.
  destruct (info_at infos (h_did h)) as [inf|]; [|discriminate]. cbn [or_ub bind] in *. set (inf' := if existsb (Z.eqb (h_did h)) m then None else inf) in *.
  destruct (if share && has (h_flag h) FLAG_SEL_REF then ref_decode (table_slot inf) buf ep bc else decode z (table_slot inf) buf ep) as [e| |] eqn:ED in H; try discriminate. cbn [bind] in H.
  destruct (if share && has (h_flag h) FLAG_SEL_REF then ref_decode (table_slot inf') buf ep bc' else decode z (table_slot inf') buf ep) as [e'| |] eqn:ED' in H'; try discriminate. cbn [bind] in H'.
  destruct (parse_entries share z infos fuel buf off stride (ep + h_size h) (j + 1) _) as [r| |] eqn:ER in H; try discriminate. cbn [bind] in H.
  destruct (parse_entries share z (unlink m 0 infos) fuel buf off stride (ep + h_size h) (j + 1) _) as [r'| |] eqn:ER' in H'; try discriminate. cbn [bind] in H'.
  pose proof (IH _ _ _ _ _ _ _ _ ER ER') as K. apply dec_hdr in ED. apply dec_hdr in ED'. assert (HE : me_hdr e' = me_hdr e) by congruence.
  assert (A : es = if mine then e :: r else r) by congruence. assert (A' : es' = if mine then e' :: r' else r') by congruence. subst es es'.
  destruct mine; cbn [map]; congruence.
Qed.
Lemma window_one : forall md p off stride buf, replay_window 0 1 md = Ok (Some (p, off, stride, buf)) -> stride = 1.
Proof.
  intros md p off stride buf H. unfold replay_window in H. destruct (rd_i64 md 0) as [n|]; [|discriminate].
  destruct (Z.leb_spec n 0); [discriminate|]. cbv zeta in H. destruct (rd md _ 8); [|discriminate].
  destruct (Z.leb_spec 1 n); [|lia]. destruct (rd md ((0 + 1) * n / 1 * 8) 8); [|discriminate].
  match type of H with (if ?b then _ else _) = _ => destruct b end; [discriminate|]. destruct (rd md _ _) in H; [|discriminate].
  congruence.
Qed.
Lemma rparse_same : forall m share z infos mds es, replay_parse share z infos 0 1 mds = Ok es -> (forall e, In e es -> ~ In (me_did e) m) ->
  replay_parse share z (unlink m 0 infos) 0 1 mds = Ok es.
Proof.
  intros m share z infos. induction mds as [|md mds IH]; intros es H N; [exact H|]. cbn [replay_parse] in *.
  destruct (replay_window 0 1 md) as [w| |] eqn:EW; try discriminate. cbn [bind] in *.
  destruct w as [[[[p off] stride] buf]|].
  - apply window_one in EW. subst stride. destruct (parse_entries share z infos (take_fuel 1 buf) buf off 1 0 0 []) as [a| |] eqn:EA; try discriminate. cbn [bind] in H.
    destruct (replay_parse share z infos 0 1 mds) as [b| |] eqn:EB; try discriminate. cbn [bind] in H. injection H as <-.
    rewrite (parse_same m _ _ _ _ _ _ _ _ _ _ EA) by (intros e He; apply N, in_or_app; auto). cbn [bind].
    rewrite (IH _ eq_refl) by (intros e He; apply N, in_or_app; auto). reflexivity.
  - cbn [bind] in *. destruct (replay_parse share z infos 0 1 mds) as [b| |] eqn:EB; try discriminate. cbn [bind] in H. injection H as <-.
    rewrite (IH _ eq_refl) by exact N. reflexivity.
Qed.
Lemma rparse_dids : forall m share z infos r nr mds es es', replay_parse share z infos r nr mds = Ok es ->
  replay_parse share z (unlink m 0 infos) r nr mds = Ok es' -> map me_hdr es' = map me_hdr es.
Proof.
  intros m share z infos r nr. induction mds as [|md mds IH]; intros es es' H H'; cbn [replay_parse] in *; [congruence|].
  destruct (replay_window r nr md) as [w| |]; try discriminate. cbn [bind] in *.
  destruct w as [[[[p off] stride] buf]|].
  - destruct (parse_entries share z infos (take_fuel stride buf) buf off stride 0 0 []) as [a| |] eqn:EA; try discriminate.
    destruct (parse_entries share z (unlink m 0 infos) (take_fuel stride buf) buf off stride 0 0 []) as [a'| |] eqn:EA'; try discriminate. cbn [bind] in *.
    destruct (replay_parse share z infos r nr mds) as [b| |] eqn:EB; try discriminate. destruct (replay_parse share z (unlink m 0 infos) r nr mds) as [b'| |] eqn:EB'; try discriminate.
    cbn [bind] in *. injection H as <-. injection H' as <-. rewrite !map_app. f_equal; [eapply parse_dids; eauto|eauto].
  - cbn [bind] in *. destruct (replay_parse share z infos r nr mds) as [b| |] eqn:EB; try discriminate. destruct (replay_parse share z (unlink m 0 infos) r nr mds) as [b'| |] eqn:EB'; try discriminate.
    cbn [bind app] in *. injection H as <-. injection H' as <-. eauto.
Qed.
Lemma entries_stuck : forall infos file e es ws, In e es -> info_at infos (me_did e) = Some None -> each_entry infos file es <> Ok ws.
Proof.
  intros infos file e. induction es as [|x es IH]; intros ws Hi He H; [destruct Hi|]. cbn [each_entry] in H.
  destruct (replay_entry infos file x) as [a| |] eqn:EA; try discriminate. cbn [bind] in H.
  destruct (each_entry infos file es) as [b| |] eqn:EB; try discriminate. destruct Hi as [->|Hi]; [|exact (IH _ Hi He eq_refl)].
  unfold replay_entry in EA. unfold me_did in He. rewrite He in EA. discriminate.
Qed.
Lemma datasets_stuck : forall infos file e es ids ws, In e es -> In (me_did e) ids -> info_at infos (me_did e) = Some None -> each_dataset infos file es ids <> Ok ws.
Proof.
  intros infos file e es. induction ids as [|i ids IH]; intros ws Hi Hd He H; [destruct Hd|]. cbn [each_dataset] in H.
  destruct (each_entry infos file (filter _ es)) as [a| |] eqn:EA; try discriminate. cbn [bind] in H.
  destruct (each_dataset infos file es ids) as [b| |] eqn:EB; try discriminate. destruct Hd as [->|Hd]; [|exact (IH _ Hi Hd He eq_refl)].
  eapply (entries_stuck infos file e); [|exact He|exact EA]. apply filter_In. split; [exact Hi|]. apply Z.eqb_refl.
Qed.
Lemma datasets_same : forall m infos file es ids, (forall e, In e es -> ~ In (me_did e) m) -> each_dataset (unlink m 0 infos) file es ids = each_dataset infos file es ids.
Proof.
  intros m infos file es ids N.
  assert (K : forall l, (forall e, In e l -> ~ In (me_did e) m) -> each_entry (unlink m 0 infos) file l = each_entry infos file l).
  { induction l as [|e l IH]; intros Nl; [reflexivity|]. cbn [each_entry]. rewrite IH by (intros x Hx; apply Nl; right; exact Hx).
    unfold replay_entry. rewrite (unlink_live m infos (h_did (me_hdr e))) by (apply Nl; left; reflexivity). reflexivity. }
  induction ids as [|i ids IH]; [reflexivity|]. cbn [each_dataset]. rewrite IH. rewrite K; [reflexivity|]. intros e He. apply N. apply filter_In in He. apply He.
Qed.
Definition unlinked (m : list Z) (g : gfile) : gfile := set_infos g (unlink m 0 (g_infos g)).
Lemma info_range : forall infos did (x : option dinfo), info_at infos did = Some x -> 0 <= did < Zlen infos.
Proof.
  intros infos did x H. unfold info_at in H. destruct (Z.ltb_spec did 0); [discriminate|].
  assert (K : (Z.to_nat did < length infos)%nat) by (apply nth_error_Some; congruence). unfold Zlen. lia.
Qed.
Lemma replay_same : forall m z g es, replay_parse (has (g_cfg g) CFG_METADATA_SHARE) z (g_infos g) 0 1 (g_mdsets g) = Ok es -> (forall e, In e es -> ~ In (me_did e) m) ->
  replay_proc z 0 1 (unlinked m g) = replay_proc z 0 1 g.
Proof.
  intros m z g es H N. unfold replay_proc, unlinked. cbn [set_infos g_cfg g_infos g_mdsets g_file]. rewrite (rparse_same m _ _ _ _ _ H N), H. cbn [bind].
  unfold Zlen. rewrite unlink_len. apply datasets_same. exact N.
Qed.
Lemma replay_stuck : forall m z g r nr es, replay_parse (has (g_cfg g) CFG_METADATA_SHARE) z (g_infos g) r nr (g_mdsets g) = Ok es ->
  forall e x, In e es -> In (me_did e) m -> info_at (g_infos g) (me_did e) = Some x -> forall ws, replay_proc z r nr (unlinked m g) <> Ok ws.
Proof.
  intros m z g r nr es H e x He Hm Hx ws H'. unfold replay_proc, unlinked in H'. cbn [set_infos g_cfg g_infos g_mdsets g_file] in H'.
  destruct (replay_parse (has (g_cfg g) CFG_METADATA_SHARE) z (unlink m 0 (g_infos g)) r nr (g_mdsets g)) as [es'| |] eqn:E'; try discriminate. cbn [bind] in H'.
  pose proof (rparse_dids m _ _ _ _ _ _ _ _ H E') as K. assert (Hi : In (me_hdr e) (map me_hdr es')) by (rewrite K; apply in_map; exact He).
  apply in_map_iff in Hi. destruct Hi as (e' & E1 & E2). assert (ED : me_did e' = me_did e) by (unfold me_did; congruence).
  refine (datasets_stuck _ _ e' es' _ _ E2 _ _ H'); rewrite ED.
  - apply zseq_In. unfold Zlen. rewrite unlink_len. apply (info_range _ _ _ Hx).
  - rewrite unlink_info, Hx, (proj2 (gone_In _ _) Hm). reflexivity.
Qed.

(** ** The datasets of the entries replayed *)
Lemma match_dids : forall infos es ps, Forall2 (ematch infos) es ps -> map me_did es = map (fun p => a_did (snd p)) ps /\ Forall (fun e => exists x, info_at infos (me_did e) = Some x) es.
Proof.
  intros infos es ps H. induction H as [|e p es ps H1 H2 [IH1 IH2]]; [split; [reflexivity|constructor]|].
  destruct H1 as (A & _ & _ & dip & B & _). split; [cbn [map]; rewrite IH1; unfold me_did; congruence|]. constructor; [|exact IH2]. exists (Some dip). unfold me_did. congruence.
Qed.
Definition parsed (z : zlib) (r nr : Z) (g : gfile) (ls : list (list (list logged))) : Prop :=
  exists es, replay_parse (has (g_cfg g) CFG_METADATA_SHARE) z (g_infos g) r nr (g_mdsets g) = Ok es /\
    map me_did es = map lg_did (flat_map (fun secs => concat (slice r nr secs)) ls) /\
    Forall (fun e => exists x, info_at (g_infos g) (me_did e) = Some x) es.
Lemma dids_inv : forall e cfg cv s sp h n C ms grs z r nr, e_kind e = KArray -> inv e cfg cv s sp h n C ms grs ->
  Forall (fun md => Zlen md < 2 ^ 31) (g_mdsets (s_g s)) -> 0 <= r < nr ->
  Forall (fun secs => nr <= Zlen secs) (ls_md (ls_of (glog ms grs))) -> parsed z r nr (s_g s) (ls_md (ls_of (glog ms grs))).
Proof.
  intros e cfg cv s sp h n C ms grs z r nr HK I H31 Hr Hnr. pose proof (v_secs _ _ _ _ _ _ _ _ _ _ I) as HS. rewrite HK in *.
  unfold parsed, ls_of, glog in *. cbn [fst ls_md] in *.
  rewrite (v_md _ _ _ _ _ _ _ _ _ _ I) in *. rewrite (v_cfg _ _ _ _ _ _ _ _ _ _ I).
  destruct (parse_mdsets z cfg (g_infos (s_g s)) r nr ms HS) as (es & E1 & E2); auto.
  - rewrite Forall_map in H31. rewrite !Forall_map in Hnr. rewrite Forall_forall in *. intros m Hm.
    split; [apply H31; auto|]. pose proof (Hnr m Hm) as K. rewrite !Zlen_map in K. lia.
  - exists es. split; [exact E1|]. destruct (match_dids _ _ _ E2) as [D1 D2]. split; [|exact D2]. rewrite D1. clear.
    induction ms as [|m ms IH]; [reflexivity|]. cbn [flat_map map]. rewrite !map_app. f_equal; [|exact IH]. rewrite !slice_map, map_map. clear.
    induction (slice r nr m) as [|s0 l IHl]; [reflexivity|]. cbn [flat_map map concat]. rewrite !map_app. f_equal; [rewrite map_map; reflexivity|exact IHl].
Qed.
Lemma dids_ok : forall z cfg cv np f0 ops s outs r nr, ok_history (e_list z) cfg cv np ops ->
  run (e_list z) (init cfg np f0) ops = Ok (s, outs) -> Forall (fun md => Zlen md < 2 ^ 31) (g_mdsets (s_g s)) ->
  0 <= r < nr -> Forall (fun secs => nr <= Zlen secs) (ls_md (log_of np ops)) -> parsed z r nr (s_g s) (ls_md (log_of np ops)).
Proof.
  intros z cfg cv np f0 ops s outs r nr (_ & H1 & H2 & H3 & H4 & H5) HR HM Hr Hnr.
  destruct (run_ok_log (e_list z) cfg cv ops _ _ _ _ _ _ _ (inv_init (e_list z) cfg cv np f0 H1 H2) H4 H5 ltac:(lia)) as (s' & C' & ms' & grs' & h' & R1 & R2 & R3).
  assert (s' = s) by congruence. subst s'. change (e_coll (e_list z)) with true in *.
  assert (HL : ls_of (glog ms' grs') = log_of np ops).
  { rewrite R3, ls_run. unfold log_of. f_equal. unfold ls_of, glog. cbn [fst snd map]. f_equal; clear; (induction np as [|np IH]; [reflexivity|]); cbn [repeat map]; f_equal; exact IH. }
  rewrite <- HL in *. eapply (dids_inv (e_list z)); eauto.
Qed.
Lemma dids_all : forall e cfg np f0 ops s outs r nr, e_coll e = true -> plain_cfg cfg ->
  legal_history true np ops -> sized_history true np ops ->
  ((has cfg CFG_SEL_ENCODE = false /\ has cfg CFG_METADATA_SHARE = false) \/ array_history np ops) ->
  run e (init cfg np f0) ops = Ok (s, outs) -> Forall (fun md => Zlen md < 2 ^ 31) (g_mdsets (s_g s)) ->
  0 <= r < nr -> Forall (fun secs => nr <= Zlen secs) (ls_md (log_of np ops)) -> parsed (e_zlib e) r nr (s_g s) (ls_md (log_of np ops)).
Proof.
  intros e cfg np f0 ops s outs r nr Hc Hp Hl Hs Hb HR HM Hr Hnr.
  assert (exists cv, ok_history (e_list (e_zlib e)) cfg cv np ops) as [cv Hok].
  { destruct Hb as [[B1 B2]|[f B]].
    - exists (mkconv (fun _ _ => false) (fun _ => 1)). apply sized_ok; auto. exact isort_is_sort.
    - exists (acv f). apply array_ok; auto. exact isort_is_sort. }
  destruct (run_spec _ _ _ _ f0 _ Hok) as [s' R'].
  assert (HG : s_g s = s_g s') by (eapply same_file; [| | |exact HR|exact R']; auto). rewrite HG in *. eapply dids_ok; eauto.
Qed.

(** ** Every write is in the log *)
Lemma elems_some : forall es data, data <> [] -> elems es data <> [].
Proof. intros es [|x d] H; [congruence|]. unfold elems. cbn. discriminate. Qed.
Lemma in_nth_rank : forall rk md (l : logged), In l (rank_log rk md) -> In l (concat (concat md)).
Proof.
  intros rk md l H. unfold rank_log in H. apply in_flat_map in H. destruct H as (secs & H1 & H2).
  apply in_concat. exists (nth rk secs []). split; [|exact H2]. apply in_concat. exists secs. split; [exact H1|].
  destruct (nth_in_or_default rk secs []) as [K|K]; [exact K|]. rewrite K in H2. destruct H2.
Qed.
Lemma logged_write : forall np ops0 doff n rk did sels data, let ops := ops0 ++ [OReopen doff n] in legal_history true np ops ->
  In (OWrite rk did sels data) ops -> data <> [] ->
  exists l, In l (concat (concat (ls_md (log_of np ops)))) /\ lg_did l = did /\ 0 < Zlen (lg_data l).
Proof.
  intros np ops0 doff n rk did sels data ops HL Hi Hd.
  assert (HC : sel_coords sels <> []).
  { destruct HL as (_ & _ & _ & HL). assert (K : forall ops t hi, legal_run true t hi ops -> In (OWrite rk did sels data) ops ->
      exists d : dinfo, Zlen data = di_esize d * Zlen (sel_coords sels)).
    { clear. induction ops as [|o ops IH]; intros t hi H Hin; [destruct Hin|]. destruct H as [H1 H2]. destruct Hin as [->|Hin]; [|eapply IH; eauto].
      destruct H1 as (_ & d & _ & _ & E). exists d. exact E. }
    destruct (K _ _ _ HL Hi) as [d E]. intros E0. rewrite E0 in E. unfold Zlen in E. cbn in E. rewrite Z.mul_0_r in E. destruct data; [congruence|]. cbn in E. lia. }
  set (F := t_sets (trace_of true np ops)).
  pose proof (run_state F rk ops np _ (init_even np) (legal_ranks0 _ _ HL)) as K. fold (log_of np ops) in K. unfold rank_state at 2 in K. cbn [ls_md ls_fl ls_pd] in K.
  rewrite !nth_repeat_nil in K. cbn in K. unfold rank_state in K.
  assert (ls_fl (log_of np ops) = repeat [] n /\ ls_pd (log_of np ops) = repeat [] n) as [E1 E2].
  { unfold ops, log_of. rewrite fold_left_app. cbn [fold_left l_step]. split; reflexivity. }
  rewrite E1, E2, !nth_repeat_nil in K. cbn [flat_map] in K. rewrite !app_nil_r in K.
  set (asg := assigns_of (esize_at F did) did sels data).
  assert (HA : exists x v, In (did, x, v) asg).
  { unfold asg, assigns_of. pose proof (elems_some (esize_at F did) data Hd). destruct (sel_coords sels) as [|c cs]; [congruence|].
    destruct (elems (esize_at F did) data) as [|v vs]; [congruence|]. exists c, v. left. reflexivity. }
  destruct HA as (x & v & HA).
  assert (HB : In (did, x, v) (flat_map (by_rank F rk) ops)).
  { apply in_flat_map. exists (OWrite rk did sels data). split; [exact Hi|]. cbn [by_rank]. rewrite Nat.eqb_refl. exact HA. }
  rewrite <- K in HB. apply in_flat_map in HB. destruct HB as (l & L1 & L2). exists l. split; [eapply in_nth_rank; eauto|].
  unfold log_assigns, assigns_of in L2. apply in_map_iff in L2. destruct L2 as ([c w] & L3 & L4). split; [congruence|].
  apply in_combine_r in L4. destruct (lg_data l); [destruct L4|]. unfold Zlen. cbn [length]. lia.
Qed.
