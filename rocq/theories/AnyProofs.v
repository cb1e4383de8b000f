(** Lemmas about every history: metadata compression, closing and reopening, resizing, repeated reads. *)
From Verif Require Import Base Spec MetaModel QueueModel FlushModel IndexModel ReadModel SysModel SysSpec AnySpec.
From Coq Require Import ZifyNat ZifyN.

(** ** Metadata compression *)

Definition strip (w : wreq) : wreq := set_flag w (clear_bit (h_flag (w_hdr w)) FLAG_SEL_DEFLATE).
Definition strip2 (p : wreq * wreq) : wreq * wreq := (strip (fst p), strip (snd p)).

Lemma clear_twice : forall f b, clear_bit (clear_bit f b) b = clear_bit f b.
Proof. intros f b. unfold clear_bit. rewrite <- Z.land_assoc, Z.land_diag. reflexivity. Qed.
Lemma clear_other : forall f b c, Z.land b c = 0 -> has (clear_bit f b) c = has f c.
Proof.
  intros f b c H. unfold has, clear_bit. f_equal. f_equal. rewrite <- Z.land_assoc. f_equal.
  apply Z.bits_inj'. intros n Hn. rewrite Z.land_spec, Z.lnot_spec by lia.
  assert (Q : Z.testbit (Z.land b c) n = false) by (rewrite H; apply Z.bits_0). rewrite Z.land_spec in Q.
  destruct (Z.testbit b n), (Z.testbit c n); cbn in *; congruence.
Qed.
Lemma clear_none : forall f b, has f b = false -> clear_bit f b = f.
Proof.
  intros f b H. unfold has in H. apply negb_false_iff in H. apply Z.eqb_eq in H. unfold clear_bit. apply Z.bits_inj'. intros n Hn.
  rewrite Z.land_spec, Z.lnot_spec by lia. assert (Q : Z.testbit (Z.land f b) n = false) by (rewrite H; apply Z.bits_0). rewrite Z.land_spec in Q.
  destruct (Z.testbit b n), (Z.testbit f n); cbn in *; congruence.
Qed.
Lemma clear_lor : forall f r b, clear_bit (Z.lor (clear_bit f b) r) b = clear_bit (Z.lor f r) b.
Proof.
  intros f r b. unfold clear_bit. apply Z.bits_inj'. intros n Hn.
  rewrite !Z.land_spec, !Z.lor_spec, !Z.land_spec, !Z.lnot_spec by lia.
  destruct (Z.testbit f n), (Z.testbit r n), (Z.testbit b n); reflexivity.
Qed.

Lemma strip_strip : forall w, strip (strip w) = strip w.
Proof. intros w. unfold strip, set_flag. cbn. rewrite clear_twice. reflexivity. Qed.

Lemma compress_none : forall z zb r sz, exists zb', compress_sel z zb r sz = (strip r, sz, zb').
Proof.
  intros z zb r sz. unfold compress_sel. destruct (has (h_flag (w_hdr r)) FLAG_SEL_DEFLATE) eqn:E.
  - destruct (z_deflate z _ _) as [[|] out].
    + eexists. reflexivity.
    + cbn [Z.eqb andb]. replace (Z.max zb sz <? sz) with false by (symmetry; apply Z.ltb_ge; lia). eexists. reflexivity.
  - exists zb. f_equal. f_equal. unfold strip, set_flag. rewrite clear_none by exact E. destruct r as [[? ? ? ? ?] ? ? ? ?]. reflexivity.
Qed.

Lemma eq_strip : forall k r, wreq_eq (strip k) (strip r) = wreq_eq k r.
Proof. intros [[? ? ? ? ?] ? ? ? ?] [[? ? ? ? ?] ? ? ? ?]. reflexivity. Qed.
Lemma find_strip : forall k tbl, hash_find (strip k) (map strip2 tbl) =
  match hash_find k tbl with Ok o => Ok (option_map strip o) | Err => Err | UB => UB end.
Proof.
  intros k tbl. induction tbl as [|[key tgt] tbl IH]; [reflexivity|]. cbn [map strip2 fst snd hash_find]. rewrite eq_strip.
  destruct (wreq_eq k key) as [[|]| |]; cbn; auto.
Qed.
Lemma ref_strip : forall r tgt md, make_ref (strip r) (strip tgt) md = make_ref r tgt md.
Proof.
  intros [[hs hd hf ho hz] body pos mo dat] [[ts td tf to tz] tbody tpos tmo tdat] md. unfold make_ref, strip, set_flag. cbn [w_hdr h_flag h_size h_did h_foff h_fsize w_body w_selpos w_metaoff w_data].
  rewrite clear_lor, clear_other by reflexivity. rewrite (clear_other tf) by reflexivity. reflexivity.
Qed.
Lemma strip_ref : forall r tgt md, strip (make_ref r tgt md) = make_ref r tgt md.
Proof.
  intros r tgt md. unfold make_ref, strip, set_flag. cbn [w_hdr h_flag h_size h_did h_foff h_fsize w_body w_selpos w_metaoff w_data]. f_equal. f_equal.
  set (f := Z.lor (h_flag (w_hdr r)) FLAG_SEL_REF).
  destruct (_ && _); [|apply clear_twice]. unfold clear_bit. rewrite <- !Z.land_assoc. f_equal.
Qed.

Section Deflate.
Context (cfg cfg' : Z).
Hypothesis Hsh : has cfg' CFG_METADATA_SHARE = has cfg CFG_METADATA_SHARE.
Hypothesis Hen : has cfg' CFG_SEL_ENCODE = has cfg CFG_SEL_ENCODE.
Hypothesis Hde : has cfg' CFG_SEL_DEFLATE = false.

Lemma mk_strip : forall did dip md sels, mk_wreq cfg' did dip md sels = strip (mk_wreq cfg did dip md sels).
Proof.
  intros did dip md sels. unfold mk_wreq, strip, set_flag. rewrite Hen, Hde, andb_false_r. cbn [w_hdr h_flag h_size h_did h_foff h_fsize w_body w_selpos w_metaoff w_data].
  f_equal. f_equal. destruct (is_rec dip sels), (1 <? length sels)%nat, (_ && has cfg CFG_SEL_ENCODE), (has cfg CFG_SEL_DEFLATE); reflexivity.
Qed.

(** Ranks that differ by compression only. *)
Definition rsim (a b : rank) : Prop :=
  k_wreqs b = k_wreqs a /\ k_nflushed b = k_nflushed a /\ k_mdsize b = k_mdsize a /\ k_hash b = map strip2 (k_hash a).

Lemma finish_sim : forall z a b did dip sels, rsim a b ->
  match finish_meta z cfg a (mk_wreq cfg did dip (k_mdsize a) sels), finish_meta z cfg' b (mk_wreq cfg' did dip (k_mdsize b) sels) with
  | Ok (r, tbl, _), Ok (r', tbl', _) => r' = r /\ tbl' = map strip2 tbl
  | Err, Err => True
  | UB, UB => True
  | _, _ => False
  end.
Proof.
  intros z a b did dip sels (E1 & E2 & E3 & E4). rewrite E3. rewrite mk_strip. set (r := mk_wreq cfg did dip (k_mdsize a) sels).
  unfold finish_meta, dedup. rewrite Hsh. replace (selsize_of (strip r)) with (selsize_of r) by (destruct r as [[? ? ? ? ?] ? ? ? ?]; reflexivity).
  assert (Q : forall sz, let '(x, sz2, _) := compress_sel z (k_zbsize a) r sz in let '(x', sz2', _) := compress_sel z (k_zbsize b) (strip r) sz in x' = x /\ sz2' = sz2).
  { intros sz. destruct (compress_none z (k_zbsize a) r sz) as (zb & ->). destruct (compress_none z (k_zbsize b) (strip r) sz) as (zb' & ->). rewrite strip_strip. auto. }
  destruct (has cfg CFG_METADATA_SHARE && (8 <? selsize_of r)).
  - rewrite E4, find_strip. destruct (hash_find r (k_hash a)) as [[tgt|]| |]; cbn [bind option_map]; auto.
    + rewrite E3. rewrite ref_strip. destruct (compress_none z (k_zbsize a) (make_ref r tgt (k_mdsize a)) 8) as (zb & ->).
      destruct (compress_none z (k_zbsize b) (make_ref r tgt (k_mdsize a)) 8) as (zb' & ->). auto.
    + specialize (Q (selsize_of r)). destruct (compress_sel z (k_zbsize a) r (selsize_of r)) as [[x sx] zx].
      destruct (compress_sel z (k_zbsize b) (strip r) (selsize_of r)) as [[x' sx'] zx']. destruct Q as [-> ->]. split; [reflexivity|]. rewrite map_app. reflexivity.
  - cbn [bind]. specialize (Q (selsize_of r)). destruct (compress_sel z (k_zbsize a) r (selsize_of r)) as [[x sx] zx].
    destruct (compress_sel z (k_zbsize b) (strip r) (selsize_of r)) as [[x' sx'] zx']. destruct Q as [-> ->]. auto.
Qed.
Lemma write_sim : forall z infos a b did sels data, rsim a b ->
  match ds_write z cfg infos a did sels data, ds_write z cfg' infos b did sels data with
  | Ok a', Ok b' => rsim a' b'
  | Err, Err => True
  | UB, UB => True
  | _, _ => False
  end.
Proof.
  intros z infos a b did sels data R. unfold ds_write. destruct sels as [|b0 rest]; [exact R|].
  destruct (nth_error infos (Z.to_nat did)) as [[dip|]|]; auto.
  pose proof (finish_sim z a b did dip (b0 :: rest) R) as F. destruct R as (E1 & E2 & E3 & E4).
  destruct (finish_meta z cfg a _) as [[[r tbl] zb]| |]; destruct (finish_meta z cfg' b _) as [[[r' tbl'] zb']| |]; cbn [bind]; try contradiction; auto.
  destruct F as [-> ->]. repeat split; cbn; congruence.
Qed.

Lemma parse_array_sim : forall fuel z infos buf pos bc, parse_array fuel z cfg' infos buf pos bc = parse_array fuel z cfg infos buf pos bc.
Proof.
  induction fuel as [|n IH]; intros z infos buf pos bc; [reflexivity|]. cbn [parse_array]. rewrite Hsh.
  destruct (Zlen buf <=? pos); [reflexivity|]. destruct (rd_hdr buf pos) as [h|]; cbn [bind or_ub]; auto. destruct (info_at infos (h_did h)) as [[d|]|]; cbn [bind or_ub]; auto.
  destruct (_ && _); [destruct (ref_decode _ _ _ _)|destruct (decode _ _ _ _)]; cbn [bind]; auto; rewrite IH; reflexivity.
Qed.
Lemma parse_compact_sim : forall fuel z infos buf pos bc, parse_compact fuel z cfg' infos buf pos bc = parse_compact fuel z cfg infos buf pos bc.
Proof.
  induction fuel as [|n IH]; intros z infos buf pos bc; [reflexivity|]. cbn [parse_compact]. rewrite Hsh.
  destruct (Zlen buf <=? pos); [reflexivity|]. destruct (rd_hdr buf pos) as [h|]; cbn [bind or_ub]; auto. destruct (info_at infos (h_did h)) as [[d|]|]; cbn [bind or_ub]; auto.
  destruct (_ && _).
  - destruct (if has (h_flag h) FLAG_REC then _ else _); cbn [bind]; auto. destruct (rd_i64 buf _); cbn [bind or_ub]; auto. rewrite IH. reflexivity.
  - destruct (decode _ _ _ _); cbn [bind]; auto. rewrite IH. reflexivity.
Qed.
Lemma idx_parse_sim : forall z infos i buf, idx_parse z cfg' infos i buf = idx_parse z cfg infos i buf.
Proof. intros z infos [l|l] buf; cbn [idx_parse]; [rewrite parse_array_sim|rewrite parse_compact_sim]; reflexivity. Qed.
Lemma load_all_sim : forall z infos mds i, load_all z cfg' infos i mds = load_all z cfg infos i mds.
Proof.
  intros z infos mds. induction mds as [|md mds IH]; intros i; [reflexivity|]. cbn [load_all]. destruct (md_body md); cbn [bind or_ub]; auto.
  rewrite idx_parse_sim. destruct (idx_parse _ _ _ _ _); cbn [bind]; auto.
Qed.
Lemma parts_sim : forall fuel z infos k lim mds md sec rs, search_parts fuel z cfg' infos k lim mds md sec rs = search_parts fuel z cfg infos k lim mds md sec rs.
Proof.
  induction fuel as [|n IH]; intros; [reflexivity|]. cbn [search_parts]. destruct (load_part lim mds md sec) as [p| |]; cbn [bind]; auto. rewrite idx_parse_sim.
  destruct (idx_parse _ _ _ _ _); cbn [bind]; auto. destruct (idx_search _ _ _); cbn [bind]; auto. destruct (snd p) as [[? ?]|]; auto. rewrite IH. reflexivity.
Qed.
Lemma read_search_sim : forall z infos k lim mds c rs, read_search z cfg' infos k lim mds c rs = read_search z cfg infos k lim mds c rs.
Proof. intros z infos k [lim|] mds c rs; cbn [read_search]; [rewrite parts_sim; reflexivity|]. destruct c; [reflexivity|]. rewrite load_all_sim. reflexivity. Qed.

Definition gsim (g g' : gfile) : Prop :=
  g_cfg g = cfg /\ g_cfg g' = cfg' /\ g_infos g' = g_infos g /\ Forall2 rsim (g_ranks g) (g_ranks g') /\ g_file g' = g_file g /\
  g_mdsets g' = g_mdsets g /\ g_nldset g' = g_nldset g /\ g_metadirty g' = g_metadirty g.
Definition ssim (s s' : sys) : Prop := gsim (s_g s) (s_g s') /\ s_idx s' = s_idx s.

Lemma rsim_map : forall B (f : rank -> B) l l', (forall a b, rsim a b -> f b = f a) -> Forall2 rsim l l' -> map f l' = map f l.
Proof. intros B f l l' H F. induction F as [|a b l l' R F IH]; [reflexivity|]. cbn. rewrite IH, (H a b R). reflexivity. Qed.
Lemma pending_sim : forall g g', gsim g g' -> any_pending g' = any_pending g.
Proof.
  intros g g' (_ & _ & _ & F & _). unfold any_pending. induction F as [|a b l l' R F IH]; [reflexivity|]. cbn [existsb]. rewrite IH. f_equal. f_equal.
  unfold num_pending. destruct R as (-> & -> & _). reflexivity.
Qed.
Lemma flush_sim : forall doff g g', gsim g g' -> gsim (flush_writes doff g) (flush_writes doff g').
Proof.
  intros doff g g' (C & C' & I & F & Fl & M & N & D). unfold flush_writes.
  rewrite (rsim_map _ (fun st => local_size (unflushed st)) _ _ ltac:(intros a b (W & K & _); unfold unflushed; rewrite W, K; reflexivity) F).
  set (sizes := map _ (g_ranks g)). destruct (Zsum sizes =? 0).
  - repeat split; cbn; auto. clear - F. induction F as [|a b l l' R F IH]; cbn; constructor; auto.
    destruct R as (W & K & S & H). unfold rsim, rank_assign, flushed, unflushed. cbn. rewrite W, K. auto.
  - set (bases := map _ (exscan 0 sizes)).
    repeat split; cbn; auto; try congruence.
    + generalize bases. clear - F. induction F as [|a b l l' R F IH]; intros [|x bs]; cbn [combine map]; try apply Forall2_nil. apply Forall2_cons; [|apply IH]. cbn [fst snd].
      destruct R as (W & K & S & H). unfold rsim, rank_flushed, flushed, unflushed. cbn. rewrite W, K. auto.
    + rewrite Fl. generalize (g_file g). generalize bases. clear - F. induction F as [|a b l l' R F IH]; intros [|x bs] f; cbn; auto.
      rewrite IH. destruct R as (W & K & S & H). unfold local_bytes, unflushed. rewrite W, K. reflexivity.
Qed.
Lemma md_sim : forall l l', Forall2 rsim l l' -> meta_sizes l' = meta_sizes l /\ md_content l' = md_content l /\ Zlen l' = Zlen l.
Proof.
  intros l l' F. assert (L : length l' = length l) by (symmetry; clear - F; induction F; cbn; congruence). assert (Z1 : Zlen l' = Zlen l) by (unfold Zlen; rewrite L; reflexivity).
  assert (M : map meta_len l' = map meta_len l) by (apply rsim_map; auto; intros a b (W & _); unfold meta_len; rewrite W; reflexivity).
  assert (B : map meta_bytes l' = map meta_bytes l) by (apply rsim_map; auto; intros a b (W & _); unfold meta_bytes; rewrite W; reflexivity).
  assert (S : meta_sizes l' = meta_sizes l) by (unfold meta_sizes; rewrite M, Z1; reflexivity).
  split; [exact S|]. split; [|exact Z1]. unfold md_content. rewrite S. f_equal. f_equal. f_equal.
  assert (Mm : md_map l' = md_map l) by (unfold md_map; rewrite S, Z1; reflexivity).
  destruct F as [|a b l l' R F]; [reflexivity|]. cbn [md_pieces]. rewrite Mm. cbn [map] in B. injection B as B1 B2. rewrite B1, B2. reflexivity.
Qed.
Lemma metaflush_sim : forall g g', gsim g g' -> gsim (metaflush g) (metaflush g').
Proof.
  intros g g' (C & C' & I & F & Fl & M & N & D). destruct (md_sim _ _ F) as (S & K & Z1). unfold metaflush. rewrite S, K, Z1.
  repeat split; cbn; auto.
  - clear - F. induction F as [|a b l l' R F IH]; cbn; constructor; auto. repeat split.
  - rewrite M. reflexivity.
Qed.

Lemma read_one_sim : forall e g g' idx c, gsim g g' -> read_one e g' idx c = read_one e g idx c.
Proof.
  intros e g g' idx c (C & C' & I & F & Fl & M & N & D). unfold read_one. destruct (rc_sels c); [reflexivity|]. rewrite I. destruct (info_at _ _) as [[d|]|]; auto.
  rewrite C, C', M, Fl, read_search_sim. reflexivity.
Qed.
Lemma read_each_sim : forall e g g' cs idx, gsim g g' -> read_each e g' idx cs = read_each e g idx cs.
Proof.
  intros e g g' cs. induction cs as [|c cs IH]; intros idx G; [reflexivity|]. cbn [read_each]. rewrite (read_one_sim e g g' idx c G).
  destruct (read_one e g idx c) as [p| |]; cbn [bind]; auto. rewrite IH by exact G. reflexivity.
Qed.
Lemma create_sim : forall d, create_info cfg' d = create_info cfg d.
Proof. intros d. unfold create_info. rewrite Hen. reflexivity. Qed.
Lemma reopen_sim : forall infos, reopen_infos cfg' infos = reopen_infos cfg infos.
Proof. induction infos as [|[d|] l IH]; cbn [reopen_infos]; auto; rewrite ?create_sim, IH; reflexivity. Qed.
Lemma extent_sim : forall d new, set_extent cfg' d new = set_extent cfg d new.
Proof. intros d new. unfold set_extent. rewrite Hen. reflexivity. Qed.

Definition same_end (r r' : res (sys * list (list Z))) : Prop :=
  match r, r' with
  | Ok p, Ok p' => ssim (fst p) (fst p') /\ snd p' = snd p
  | Err, Err => True
  | UB, UB => True
  | _, _ => False
  end.
Lemma nth_sim : forall l l' n, Forall2 rsim l l' ->
  match nth_error l n, nth_error l' n with Some a, Some b => rsim a b | None, None => True | _, _ => False end.
Proof. intros l l' n F. revert n. induction F as [|a b l l' R F IH]; intros [|n]; cbn; auto. apply IH. Qed.
Lemma upd_sim : forall l l' n a b, Forall2 rsim l l' -> rsim a b -> Forall2 rsim (upd_nth n a l) (upd_nth n b l').
Proof. intros l l' n a b F R. revert n. induction F as [|x y l l' R' F IH]; intros [|n]; cbn; constructor; auto. Qed.

Lemma step_sim : forall e s s' o, ssim s s' -> same_end (step e s o) (step e s' o).
Proof.
  intros e s s' o [G X]. pose proof G as (C & C' & I & F & Fl & M & N & D).
  destruct o as [d|did dims|rk did sels data|doff|doff calls|doff np]; cbn [step].
  - rewrite C, C', create_sim. destruct (create_info cfg d); cbn [bind same_end fst snd]; auto. split; auto. split; [|exact X].
    repeat split; cbn; auto; congruence.
  - rewrite I. destruct (info_at (g_infos (s_g s)) did) as [[d|]|]; cbn [same_end]; auto. rewrite C, C', extent_sim. destruct (set_extent cfg d dims) as [d' [|]]; cbn [same_end fst snd]; auto.
    split; auto. split; [|exact X]. repeat split; cbn; auto; congruence.
  - pose proof (nth_sim _ _ rk F) as R. destruct (nth_error (g_ranks (s_g s)) rk) as [a|], (nth_error (g_ranks (s_g s')) rk) as [b|]; try contradiction; cbn [same_end]; auto.
    rewrite C, C', I. pose proof (write_sim (e_zlib e) (g_infos (s_g s)) a b did sels data R) as W.
    destruct (ds_write _ cfg _ a _ _ _), (ds_write _ cfg' _ b _ _ _); cbn [bind same_end fst snd]; try contradiction; auto.
    split; auto. split; [|exact X]. repeat split; cbn; auto. apply upd_sim; auto.
  - cbn [same_end fst snd]. split; auto. split; [|exact X]. cbn [s_g]. rewrite (pending_sim _ _ G). destruct (any_pending (s_g s)); auto. apply flush_sim; exact G.
  - rewrite (pending_sim _ _ G).
    set (g1 := if e_coll e && any_pending (s_g s) then flush_writes doff (s_g s) else s_g s).
    set (g1' := if e_coll e && any_pending (s_g s) then flush_writes doff (s_g s') else s_g s').
    assert (G1 : gsim g1 g1') by (unfold g1, g1'; destruct (_ && _); auto; apply flush_sim; exact G).
    assert (D1 : g_metadirty g1' = g_metadirty g1) by apply G1. rewrite D1.
    set (g2 := if g_metadirty g1 then metaflush g1 else g1). set (g2' := if g_metadirty g1 then metaflush g1' else g1').
    assert (G2 : gsim g2 g2') by (unfold g2, g2'; destruct (g_metadirty g1); auto; apply metaflush_sim; exact G1).
    rewrite (read_each_sim e g2 g2' calls _ G2). rewrite X. destruct (read_each e g2 _ calls); cbn [bind same_end fst snd]; auto. split; auto. split; auto.
  - assert (G1 : gsim (close_file doff (s_g s)) (close_file doff (s_g s'))) by (apply metaflush_sim, flush_sim; exact G).
    destruct G1 as (C1 & C1' & I1 & F1 & Fl1 & M1 & N1 & D1). rewrite C, C', I, reopen_sim. destruct (reopen_infos _ _); cbn [bind same_end fst snd]; auto.
    split; auto. split; [|reflexivity]. repeat split; cbn; auto. clear. induction np; cbn; constructor; auto. repeat split.
Qed.

Lemma run_sim : forall e ops s s', ssim s s' -> observed (run e s' ops) = observed (run e s ops).
Proof.
  intros e. induction ops as [|o ops IH]; intros s s' S; [reflexivity|]. cbn [run]. pose proof (step_sim e s s' o S) as H.
  destruct (step e s o) as [[s1 o1]| |], (step e s' o) as [[s1' o1']| |]; cbn [same_end] in H; try contradiction; cbn [bind]; auto. cbn [fst snd] in *.
  destruct H as [H1 ->]. specialize (IH _ _ H1). destruct (run e s1 ops) as [[a b]| |], (run e s1' ops) as [[a' b']| |]; cbn in *; congruence.
Qed.
End Deflate.

Lemma deflate_any : forall e cfg np f0 ops, plain_cfg cfg -> has cfg CFG_SEL_DEFLATE = true ->
  observed (run e (init cfg np f0) ops) = observed (run e (init (cfg - CFG_SEL_DEFLATE) np f0) ops).
Proof.
  intros e cfg np f0 ops P H. symmetry. unfold plain_cfg in P.
  assert (Q : has (cfg - CFG_SEL_DEFLATE) CFG_METADATA_SHARE = has cfg CFG_METADATA_SHARE /\ has (cfg - CFG_SEL_DEFLATE) CFG_SEL_ENCODE = has cfg CFG_SEL_ENCODE /\
              has (cfg - CFG_SEL_DEFLATE) CFG_SEL_DEFLATE = false).
  { assert (K : In cfg (map Z.of_nat (seq 0 16))) by (apply in_map_iff; exists (Z.to_nat cfg); split; [lia|apply in_seq; lia]).
    clear - K H. vm_compute in K. repeat (destruct K as [<-|K]; [try (vm_compute in H; discriminate H); vm_compute; repeat split; reflexivity|]). contradiction. }
  destruct Q as (Q1 & Q2 & Q3). apply (run_sim cfg (cfg - CFG_SEL_DEFLATE)); auto. split; [|reflexivity]. repeat split; cbn; auto.
  clear. induction np; cbn; constructor; auto. repeat split.
Qed.

(** ** Closing and reopening *)

(** Dataset descriptions that agree on everything but sizes. *)
Definition like (a b : option dinfo) : Prop :=
  match a, b with
  | Some d, Some d' => di_esize d' = di_esize d /\ di_ndim d' = di_ndim d /\ di_fill d' = di_fill d
  | None, None => True
  | _, _ => False
  end.
Lemma like_refl : forall a, like a a.
Proof. intros [d|]; cbn; auto. Qed.
Lemma like_at : forall l l' did, Forall2 like l l' ->
  match info_at l did, info_at l' did with Some a, Some b => like a b | None, None => True | _, _ => False end.
Proof.
  intros l l' did F. unfold info_at. destruct (did <? 0); auto. generalize (Z.to_nat did). induction F as [|a b l l' R F IH]; intros [|n]; cbn; auto. apply IH.
Qed.
Lemma decode_like : forall z d d' buf off, di_esize d' = di_esize d -> di_ndim d' = di_ndim d -> decode z d' buf off = decode z d buf off.
Proof. intros z d d' buf off E N. unfold decode. rewrite E, N. reflexivity. Qed.
Lemma ref_decode_like : forall d d' buf off bc, di_esize d' = di_esize d -> di_ndim d' = di_ndim d -> ref_decode d' buf off bc = ref_decode d buf off bc.
Proof. intros d d' buf off bc E N. unfold ref_decode. rewrite E, N. reflexivity. Qed.

(** [l'] has at least the datasets of [l]. *)
Definition grown (l l' : list (option dinfo)) : Prop := exists l1 l2, l' = l1 ++ l2 /\ Forall2 like l l1.
Lemma grown_at : forall l l' did a, grown l l' -> info_at l did = Some a -> exists b, info_at l' did = Some b /\ like a b.
Proof.
  intros l l' did a (l1 & l2 & -> & F) H. pose proof (like_at _ _ did F) as L. rewrite H in L. destruct (info_at l1 did) as [b|] eqn:E; [|contradiction].
  exists b. split; auto. unfold info_at in *. destruct (did <? 0); [discriminate|]. rewrite nth_error_app1; auto. apply nth_error_Some. congruence.
Qed.
Lemma parse_array_grown : forall z cfg l l', grown l l' -> forall fuel buf pos bc x, parse_array fuel z cfg l buf pos bc = Ok x -> parse_array fuel z cfg l' buf pos bc = Ok x.
Proof.
  intros z cfg l l' G. induction fuel as [|n IH]; intros buf pos bc x H; [discriminate|]. cbn [parse_array] in *. destruct (Zlen buf <=? pos); auto.
  destruct (rd_hdr buf pos) as [h|]; cbn [bind or_ub] in *; [|discriminate]. destruct (info_at l (h_did h)) as [a|] eqn:E; cbn [bind or_ub] in *; [|discriminate].
  destruct (grown_at _ _ _ _ G E) as (b & -> & L). cbn [bind or_ub]. destruct a as [d|], b as [d'|]; try contradiction; [|apply IH; exact H].
  destruct L as (L1 & L2 & _). rewrite (decode_like z d d') by auto. rewrite (ref_decode_like d d') by auto.
  destruct (_ && _).
  - destruct (ref_decode d buf pos bc); cbn [bind] in *; try discriminate. destruct (parse_array n z cfg l _ _ _) as [r| |] eqn:R; cbn [bind] in *; try discriminate. rewrite (IH _ _ _ _ R). exact H.
  - destruct (decode z d buf pos); cbn [bind] in *; try discriminate. destruct (parse_array n z cfg l _ _ _) as [r| |] eqn:R; cbn [bind] in *; try discriminate. rewrite (IH _ _ _ _ R). exact H.
Qed.
Lemma parse_compact_grown : forall z cfg l l', grown l l' -> forall fuel buf pos bc x, parse_compact fuel z cfg l buf pos bc = Ok x -> parse_compact fuel z cfg l' buf pos bc = Ok x.
Proof.
  intros z cfg l l' G. induction fuel as [|n IH]; intros buf pos bc x H; [discriminate|]. cbn [parse_compact] in *. destruct (Zlen buf <=? pos); auto.
  destruct (rd_hdr buf pos) as [h|]; cbn [bind or_ub] in *; [|discriminate]. destruct (info_at l (h_did h)) as [a|] eqn:E; cbn [bind or_ub] in *; [|discriminate].
  destruct (grown_at _ _ _ _ G E) as (b & -> & L). cbn [bind or_ub]. destruct a as [d|], b as [d'|]; try contradiction; [|apply IH; exact H].
  destruct L as (L1 & L2 & _). rewrite (decode_like z d d') by auto.
  destruct (_ && _).
  - destruct (if has (h_flag h) FLAG_REC then _ else _); cbn [bind] in *; try discriminate. destruct (rd_i64 buf _); cbn [bind or_ub] in *; try discriminate.
    destruct (parse_compact n z cfg l _ _ _) as [r| |] eqn:R; cbn [bind] in *; try discriminate. rewrite (IH _ _ _ _ R). exact H.
  - destruct (decode z d buf pos); cbn [bind] in *; try discriminate. destruct (parse_compact n z cfg l _ _ _) as [r| |] eqn:R; cbn [bind] in *; try discriminate. rewrite (IH _ _ _ _ R). exact H.
Qed.
Lemma load_all_grown : forall z cfg l l' mds i x, grown l l' -> load_all z cfg l i mds = Ok x -> load_all z cfg l' i mds = Ok x.
Proof.
  intros z cfg l l' mds. induction mds as [|md mds IH]; intros i x G H; [exact H|]. cbn [load_all] in *. destruct (md_body md) as [b|]; cbn [bind or_ub] in *; [|discriminate].
  destruct (idx_parse z cfg l i b) as [i'| |] eqn:E; cbn [bind] in *; try discriminate. replace (idx_parse z cfg l' i b) with (Ok i'); [cbn [bind]; apply IH; auto|]. symmetry.
  destruct i as [a|a]; cbn [idx_parse] in *.
  - destruct (parse_array _ z cfg l b 0 []) as [r| |] eqn:R; cbn [bind] in *; try discriminate. rewrite (parse_array_grown _ _ _ _ G _ _ _ _ _ R). exact E.
  - destruct (parse_compact _ z cfg l b 0 []) as [r| |] eqn:R; cbn [bind] in *; try discriminate. rewrite (parse_compact_grown _ _ _ _ G _ _ _ _ _ R). exact E.
Qed.

(** With tables of the same length nothing changes, whatever the outcome. *)
Lemma parse_array_like : forall z cfg l l', Forall2 like l l' -> forall fuel buf pos bc, parse_array fuel z cfg l' buf pos bc = parse_array fuel z cfg l buf pos bc.
Proof.
  intros z cfg l l' F. induction fuel as [|n IH]; intros buf pos bc; [reflexivity|]. cbn [parse_array]. destruct (Zlen buf <=? pos); auto.
  destruct (rd_hdr buf pos) as [h|]; cbn [bind or_ub]; auto. pose proof (like_at _ _ (h_did h) F) as L.
  destruct (info_at l (h_did h)) as [[d|]|], (info_at l' (h_did h)) as [[d'|]|]; cbn [like] in L; try contradiction; cbn [bind or_ub]; auto.
  destruct L as (L1 & L2 & _). rewrite (decode_like z d d') by auto. rewrite (ref_decode_like d d') by auto.
  destruct (_ && _); [destruct (ref_decode d buf pos bc)|destruct (decode z d buf pos)]; cbn [bind]; auto; rewrite IH; reflexivity.
Qed.
Lemma parse_compact_like : forall z cfg l l', Forall2 like l l' -> forall fuel buf pos bc, parse_compact fuel z cfg l' buf pos bc = parse_compact fuel z cfg l buf pos bc.
Proof.
  intros z cfg l l' F. induction fuel as [|n IH]; intros buf pos bc; [reflexivity|]. cbn [parse_compact]. destruct (Zlen buf <=? pos); auto.
  destruct (rd_hdr buf pos) as [h|]; cbn [bind or_ub]; auto. pose proof (like_at _ _ (h_did h) F) as L.
  destruct (info_at l (h_did h)) as [[d|]|], (info_at l' (h_did h)) as [[d'|]|]; cbn [like] in L; try contradiction; cbn [bind or_ub]; auto.
  destruct L as (L1 & L2 & _). rewrite (decode_like z d d') by auto.
  destruct (_ && _).
  - destruct (if has (h_flag h) FLAG_REC then _ else _); cbn [bind]; auto. destruct (rd_i64 buf _); cbn [bind or_ub]; auto. rewrite IH. reflexivity.
  - destruct (decode z d buf pos); cbn [bind]; auto; rewrite IH; reflexivity.
Qed.
Lemma idx_parse_like : forall z cfg l l' i buf, Forall2 like l l' -> idx_parse z cfg l' i buf = idx_parse z cfg l i buf.
Proof. intros z cfg l l' [a|a] buf F; cbn [idx_parse]; [rewrite (parse_array_like _ _ _ _ F)|rewrite (parse_compact_like _ _ _ _ F)]; reflexivity. Qed.
Lemma load_all_like : forall z cfg l l' mds i, Forall2 like l l' -> load_all z cfg l' i mds = load_all z cfg l i mds.
Proof.
  intros z cfg l l' mds. induction mds as [|md mds IH]; intros i F; [reflexivity|]. cbn [load_all]. destruct (md_body md); cbn [bind or_ub]; auto.
  rewrite (idx_parse_like _ _ _ _ _ _ F). destruct (idx_parse _ _ _ _ _); cbn [bind]; auto.
Qed.
Lemma search_like : forall l l' i rs, Forall2 like l l' -> idx_search l' i rs = idx_search l i rs.
Proof.
  intros l l' i rs F. unfold idx_search. induction rs as [|r rs IH]; [reflexivity|]. cbn [res_flat]. rewrite IH. f_equal. unfold idx_search1. pose proof (like_at _ _ (rq_did r) F) as L.
  destruct (info_at l (rq_did r)) as [[d|]|], (info_at l' (rq_did r)) as [[d'|]|]; cbn [like] in L; try contradiction; auto. destruct L as (L1 & L2 & _).
  destruct i as [a|a].
  - f_equal. unfold search_array. apply flat_map_ext. intros bo. apply flat_map_ext. intros e. destruct (_ =? _); auto. apply flat_map_ext. intros m.
    destruct (intersect _ _ _ _) as [[os oc]|]; auto. unfold mk_sret. rewrite L1, L2. reflexivity.
  - f_equal. unfold search_compact.
    assert (Q : forall (A B : Type) (f g : A -> option (list B)) x, (forall a, f a = g a) -> opt_flat f x = opt_flat g x).
    { clear. intros A B f g x H. induction x as [|a x IH]; cbn; auto. rewrite H, IH. reflexivity. }
    apply Q. intros bo. apply Q. intros c. destruct (_ =? _); auto. unfold search_cent. rewrite L1, L2.
    destruct (own_blocks c) as [[n ws]|]; auto. destruct (0 <=? ce_rec c).
    + destruct (_ || _); auto.
    + clear - L1 L2. revert ws. generalize 0. induction (Z.to_nat n) as [|k IH]; intros o ws; cbn [walk]; auto. destruct (_ <? _)%nat; auto. rewrite IH.
      unfold mk_sret. rewrite L1, L2. reflexivity.
Qed.
Lemma parts_like : forall z cfg l l' k lim mds, Forall2 like l l' -> forall fuel md sec rs, search_parts fuel z cfg l' k lim mds md sec rs = search_parts fuel z cfg l k lim mds md sec rs.
Proof.
  intros z cfg l l' k lim mds F. induction fuel as [|n IH]; intros; [reflexivity|]. cbn [search_parts]. destruct (load_part lim mds md sec) as [p| |]; cbn [bind]; auto.
  rewrite (idx_parse_like _ _ _ _ _ _ F). destruct (idx_parse _ _ _ _ _); cbn [bind]; auto. rewrite (search_like _ _ _ _ F).
  destruct (idx_search _ _ _); cbn [bind]; auto. destruct (snd p) as [[? ?]|]; auto. rewrite IH. reflexivity.
Qed.

(** An index content that is what loading the metadata gives. *)
Definition fresh (e : env) (g : gfile) (idx : option index) : Prop :=
  match idx with None => True | Some i => load_all (e_zlib e) (g_cfg g) (g_infos g) (idx_empty (e_kind e)) (g_mdsets g) = Ok i end.
(** Files that give the same reads. *)
Definition same_log (g g' : gfile) : Prop :=
  g_cfg g' = g_cfg g /\ Forall2 like (g_infos g) (g_infos g') /\ g_file g' = g_file g /\ g_mdsets g' = g_mdsets g.

Lemma read_one_fresh : forall e g g' idx idx' c, same_log g g' -> fresh e g idx -> fresh e g' idx' ->
  match read_one e g idx c, read_one e g' idx' c with
  | Ok p, Ok p' => fst p' = fst p /\ fresh e g (snd p) /\ fresh e g' (snd p')
  | Err, Err => True
  | UB, UB => True
  | _, _ => False
  end.
Proof.
  intros e g g' idx idx' c (C & F & Fl & M) H H'. unfold read_one. destruct (rc_sels c) as [|b0 rest]; [auto|].
  pose proof (like_at _ _ (rc_did c) F) as L. destruct (info_at (g_infos g) (rc_did c)) as [[d|]|] eqn:Ei, (info_at (g_infos g') (rc_did c)) as [[d'|]|] eqn:Ei'; cbn [like] in L; try contradiction; auto.
  destruct L as (L1 & L2 & L3). rewrite C, Fl, M, L1. set (r := mkrreq (rc_did c) (b0 :: rest) (rc_buf c) (di_esize d)).
  assert (Fi : fill_req (g_infos g') (rc_mem c) r = fill_req (g_infos g) (rc_mem c) r).
  { unfold fill_req. cbn [rq_did r]. rewrite Ei, Ei', L3. reflexivity. }
  rewrite Fi. unfold read_search. destruct (e_limit e) as [lim|].
  - rewrite (parts_like _ _ _ _ _ _ _ F). destruct (search_parts _ _ _ _ _ _ _ _ _ _); cbn [bind fst snd]; auto.
  - assert (Q : (do i <- match idx' with Some i => Ok i | None => load_all (e_zlib e) (g_cfg g) (g_infos g') (idx_empty (e_kind e)) (g_mdsets g) end; Ok i)
              = (do i <- match idx with Some i => Ok i | None => load_all (e_zlib e) (g_cfg g) (g_infos g) (idx_empty (e_kind e)) (g_mdsets g) end; Ok i)).
    { unfold fresh in H, H'. rewrite C, M, (load_all_like _ _ _ _ _ _ F) in H'. rewrite (load_all_like _ _ _ _ _ _ F). destruct idx, idx'; cbn [bind]; try rewrite H; try rewrite H'; auto; congruence. }
    assert (Fr : forall i, match idx with Some i => Ok i | None => load_all (e_zlib e) (g_cfg g) (g_infos g) (idx_empty (e_kind e)) (g_mdsets g) end = Ok i -> fresh e g (Some i)).
    { intros i Hi. unfold fresh in *. destruct idx; congruence. }
    destruct (match idx with Some i => Ok i | None => _ end) as [i| |] eqn:E1; destruct (match idx' with Some i => Ok i | None => _ end) as [i'| |] eqn:E2; cbn [bind] in *; try discriminate; auto.
    injection Q as ->. rewrite (search_like _ _ _ _ F). destruct (idx_search _ _ _); cbn [bind fst snd]; auto. split; auto. split; [apply Fr; reflexivity|].
    specialize (Fr i eq_refl). unfold fresh in *. rewrite C, M, (load_all_like _ _ _ _ _ _ F). exact Fr.
Qed.
Lemma read_each_fresh : forall e g g' cs idx idx', same_log g g' -> fresh e g idx -> fresh e g' idx' ->
  match read_each e g idx cs, read_each e g' idx' cs with
  | Ok p, Ok p' => fst p' = fst p /\ fresh e g (snd p) /\ fresh e g' (snd p')
  | Err, Err => True
  | UB, UB => True
  | _, _ => False
  end.
Proof.
  intros e g g' cs. induction cs as [|c cs IH]; intros idx idx' S H H'; cbn [read_each]; [auto|].
  pose proof (read_one_fresh e g g' idx idx' c S H H') as R. destruct (read_one e g idx c) as [p| |], (read_one e g' idx' c) as [p'| |]; cbn [bind]; try contradiction; auto.
  destruct R as (R1 & R2 & R3). specialize (IH _ _ S R2 R3). destruct (read_each e g (snd p) cs) as [q| |], (read_each e g' (snd p') cs) as [q'| |]; cbn [bind fst snd]; try contradiction; auto.
  destruct IH as (I1 & I2 & I3). split; auto. congruence.
Qed.

(** What holds of every reachable file. *)
Definition loaded (cfg : Z) (a : option dinfo) : Prop :=
  match a with Some d => has cfg CFG_SEL_ENCODE = true -> di_ndim d <> 0%nat | None => True end.
Definition tidy (dirty : bool) (st : rank) : Prop :=
  (k_nflushed st <= length (k_wreqs st))%nat /\ (dirty = false -> k_nflushed st = 0%nat) /\ Forall (fun w => 0 < h_fsize (w_hdr w)) (k_wreqs st).
Definition clean (e : env) (s : sys) : Prop :=
  Forall (tidy (g_metadirty (s_g s))) (g_ranks (s_g s)) /\ Forall (loaded (g_cfg (s_g s))) (g_infos (s_g s)) /\ fresh e (s_g s) (s_idx s).

Lemma ds_write_tidy : forall z cfg infos st did sels data st' b, (sels <> [] -> data <> []) -> ds_write z cfg infos st did sels data = Ok st' -> tidy b st -> tidy b st'.
Proof.
  intros z cfg infos st did sels data st' b Hd H (T1 & T2 & T3). unfold ds_write in H. destruct sels as [|b0 rest]; [injection H as <-; repeat split; auto|].
  destruct (nth_error infos (Z.to_nat did)) as [[dip|]|]; try discriminate. destruct (finish_meta _ _ _ _) as [[[r tbl] zb]| |]; cbn [bind] in H; try discriminate.
  injection H as <-. split; [|split]; cbn [k_nflushed k_wreqs]; auto.
  - rewrite app_length. cbn. lia.
  - apply Forall_app. split; auto. constructor; auto. cbn. assert (Q : data <> []) by (apply Hd; discriminate). destruct data; [congruence|]. unfold Zlen. cbn [length]. lia.
Qed.
Lemma assign_length : forall ws off, length (assign_foff off ws) = length ws.
Proof. induction ws; intros; cbn; auto. Qed.
Lemma assign_fsize : forall ws off, Forall (fun w => 0 < h_fsize (w_hdr w)) ws -> Forall (fun w => 0 < h_fsize (w_hdr w)) (assign_foff off ws).
Proof. induction ws as [|w ws IH]; intros off H; cbn; constructor; inversion H; subst; auto. Qed.
Lemma tidy_split : forall b st, tidy b st -> Forall (fun w => 0 < h_fsize (w_hdr w)) (flushed st) /\ Forall (fun w => 0 < h_fsize (w_hdr w)) (unflushed st) /\
  length (flushed st) = k_nflushed st /\ length (unflushed st) = num_pending st.
Proof.
  intros b st (T1 & T2 & T3). unfold flushed, unflushed, num_pending. rewrite <- (firstn_skipn (k_nflushed st) (k_wreqs st)) in T3. apply Forall_app in T3. destruct T3.
  rewrite firstn_length, skipn_length. repeat split; auto. lia.
Qed.
Lemma tidy_flushed : forall b base st, tidy b st -> tidy true (rank_flushed base st).
Proof.
  intros b base st T. destruct (tidy_split _ _ T) as (A & B & C & D). unfold rank_flushed. split; [|split]; cbn [k_nflushed k_wreqs]; auto; [discriminate|].
  apply Forall_app. split; auto. apply Forall_map. cbn. apply assign_fsize. exact B.
Qed.
Lemma tidy_assign : forall b st, tidy b st -> tidy b (rank_assign st).
Proof.
  intros b st T. destruct (tidy_split _ _ T) as (A & B & C & D). destruct T as (T1 & T2 & T3). unfold rank_assign. split; [|split]; cbn [k_nflushed k_wreqs]; auto.
  - rewrite app_length. lia.
  - apply Forall_app. split; auto. apply assign_fsize. exact B.
Qed.
Lemma sum_pos : forall ws, Forall (fun w => 0 < h_fsize (w_hdr w)) ws -> 0 <= local_size ws /\ (local_size ws = 0 -> ws = []).
Proof.
  intros ws H. unfold local_size. induction H as [|w ws H F IH]; [split; [cbn; lia|auto]|]. cbn [map Zsum fold_right] in *. fold (Zsum (map (fun w => h_fsize (w_hdr w)) ws)) in *.
  split; [lia|]. intros Q. lia.
Qed.
Lemma sizes_zero : forall b l, Forall (tidy b) l -> 0 <= Zsum (map (fun st => local_size (unflushed st)) l) /\
  (Zsum (map (fun st => local_size (unflushed st)) l) = 0 <-> existsb (fun st => negb (num_pending st =? 0)%nat) l = false).
Proof.
  intros b l F. induction F as [|st l T F (I1 & I2)]; [cbn; split; [lia|tauto]|]. destruct (tidy_split _ _ T) as (A & B & C & D). destruct (sum_pos _ B) as (P1 & P2).
  cbn [map existsb]. change (Zsum (local_size (unflushed st) :: ?x)) with (local_size (unflushed st) + Zsum x) in *.
  set (S := Zsum (map (fun st => local_size (unflushed st)) l)) in *.
  replace (Zsum (local_size (unflushed st) :: map (fun st0 : rank => local_size (unflushed st0)) l)) with (local_size (unflushed st) + S) by reflexivity.
  split; [lia|]. rewrite orb_false_iff, negb_false_iff, Nat.eqb_eq. split.
  - intros Q. assert (Q1 : local_size (unflushed st) = 0) by lia. split; [rewrite <- D, (P2 Q1); reflexivity|apply I2; lia].
  - intros [Q1 Q2]. apply I2 in Q2. rewrite Q1 in D. destruct (unflushed st); [cbn; lia|discriminate].
Qed.
Lemma flush_tidy : forall doff g, Forall (tidy (g_metadirty g)) (g_ranks g) -> Forall (tidy (g_metadirty (flush_writes doff g))) (g_ranks (flush_writes doff g)).
Proof.
  intros doff g F. unfold flush_writes. destruct (_ =? 0); cbn [g_ranks g_metadirty].
  - clear - F. revert F. generalize (g_metadirty g). intros b F. induction F; cbn; constructor; auto. apply tidy_assign. auto.
  - generalize (map (fun o => o + doff) (exscan 0 (map (fun st => local_size (unflushed st)) (g_ranks g)))). clear - F. revert F. generalize (g_metadirty g) as b. intros b F.
    induction F as [|st l T F IH]; intros [|x bs]; cbn [combine map]; try constructor; auto. cbn [fst snd]. eapply tidy_flushed. exact T.
Qed.
Lemma meta_tidy : forall g, Forall (tidy false) (g_ranks (metaflush g)).
Proof. intros g. cbn. apply Forall_map. induction (g_ranks g); constructor; auto. repeat split; cbn; auto. Qed.
Lemma flush_mds : forall doff g, g_cfg (flush_writes doff g) = g_cfg g /\ g_infos (flush_writes doff g) = g_infos g /\ g_mdsets (flush_writes doff g) = g_mdsets g.
Proof. intros doff g. unfold flush_writes. destruct (_ =? 0); repeat split. Qed.

Lemma create_like : forall cfg d d', create_info cfg d = Ok d' -> like (Some d) (Some d') /\ loaded cfg (Some d').
Proof.
  intros cfg d d' H. unfold create_info in H. unfold loaded. destruct (has cfg CFG_SEL_ENCODE) eqn:E.
  - destruct (di_ndim d =? 0)%nat eqn:N; [discriminate|]. injection H as <-. apply Nat.eqb_neq in N. cbn. repeat split; auto.
  - injection H as <-. split; [apply like_refl|]. discriminate.
Qed.
Lemma create_again : forall cfg d, loaded cfg (Some d) -> exists d', create_info cfg d = Ok d'.
Proof.
  intros cfg d H. unfold create_info. cbn in H. destruct (has cfg CFG_SEL_ENCODE); [|eauto]. specialize (H eq_refl). apply Nat.eqb_neq in H. rewrite H. eauto.
Qed.
Lemma reopen_like : forall cfg l, Forall (loaded cfg) l -> exists l', reopen_infos cfg l = Ok l' /\ Forall2 like l l' /\ Forall (loaded cfg) l'.
Proof.
  intros cfg l F. induction F as [|[d|] l H F (l' & I1 & I2 & I3)]; cbn [reopen_infos]; [exists []; repeat split; constructor| |].
  - destruct (create_again _ _ H) as (d' & E). rewrite E, I1. cbn [bind]. destruct (create_like _ _ _ E). exists (Some d' :: l'). repeat split; constructor; auto.
  - rewrite I1. cbn [bind]. exists (None :: l'). repeat split; constructor; auto.
Qed.
Lemma set_dims_length : forall dims mdims new, length (fst (set_dims dims mdims new)) = length dims.
Proof.
  induction dims as [|d dims IH]; intros [|m mdims] [|n new]; cbn [set_dims]; auto. destruct (_ && _); auto. specialize (IH mdims new).
  destruct (set_dims dims mdims new) as [r ok]. cbn in *. lia.
Qed.
Lemma extent_like : forall cfg d new, like (Some d) (Some (fst (set_extent cfg d new))).
Proof.
  intros cfg d new. unfold set_extent. pose proof (set_dims_length (di_dims d) (di_mdims d) new) as L. destruct (set_dims _ _ _) as [dims [|]]; cbn in *; unfold di_ndim; cbn; auto.
Qed.
Lemma Forall2_like_upd : forall l n a b, nth_error l n = Some a -> like a b -> Forall2 like l (upd_nth n b l).
Proof.
  induction l as [|x l IH]; intros [|n] a b H L; cbn in *; try discriminate.
  - injection H as ->. constructor; auto. clear. induction l; constructor; auto. apply like_refl.
  - constructor; [apply like_refl|eapply IH; eauto].
Qed.
Lemma info_nth : forall l did a, info_at l did = Some a -> nth_error l (Z.to_nat did) = Some a.
Proof. intros l did a H. unfold info_at in H. destruct (did <? 0); [discriminate|exact H]. Qed.
Lemma fresh_grown : forall e g idx infos, fresh e g idx -> grown (g_infos g) infos -> fresh e (set_infos g infos) idx.
Proof. intros e g [i|] infos H G; cbn in *; auto. eapply load_all_grown; eauto. Qed.
Lemma like_all : forall l, Forall2 like l l.
Proof. induction l; constructor; auto. apply like_refl. Qed.

Lemma step_clean : forall e s o s' out, clean e s -> with_data o -> step e s o = Ok (s', out) -> clean e s'.
Proof.
  intros e s o s' out (T & L & X) W H. destruct o as [d|did dims|rk did sels data|doff|doff calls|doff np]; cbn [step] in H.
  - destruct (create_info (g_cfg (s_g s)) d) as [d'| |] eqn:E; cbn [bind] in H; try discriminate. injection H as <- <-. destruct (create_like _ _ _ E) as (E1 & E2).
    split; [exact T|]. split; cbn [s_g s_idx set_infos g_infos g_cfg].
    + apply Forall_app. split; auto.
    + apply fresh_grown; auto. eexists. eexists. split; [reflexivity|apply like_all].
  - destruct (info_at (g_infos (s_g s)) did) as [[d|]|] eqn:Ei; try discriminate. pose proof (extent_like (g_cfg (s_g s)) d dims) as Li. destruct (set_extent _ d dims) as [d' [|]]; try discriminate. injection H as <- <-. cbn [fst] in Li.
    apply info_nth in Ei. split; [exact T|]. split; cbn [s_g s_idx set_infos g_infos g_cfg].
    + clear - L Li Ei. revert Ei. generalize (Z.to_nat did). intros n Ei. revert n Ei. induction L as [|a l H F IH]; intros [|n] Ei; cbn in *; try discriminate; constructor; auto.
      * injection Ei as ->. cbn in H. destruct Li as (_ & Ln & _). cbn. rewrite Ln. exact H.
    + apply fresh_grown; auto. eexists. exists []. rewrite app_nil_r. split; [reflexivity|]. eapply Forall2_like_upd; eauto.
  - destruct (nth_error (g_ranks (s_g s)) rk) as [st|] eqn:Er; try discriminate. destruct (ds_write _ _ _ _ _ _ _) as [st'| |] eqn:Ew; cbn [bind] in H; try discriminate. injection H as <- <-.
    split; [|split]; cbn; auto. assert (T' : tidy (g_metadirty (s_g s)) st') by (eapply ds_write_tidy; eauto; rewrite Forall_forall in T; apply T; eapply nth_error_In; eauto).
    clear - T T'. revert rk. induction T; intros [|n]; cbn; constructor; auto.
  - injection H as <- <-. destruct (any_pending (s_g s)); [|repeat split; auto]. destruct (flush_mds doff (s_g s)) as (F1 & F2 & F3). split; [|split]; cbn [s_g s_idx].
    + apply flush_tidy. exact T.
    + rewrite F1, F2. exact L.
    + unfold fresh in *. destruct (s_idx s); auto. rewrite F1, F2, F3. exact X.
  - set (g1 := if e_coll e && any_pending (s_g s) then flush_writes doff (s_g s) else s_g s) in *.
    assert (Q : Forall (tidy (g_metadirty g1)) (g_ranks g1) /\ g_cfg g1 = g_cfg (s_g s) /\ g_infos g1 = g_infos (s_g s) /\ g_mdsets g1 = g_mdsets (s_g s)).
    { unfold g1. destruct (_ && _); [|auto]. split; [apply flush_tidy; exact T|apply flush_mds]. }
    destruct Q as (Q1 & Q2 & Q3 & Q4). set (g2 := if g_metadirty g1 then metaflush g1 else g1) in *.
    assert (Fx : fresh e g2 (if g_metadirty g1 then None else s_idx s)).
    { unfold g2. destruct (g_metadirty g1); [exact Logic.I|]. unfold fresh in *. destruct (s_idx s); auto. rewrite Q2, Q3, Q4. exact X. }
    pose proof (read_each_fresh e g2 g2 calls _ _ (conj eq_refl (conj (like_all _) (conj eq_refl eq_refl))) Fx Fx) as R.
    destruct (read_each e g2 _ calls) as [p| |]; cbn [bind] in H; try discriminate. injection H as <- <-. split; [|split]; cbn [s_g s_idx]; [| |apply R].
    + unfold g2. destruct (g_metadirty g1) eqn:D; [apply meta_tidy|rewrite D; exact Q1].
    + unfold g2. destruct (g_metadirty g1); cbn; rewrite ?Q2, ?Q3; exact L.
  - destruct (reopen_like _ _ L) as (l' & E & E1 & E2). rewrite E in H. cbn [bind] in H. injection H as <- <-. split; [|split]; cbn; auto.
    clear. induction np; cbn; constructor; auto. repeat split; cbn; auto.
Qed.

Lemma run_clean : forall e ops s s' outs, clean e s -> Forall with_data ops -> run e s ops = Ok (s', outs) -> clean e s'.
Proof.
  intros e. induction ops as [|o ops IH]; intros s s' outs C W H; [injection H as <- <-; exact C|]. cbn [run] in H. inversion W; subst.
  destruct (step e s o) as [[s1 o1]| |] eqn:E; cbn [bind fst snd] in H; try discriminate. destruct (run e s1 ops) as [[a b]| |] eqn:R; cbn [bind fst snd] in H; try discriminate.
  injection H as <- <-. eapply IH; [|eauto|exact R]. eapply step_clean; eauto.
Qed.
Lemma init_clean : forall e cfg np f0, clean e (init cfg np f0).
Proof. intros e cfg np f0. split; [|split]; cbn; auto. induction np; cbn; constructor; auto. repeat split; cbn; auto. Qed.

Lemma no_pending_flush : forall doff g, Forall (tidy (g_metadirty g)) (g_ranks g) -> any_pending g = false -> flush_writes doff g = g.
Proof.
  intros doff g T P. unfold flush_writes. destruct (sizes_zero _ _ T) as (S1 & S2). unfold any_pending in P. apply S2 in P. rewrite P. cbn [Z.eqb].
  assert (Q : map rank_assign (g_ranks g) = g_ranks g).
  { apply S2 in P. clear - T P. revert T P. generalize (g_metadirty g). intros b T P. induction T as [|st l H F IH]; [reflexivity|]. cbn [existsb map] in *. apply orb_false_iff in P. destruct P as [P1 P2].
    rewrite (IH P2). f_equal. destruct (tidy_split _ _ H) as (A & B & C & D). apply negb_false_iff, Nat.eqb_eq in P1. rewrite P1 in D. destruct (unflushed st) eqn:U; [|discriminate].
    unfold rank_assign. rewrite U. cbn [assign_foff]. rewrite app_nil_r. unfold flushed. pose proof (firstn_skipn (k_nflushed st) (k_wreqs st)) as E. unfold unflushed in U. rewrite U, app_nil_r in E. rewrite E. destruct st; reflexivity. }
  rewrite Q. destruct g; reflexivity.
Qed.
Lemma empty_metaflush : forall g, Forall (tidy false) (g_ranks g) -> any_pending g = false -> g_mdsets (metaflush g) = g_mdsets g.
Proof.
  intros g T P. cbn. assert (Q : Forall (fun st => k_wreqs st = []) (g_ranks g)).
  { unfold any_pending in P. clear - T P. induction T as [|st l (T1 & T2 & T3) F IH]; constructor; cbn [existsb] in P; apply orb_false_iff in P; destruct P as [P1 P2]; auto.
    apply negb_false_iff, Nat.eqb_eq in P1. unfold num_pending in P1. rewrite (T2 eq_refl) in P1. destruct (k_wreqs st); [reflexivity|discriminate]. }
  assert (M : Zsum (meta_sizes (g_ranks g)) <= 8 * (Zlen (g_ranks g) + 1)).
  { unfold meta_sizes. assert (Z0 : map meta_len (g_ranks g) = map (fun _ => 0) (g_ranks g)).
    { clear - Q. induction Q as [|st l H F IH]; [reflexivity|]. cbn [map]. rewrite IH. unfold meta_len. rewrite H. reflexivity. }
    rewrite Z0. destruct (g_ranks g) as [|st l]; [cbn; lia|]. cbn [map]. assert (K : Zsum (map (fun _ => 0) l) = 0) by (clear; induction l; cbn in *; auto).
    change (8 * (Zlen (st :: l) + 1) + 0 + Zsum (map (fun _ => 0) l) <= 8 * (Zlen (st :: l) + 1)). lia. }
  replace (_ <? _) with false; [reflexivity|]. symmetry. apply Z.ltb_ge. exact M.
Qed.

(** The file a read looks at, and the file left by closing. *)
Lemma close_same : forall e s doff doff', clean e s -> e_coll e = true \/ any_pending (s_g s) = false ->
  let g1 := if e_coll e && any_pending (s_g s) then flush_writes doff (s_g s) else s_g s in
  let g2 := if g_metadirty g1 then metaflush g1 else g1 in
  (any_pending (s_g s) = false \/ doff' = doff) ->
  g_file (close_file doff' (s_g s)) = g_file g2 /\ g_mdsets (close_file doff' (s_g s)) = g_mdsets g2.
Proof.
  intros e s doff doff' (T & L & X) Hc g1 g2 Hd. destruct (any_pending (s_g s)) eqn:P.
  - destruct Hc as [Hc|]; [|discriminate]. destruct Hd as [Hd|Hd]; [discriminate|subst doff']. unfold g2, g1. rewrite Hc. cbn [andb].
    assert (D : g_metadirty (flush_writes doff (s_g s)) = true).
    { unfold flush_writes. destruct (sizes_zero _ _ T) as (S1 & S2). unfold any_pending in P. destruct (Zsum _ =? 0) eqn:E; [|reflexivity]. apply Z.eqb_eq, S2 in E. congruence. }
    rewrite D. split; reflexivity.
  - unfold g2, g1. rewrite andb_false_r. unfold close_file. rewrite (no_pending_flush _ _ T P). destruct (g_metadirty (s_g s)) eqn:D; [split; reflexivity|].
    split; [reflexivity|]. apply empty_metaflush; auto.
Qed.

Lemma run_app : forall e a b s, run e s (a ++ b) =
  do p <- run e s a; do q <- run e (fst p) b; Ok (fst q, snd p ++ snd q).
Proof.
  intros e. induction a as [|o a IH]; intros b s; cbn [app run bind fst snd].
  - destruct (run e s b) as [[x y]| |]; reflexivity.
  - destruct (step e s o) as [[s1 o1]| |]; cbn [bind fst snd]; auto. rewrite IH. destruct (run e s1 a) as [[x y]| |]; cbn [bind fst snd]; auto.
    destruct (run e x b) as [[x' y']| |]; reflexivity.
Qed.

Lemma reopen_step : forall e s doff doff' doff2 np' calls, clean e s -> e_coll e = true \/ any_pending (s_g s) = false ->
  (any_pending (s_g s) = false \/ doff' = doff) ->
  last_read (run e s [OReopen doff' np'; ORead doff2 calls]) = last_read (run e s [ORead doff calls]).
Proof.
  intros e s doff doff' doff2 np' calls C Hc Hd. pose proof (close_same e s doff doff' C Hc Hd) as K. cbv zeta in K.
  destruct C as (T & L & X). cbn [run]. cbn [step]. destruct (reopen_like _ _ L) as (l' & E & E1 & E2). rewrite E. cbn [bind fst snd s_g s_idx].
  set (g1 := if e_coll e && any_pending (s_g s) then flush_writes doff (s_g s) else s_g s) in *. set (g2 := if g_metadirty g1 then metaflush g1 else g1) in *.
  set (g3 := mkg (g_cfg (s_g s)) l' (repeat rank0 np') (g_file (close_file doff' (s_g s))) (g_mdsets (close_file doff' (s_g s))) (g_nldset (close_file doff' (s_g s))) false).
  assert (P3 : any_pending g3 = false) by (unfold any_pending, g3; cbn; clear; induction np'; cbn; auto).
  rewrite P3, andb_false_r. cbn [g_metadirty g3]. 
  assert (G1 : g_cfg g1 = g_cfg (s_g s) /\ g_infos g1 = g_infos (s_g s) /\ g_mdsets g1 = g_mdsets (s_g s)) by (unfold g1; destruct (_ && _); [apply flush_mds|auto]).
  destruct G1 as (G1a & G1b & G1c).
  assert (G2 : g_cfg g2 = g_cfg (s_g s) /\ g_infos g2 = g_infos (s_g s)) by (unfold g2; destruct (g_metadirty g1); cbn; rewrite ?G1a, ?G1b; auto). destruct G2 as (G2a & G2b).
  assert (S : same_log g2 g3) by (unfold same_log, g3; cbn [g_cfg g_infos g_file g_mdsets]; rewrite G2a, G2b; destruct K as [-> ->]; repeat split; auto).
  assert (Fx : fresh e g2 (if g_metadirty g1 then None else s_idx s)).
  { unfold g2. destruct (g_metadirty g1); [exact Logic.I|]. unfold fresh in *. destruct (s_idx s); auto. rewrite G1a, G1b, G1c. exact X. }
  pose proof (read_each_fresh e g2 g3 calls _ None S Fx Logic.I) as R. fold g3.
  destruct (read_each e g2 _ calls) as [p| |], (read_each e g3 None calls) as [p'| |]; cbn [bind fst snd]; try contradiction; auto.
  destruct R as (R1 & _). cbn. congruence.
Qed.

Lemma last_app : forall A (a b : list A) d, b <> [] -> last (a ++ b) d = last b d.
Proof. intros A a b d H. induction a as [|x a IH]; [reflexivity|]. cbn [app last]. rewrite IH. destruct (a ++ b) eqn:E; [|reflexivity]. apply app_eq_nil in E. destruct E; contradiction. Qed.
Lemma run_outs : forall e ops s s' outs, run e s ops = Ok (s', outs) -> length outs = length ops.
Proof.
  intros e. induction ops as [|o ops IH]; intros s s' outs H; [injection H as <- <-; reflexivity|]. cbn [run] in H. destruct (step e s o) as [[s1 o1]| |]; cbn [bind fst snd] in H; try discriminate.
  destruct (run e s1 ops) as [[a b]| |] eqn:R; cbn [bind fst snd] in H; try discriminate. injection H as <- <-. cbn. f_equal. eapply IH; eauto.
Qed.
Lemma last_read_app : forall e a b s, b <> [] -> last_read (run e s (a ++ b)) = do p <- run e s a; last_read (run e (fst p) b).
Proof.
  intros e a b s Hb. rewrite run_app. destruct (run e s a) as [[x y]| |]; cbn [bind fst snd]; auto. destruct (run e x b) as [[x' y']| |] eqn:R; cbn [bind fst snd last_read]; auto.
  f_equal. apply last_app. apply run_outs in R. destruct y'; [destruct b; [congruence|discriminate]|discriminate].
Qed.

Lemma reopen_any : forall e cfg np np' f0 ops doff doff2 calls, e_coll e = true -> Forall with_data ops ->
  last_read (run e (init cfg np f0) (ops ++ [OReopen doff np'; ORead doff2 calls])) = last_read (run e (init cfg np f0) (ops ++ [ORead doff calls])).
Proof.
  intros e cfg np np' f0 ops doff doff2 calls Hc W. rewrite !last_read_app by discriminate. destruct (run e (init cfg np f0) ops) as [[s outs]| |] eqn:R; cbn [bind fst]; auto.
  apply reopen_step; auto. eapply run_clean; [apply init_clean|exact W|exact R].
Qed.
Lemma flush_none : forall e s doff s' out, clean e s -> step e s (OFlush doff) = Ok (s', out) -> any_pending (s_g s') = false.
Proof.
  intros e s doff s' out (T & _) H. cbn [step] in H. injection H as <- <-. cbn [s_g]. destruct (any_pending (s_g s)) eqn:P; [|exact P].
  unfold flush_writes. destruct (sizes_zero _ _ T) as (S1 & S2). unfold any_pending in P. destruct (Zsum _ =? 0) eqn:E; [apply Z.eqb_eq, S2 in E; congruence|].
  unfold any_pending. cbn [g_ranks]. generalize (map (fun o => o + doff) (exscan 0 (map (fun st => local_size (unflushed st)) (g_ranks (s_g s))))). clear.
  induction (g_ranks (s_g s)) as [|st l IH]; intros [|x bs]; cbn [combine map existsb]; auto. rewrite IH. cbn [fst snd]. unfold num_pending, rank_flushed. cbn. rewrite Nat.sub_diag. reflexivity.
Qed.
Lemma reopen_flushed : forall e cfg np np' f0 ops doff doff1 doff2 doff3 calls, Forall with_data ops ->
  last_read (run e (init cfg np f0) (ops ++ [OFlush doff; OReopen doff2 np'; ORead doff3 calls])) = last_read (run e (init cfg np f0) (ops ++ [OFlush doff; ORead doff1 calls])).
Proof.
  intros e cfg np np' f0 ops doff doff1 doff2 doff3 calls W.
  replace (ops ++ [OFlush doff; OReopen doff2 np'; ORead doff3 calls]) with ((ops ++ [OFlush doff]) ++ [OReopen doff2 np'; ORead doff3 calls]) by (rewrite <- app_assoc; reflexivity).
  replace (ops ++ [OFlush doff; ORead doff1 calls]) with ((ops ++ [OFlush doff]) ++ [ORead doff1 calls]) by (rewrite <- app_assoc; reflexivity).
  rewrite !last_read_app by discriminate. rewrite run_app. destruct (run e (init cfg np f0) ops) as [[s outs]| |] eqn:R; cbn [bind fst]; auto.
  assert (C : clean e s) by (eapply run_clean; [apply init_clean|exact W|exact R]). cbn [run]. destruct (step e s (OFlush doff)) as [[s1 o1]| |] eqn:E; cbn [bind fst snd]; auto.
  assert (P : any_pending (s_g s1) = false) by (eapply flush_none; eauto). apply reopen_step; auto. eapply step_clean; eauto. exact Logic.I.
Qed.

(** ** Resizing, repeating a read *)

Lemma extent_any : forall e cfg np f0 ops did dims doff calls s outs s' out, Forall with_data ops ->
  run e (init cfg np f0) ops = Ok (s, outs) -> step e s (OSetExtent did dims) = Ok (s', out) ->
  last_read (run e (init cfg np f0) (ops ++ [OSetExtent did dims; ORead doff calls])) = last_read (run e (init cfg np f0) (ops ++ [ORead doff calls])).
Proof.
  intros e cfg np f0 ops did dims doff calls s outs s' out W R E. rewrite !last_read_app by discriminate. rewrite R. cbn [bind fst].
  assert (C : clean e s) by (eapply run_clean; [apply init_clean|exact W|exact R]).
  change [OSetExtent did dims; ORead doff calls] with ([OSetExtent did dims] ++ [ORead doff calls]). rewrite last_read_app by discriminate. cbn [run]. rewrite E. cbn [bind fst snd].
  cbn [step] in E. destruct (info_at (g_infos (s_g s)) did) as [[d|]|] eqn:Ei; try discriminate. pose proof (extent_like (g_cfg (s_g s)) d dims) as Li. destruct (set_extent _ d dims) as [d' [|]]; try discriminate.
  injection E as <- <-. cbn [fst] in Li. apply info_nth in Ei. pose proof (Forall2_like_upd _ _ _ _ Ei Li) as F. set (infos := upd_nth _ _ _) in *. cbn [step s_g s_idx].
  change (any_pending (set_infos (s_g s) infos)) with (any_pending (s_g s)).
  set (g1 := if e_coll e && any_pending (s_g s) then flush_writes doff (s_g s) else s_g s). set (g1' := if e_coll e && any_pending (s_g s) then flush_writes doff (set_infos (s_g s) infos) else set_infos (s_g s) infos).
  assert (G1 : g1' = set_infos g1 infos) by (unfold g1, g1'; destruct (_ && _); auto; unfold flush_writes; cbn [set_infos g_ranks]; destruct (_ =? 0); reflexivity).
  assert (I1 : g_infos g1 = g_infos (s_g s) /\ g_cfg g1 = g_cfg (s_g s) /\ g_mdsets g1 = g_mdsets (s_g s)) by (unfold g1; destruct (_ && _); [split; [apply flush_mds|split; apply flush_mds]|auto]). destruct I1 as (I1 & I2 & I3).
  rewrite G1. cbn [set_infos g_metadirty]. destruct (g_metadirty g1) eqn:D.
  - assert (S : same_log (metaflush g1) (metaflush (set_infos g1 infos))) by (repeat split; cbn; rewrite I1; auto).
    pose proof (read_each_fresh e (metaflush g1) (metaflush (set_infos g1 infos)) calls None None S Logic.I Logic.I) as Q.
    destruct (read_each e (metaflush g1) None calls) as [p| |], (read_each e (metaflush (set_infos g1 infos)) None calls) as [p'| |]; cbn; try contradiction; auto. destruct Q as [-> _]. reflexivity.
  - assert (X : fresh e g1 (s_idx s)) by (destruct C as (_ & _ & X); unfold fresh in *; destruct (s_idx s); auto; rewrite I1, I2, I3; exact X).
    assert (X' : fresh e (set_infos g1 infos) (s_idx s)) by (apply fresh_grown; auto; exists infos, []; rewrite app_nil_r, I1; auto).
    assert (S : same_log g1 (set_infos g1 infos)) by (repeat split; cbn; rewrite I1; auto).
    pose proof (read_each_fresh e g1 (set_infos g1 infos) calls (s_idx s) (s_idx s) S X X') as Q.
    destruct (read_each e g1 (s_idx s) calls) as [p| |], (read_each e (set_infos g1 infos) (s_idx s) calls) as [p'| |]; cbn; try contradiction; auto. destruct Q as [-> _]. reflexivity.
Qed.

Lemma read_again : forall e cfg np f0 ops doff doff' calls calls' s outs, e_coll e = true -> Forall with_data ops ->
  run e (init cfg np f0) (ops ++ [ORead doff calls]) = Ok (s, outs) ->
  last_read (run e (init cfg np f0) (ops ++ [ORead doff calls; ORead doff' calls'])) = last_read (run e (init cfg np f0) (ops ++ [ORead doff calls'])).
Proof.
  intros e cfg np f0 ops doff doff' calls calls' s outs Hc W R. rewrite !last_read_app by discriminate. rewrite run_app in R.
  destruct (run e (init cfg np f0) ops) as [[s0 o0]| |] eqn:R0; cbn [bind fst] in *; try discriminate. assert (C : clean e s0) by (eapply run_clean; [apply init_clean|exact W|exact R0]).
  change [ORead doff calls; ORead doff' calls'] with ([ORead doff calls] ++ [ORead doff' calls']). rewrite last_read_app by discriminate.
  cbn [run] in *. destruct (step e s0 (ORead doff calls)) as [[s1 o1]| |] eqn:E1; cbn [bind fst snd] in *; try discriminate.
  assert (C1 : clean e s1) by exact (step_clean e s0 (ORead doff calls) s1 o1 C Logic.I E1).
  cbn [step] in E1. cbn [step]. rewrite Hc in *. cbn [andb] in *.
  set (g1 := if any_pending (s_g s0) then flush_writes doff (s_g s0) else s_g s0) in *. set (g2 := if g_metadirty g1 then metaflush g1 else g1) in *.
  destruct (read_each e g2 _ calls) as [p| |] eqn:Rd; cbn [bind] in E1; try discriminate. injection E1 as <- <-. cbn [s_g s_idx] in *.
  assert (P : any_pending g2 = false).
  { unfold g2, g1. destruct (any_pending (s_g s0)) eqn:P.
    - pose proof (flush_none e s0 doff _ _ C eq_refl) as Q. cbn [s_g step] in Q. rewrite P in Q. destruct (g_metadirty _); [|exact Q]. cbn. clear. unfold any_pending. cbn. induction (g_ranks _); cbn; auto.
    - destruct (g_metadirty _); [|exact P]. unfold any_pending. cbn. clear. induction (g_ranks _); cbn; auto. }
  assert (D : g_metadirty g2 = false) by (unfold g2; destruct (g_metadirty g1) eqn:D; [reflexivity|exact D]).
  rewrite P, D. assert (X : fresh e g2 (if g_metadirty g1 then None else s_idx s0)).
  { destruct (g_metadirty g1) eqn:D1; [exact Logic.I|]. destruct C as (_ & _ & X). unfold g2, g1. unfold fresh in *. destruct (s_idx s0); auto. rewrite D1 || idtac.
    unfold g1. destruct (any_pending (s_g s0)); [destruct (flush_mds doff (s_g s0)) as (-> & -> & ->)|]; exact X. }
  destruct C1 as (_ & _ & X1). cbn [s_g s_idx] in X1.
  pose proof (read_each_fresh e g2 g2 calls' (snd p) (if g_metadirty g1 then None else s_idx s0) (conj eq_refl (conj (like_all _) (conj eq_refl eq_refl))) X1 X) as Q.
  destruct (read_each e g2 (snd p) calls') as [q| |], (read_each e g2 (if g_metadirty g1 then None else s_idx s0) calls') as [q'| |]; cbn; try contradiction; auto. destruct Q as [-> _]. reflexivity.
Qed.
