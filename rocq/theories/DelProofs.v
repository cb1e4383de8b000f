From Verif Require Import Base BaseProofs Spec MetaModel QueueModel FlushModel IndexModel ReadModel SysModel DelModel DelSpec.
From Coq Require Import ZifyNat.

Notation gone_b g k := (existsb (Z.eqb k) g).
Lemma gone_In : forall g k, gone_b g k = true <-> In k g.
Proof.
  intros g k. rewrite existsb_exists. split.
  - intros (x & H & E). apply Z.eqb_eq in E. subst. exact H.
  - intros H. exists k. split; [exact H|apply Z.eqb_refl].
Qed.
Lemma gone_not : forall g k, ~ In k g -> gone_b g k = false.
Proof. intros g k H. destruct (gone_b g k) eqn:E; [apply gone_In in E; contradiction|reflexivity]. Qed.

Lemma unlink_nth : forall g infos k i, nth_error (unlink g k infos) i =
  match nth_error infos i with Some x => Some (if gone_b g (k + Z.of_nat i) then None else x) | None => None end.
Proof.
  intros g. induction infos as [|x infos IH]; intros k [|i]; cbn [unlink nth_error]; auto.
  - replace (k + Z.of_nat 0) with k by lia. reflexivity.
  - rewrite IH. replace (k + 1 + Z.of_nat i) with (k + Z.of_nat (S i)) by lia. reflexivity.
Qed.
Lemma unlink_len : forall g infos k, length (unlink g k infos) = length infos.
Proof. intros g. induction infos as [|x infos IH]; intros k; cbn; auto. Qed.
Lemma unlink_info : forall g infos did, info_at (unlink g 0 infos) did =
  match info_at infos did with Some x => Some (if gone_b g did then None else x) | None => None end.
Proof.
  intros g infos did. unfold info_at. destruct (Z.ltb_spec did 0); [reflexivity|]. rewrite unlink_nth.
  replace (0 + Z.of_nat (Z.to_nat did)) with did by lia. reflexivity.
Qed.
Lemma unlink_live : forall g infos did, ~ In did g -> info_at (unlink g 0 infos) did = info_at infos did.
Proof. intros g infos did H. rewrite unlink_info, (gone_not _ _ H). destruct (info_at infos did); reflexivity. Qed.
Lemma unlink_app : forall g infos k x, ~ In (k + Zlen infos) g -> unlink g k (infos ++ [x]) = unlink g k infos ++ [x].
Proof.
  intros g. induction infos as [|y infos IH]; intros k x H; cbn [app unlink].
  - unfold Zlen in H. cbn in H. rewrite Z.add_0_r in H. rewrite (gone_not _ _ H). reflexivity.
  - rewrite IH; [reflexivity|]. unfold Zlen in *. cbn [length] in H. replace (k + 1 + Z.of_nat (length infos)) with (k + Z.of_nat (S (length infos))) by lia. exact H.
Qed.
Lemma unlink_upd : forall g infos k i x, ~ In (k + Z.of_nat i) g -> unlink g k (upd_nth i x infos) = upd_nth i x (unlink g k infos).
Proof.
  intros g. induction infos as [|y infos IH]; intros k [|i] x H; cbn [upd_nth unlink]; auto.
  - replace (k + Z.of_nat 0) with k in H by lia. rewrite (gone_not _ _ H). reflexivity.
  - rewrite IH; [reflexivity|]. replace (k + 1 + Z.of_nat i) with (k + Z.of_nat (S i)) by lia. exact H.
Qed.
Lemma unlink_unlink : forall a b infos k, unlink a k (unlink b k infos) = unlink (a ++ b) k infos.
Proof.
  intros a b. induction infos as [|x infos IH]; intros k; cbn [unlink]; [reflexivity|]. rewrite IH, existsb_app. f_equal.
  destruct (gone_b a k), (gone_b b k); reflexivity.
Qed.
Lemma unlink_reopen : forall g cfg infos infos' k, reopen_infos cfg infos = Ok infos' -> reopen_infos cfg (unlink g k infos) = Ok (unlink g k infos').
Proof.
  intros g cfg. induction infos as [|x infos IH]; intros infos' k H; cbn [reopen_infos unlink] in *.
  - injection H as <-. reflexivity.
  - destruct x as [d|].
    + destruct (create_info cfg d) as [d'| |] eqn:E; try discriminate. cbn [bind] in H.
      destruct (reopen_infos cfg infos) as [r| |] eqn:R; try discriminate. cbn [bind] in H. injection H as <-.
      cbn [unlink]. destruct (gone_b g k); rewrite ?E; cbn [bind]; rewrite (IH r (k + 1) eq_refl); reflexivity.
    + destruct (reopen_infos cfg infos) as [r| |] eqn:R; try discriminate. cbn [bind] in H. injection H as <-.
      cbn [unlink]. destruct (gone_b g k); rewrite (IH r (k + 1) eq_refl); reflexivity.
Qed.
Lemma reopen_len : forall cfg infos infos', reopen_infos cfg infos = Ok infos' -> length infos' = length infos.
Proof.
  intros cfg. induction infos as [|x infos IH]; intros infos' H; cbn [reopen_infos] in H.
  - injection H as <-. reflexivity.
  - destruct x as [d|].
    + destruct (create_info cfg d) as [d'| |]; try discriminate. cbn [bind] in H.
      destruct (reopen_infos cfg infos) as [r| |] eqn:R; try discriminate. cbn [bind] in H. injection H as <-. cbn. f_equal. apply IH. reflexivity.
    + destruct (reopen_infos cfg infos) as [r| |] eqn:R; try discriminate. cbn [bind] in H. injection H as <-. cbn. f_equal. apply IH. reflexivity.
Qed.
Lemma reopen_some : forall cfg infos infos', reopen_infos cfg infos = Ok infos' -> Forall (fun o => o <> None) infos -> Forall (fun o => o <> None) infos'.
Proof.
  intros cfg. induction infos as [|x infos IH]; intros infos' H F; cbn [reopen_infos] in H.
  - injection H as <-. constructor.
  - inversion F; subst. destruct x as [d|]; [|congruence].
    destruct (create_info cfg d) as [d'| |]; try discriminate. cbn [bind] in H.
    destruct (reopen_infos cfg infos) as [r| |] eqn:R; try discriminate. cbn [bind] in H. injection H as <-. constructor; [discriminate|]. apply IH; auto.
Qed.

(** ** The index *)
Definition live_entry (g : list Z) (m : mentry) : bool := negb (gone_b g (h_did (me_hdr m))).
Definition live_cent (g : list Z) (c : cent) : bool := negb (gone_b g (ce_did c)).
Definition live_index (g : list Z) (i : index) : index :=
  match i with IArray l => IArray (filter (live_entry g) l) | ICompact l => ICompact (filter (live_cent g) l) end.

Lemma decode_hdr : forall z d buf pos m, decode z d buf pos = Ok m -> exists h, rd_hdr buf pos = Some h /\ me_hdr m = h.
Proof.
  intros z d buf pos m H. unfold decode in H. destruct (rd_hdr buf pos) as [h|]; cbn [or_ub bind] in H; [|discriminate].
  exists h. split; [reflexivity|].
  repeat (match type of H with
          | (if ?b then _ else _) = _ => destruct b; [discriminate|]
          | bind ?x _ = Ok _ => destruct x; cbn [bind] in H; [|discriminate|discriminate]
          end; cbv zeta in H).
  apply (f_equal (fun r => match r with Ok a => me_hdr a | _ => h end)) in H. cbn [me_hdr] in H. congruence.
Qed.

Lemma array_live : forall g z cfg infos, has cfg CFG_METADATA_SHARE = false -> forall fuel buf pos bc bc' l,
  parse_array fuel z cfg infos buf pos bc = Ok l ->
  parse_array fuel z cfg (unlink g 0 infos) buf pos bc' = Ok (filter (live_entry g) l).
Proof.
  intros g z cfg infos HS. induction fuel as [|fuel IH]; intros buf pos bc bc' l H; [discriminate|].
  cbn [parse_array] in *. rewrite HS in *. cbn [andb] in *.
  destruct (Zlen buf <=? pos); [injection H as <-; reflexivity|].
  destruct (rd_hdr buf pos) as [h|] eqn:Eh; [|discriminate]. cbn [or_ub bind] in *.
  rewrite unlink_info. destruct (info_at infos (h_did h)) as [inf|]; [|discriminate]. cbn [or_ub bind] in *.
  destruct inf as [dip|].
  - destruct (decode z dip buf pos) as [m| |] eqn:Ed; try discriminate. cbn [bind] in H.
    destruct (parse_array fuel z cfg infos buf (pos + h_size h) _) as [rest| |] eqn:Er in H; try discriminate. cbn [bind] in H. injection H as <-.
    destruct (decode_hdr _ _ _ _ _ Ed) as (h' & Eh' & Em). assert (Em2 : me_hdr m = h) by congruence. clear Em.
    cbn [filter]. unfold live_entry at 1. rewrite Em2. destruct (gone_b g (h_did h)); cbn [negb].
    + eapply IH. exact Er.
    + rewrite Ed. cbn [bind]. erewrite IH by exact Er. reflexivity.
  - destruct (gone_b g (h_did h)); eapply IH; exact H.
Qed.
Lemma compact_live : forall g z cfg infos, has cfg CFG_METADATA_SHARE = false -> forall fuel buf pos bc bc' l,
  parse_compact fuel z cfg infos buf pos bc = Ok l ->
  parse_compact fuel z cfg (unlink g 0 infos) buf pos bc' = Ok (filter (live_cent g) l).
Proof.
  intros g z cfg infos HS. induction fuel as [|fuel IH]; intros buf pos bc bc' l H; [discriminate|].
  cbn [parse_compact] in *. rewrite HS in *. cbn [andb] in *.
  destruct (Zlen buf <=? pos); [injection H as <-; reflexivity|].
  destruct (rd_hdr buf pos) as [h|] eqn:Eh; [|discriminate]. cbn [or_ub bind] in *.
  rewrite unlink_info. destruct (info_at infos (h_did h)) as [inf|]; [|discriminate]. cbn [or_ub bind] in *.
  destruct inf as [dip|].
  - destruct (decode z dip buf pos) as [m| |] eqn:Ed; try discriminate. cbn [bind] in H.
    destruct (parse_compact fuel z cfg infos buf (pos + h_size h) _) as [rest| |] eqn:Er in H; try discriminate. cbn [bind] in H. injection H as <-.
    destruct (decode_hdr _ _ _ _ _ Ed) as (h' & Eh' & Em). assert (Em2 : me_hdr m = h) by congruence. clear Em.
    cbn [filter]. unfold live_cent at 1. change (ce_did (compact_of m)) with (h_did (me_hdr m)). rewrite Em2. destruct (gone_b g (h_did h)); cbn [negb].
    + eapply IH. exact Er.
    + rewrite Ed. cbn [bind]. erewrite IH by exact Er. reflexivity.
  - destruct (gone_b g (h_did h)); eapply IH; exact H.
Qed.
Lemma parse_live : forall g z cfg infos i buf i', has cfg CFG_METADATA_SHARE = false ->
  idx_parse z cfg infos i buf = Ok i' -> idx_parse z cfg (unlink g 0 infos) (live_index g i) buf = Ok (live_index g i').
Proof.
  intros g z cfg infos [l|l] buf i' HS H; cbn [idx_parse live_index] in *.
  - destruct (parse_array (S (length buf)) z cfg infos buf 0 []) as [l'| |] eqn:E; try discriminate. cbn [bind] in H. injection H as <-.
    rewrite (array_live g _ _ _ HS _ _ _ _ [] _ E). cbn [bind live_index]. rewrite filter_app. reflexivity.
  - destruct (parse_compact (S (length buf)) z cfg infos buf 0 []) as [l'| |] eqn:E; try discriminate. cbn [bind] in H. injection H as <-.
    rewrite (compact_live g _ _ _ HS _ _ _ _ [] _ E). cbn [bind live_index]. rewrite filter_app. reflexivity.
Qed.
Lemma load_live : forall g z cfg infos mds i i', has cfg CFG_METADATA_SHARE = false ->
  load_all z cfg infos i mds = Ok i' -> load_all z cfg (unlink g 0 infos) (live_index g i) mds = Ok (live_index g i').
Proof.
  intros g z cfg infos. induction mds as [|md mds IH]; intros i i' HS H; cbn [load_all] in *; [injection H as <-; reflexivity|].
  destruct (md_body md) as [b|]; [|discriminate]. cbn [or_ub bind] in *.
  destruct (idx_parse z cfg infos i b) as [i1| |] eqn:E; try discriminate. cbn [bind] in H.
  rewrite (parse_live _ _ _ _ _ _ _ HS E). cbn [bind]. apply IH; auto.
Qed.
Lemma empty_live : forall g k, live_index g (idx_empty k) = idx_empty k.
Proof. intros g []; reflexivity. Qed.

Lemma flat_filter : forall A B (p : A -> bool) (f : A -> list B) l, (forall a, p a = false -> f a = []) -> flat_map f (filter p l) = flat_map f l.
Proof.
  intros A B p f l H. induction l as [|a l IH]; [reflexivity|]. cbn [filter flat_map]. destruct (p a) eqn:E.
  - cbn [flat_map]. rewrite IH. reflexivity.
  - rewrite (H _ E), IH. reflexivity.
Qed.
Lemma opt_flat_filter : forall A B (p : A -> bool) (f : A -> option (list B)) l, (forall a, p a = false -> f a = Some []) -> opt_flat f (filter p l) = opt_flat f l.
Proof.
  intros A B p f l H. induction l as [|a l IH]; [reflexivity|]. cbn [filter opt_flat]. destruct (p a) eqn:E.
  - cbn [opt_flat]. rewrite IH. reflexivity.
  - rewrite (H _ E), IH. destruct (opt_flat f l); reflexivity.
Qed.
Lemma opt_flat_ext : forall A B (f h : A -> option (list B)) l, (forall a, f a = h a) -> opt_flat f l = opt_flat h l.
Proof. intros A B f h l H. induction l as [|a l IH]; [reflexivity|]. cbn. rewrite H, IH. reflexivity. Qed.

Lemma search_live : forall g infos i r, ~ In (rq_did r) g -> idx_search1 (unlink g 0 infos) (live_index g i) r = idx_search1 infos i r.
Proof.
  intros g infos i r H. unfold idx_search1. rewrite (unlink_live _ _ _ H). destruct (info_at infos (rq_did r)) as [[dip|]|]; try reflexivity.
  destruct i as [l|l]; cbn [live_index].
  - f_equal. unfold search_array. apply flat_map_ext. intros bo. apply flat_filter. intros m E.
    unfold live_entry in E. apply negb_false_iff, gone_In in E. destruct (Z.eqb_spec (h_did (me_hdr m)) (rq_did r)); [congruence|reflexivity].
  - f_equal. unfold search_compact. apply opt_flat_ext. intros bo. apply opt_flat_filter. intros m E.
    unfold live_cent in E. apply negb_false_iff, gone_In in E. destruct (Z.eqb_spec (ce_did m) (rq_did r)); [congruence|reflexivity].
Qed.
Lemma searches_live : forall g infos i rs, Forall (fun r => ~ In (rq_did r) g) rs -> idx_search (unlink g 0 infos) (live_index g i) rs = idx_search infos i rs.
Proof.
  intros g infos i rs F. unfold idx_search. induction F as [|r rs Hr _ IH]; [reflexivity|]. cbn [res_flat]. rewrite search_live by exact Hr. rewrite IH. reflexivity.
Qed.
Lemma parts_live : forall g z cfg infos k lim mds rs, has cfg CFG_METADATA_SHARE = false -> Forall (fun r => ~ In (rq_did r) g) rs ->
  forall fuel md sec x, search_parts fuel z cfg infos k lim mds md sec rs = Ok x -> search_parts fuel z cfg (unlink g 0 infos) k lim mds md sec rs = Ok x.
Proof.
  intros g z cfg infos k lim mds rs HS F. induction fuel as [|fuel IH]; intros md sec x H; [discriminate|]. cbn [search_parts] in *.
  destruct (load_part lim mds md sec) as [p| |]; try discriminate. cbn [bind] in *.
  destruct (idx_parse z cfg infos (idx_empty k) (fst p)) as [i| |] eqn:E; try discriminate. cbn [bind] in H.
  apply (parse_live g) in E; [|exact HS]. rewrite empty_live in E. rewrite E. cbn [bind]. rewrite searches_live by exact F.
  destruct (idx_search infos i rs) as [y| |]; try discriminate. cbn [bind] in *.
  destruct (snd p) as [[md' sec']|]; [|exact H].
  destruct (search_parts fuel z cfg infos k lim mds md' sec' rs) as [w| |] eqn:W; try discriminate. rewrite (IH _ _ _ W). exact H.
Qed.
Lemma read_search_live : forall g z cfg infos k lim mds c rs x c', has cfg CFG_METADATA_SHARE = false -> Forall (fun r => ~ In (rq_did r) g) rs ->
  read_search z cfg infos k lim mds c rs = Ok (x, c') ->
  read_search z cfg (unlink g 0 infos) k lim mds (option_map (live_index g) c) rs = Ok (x, option_map (live_index g) c').
Proof.
  intros g z cfg infos k lim mds c rs x c' HS F H. unfold read_search in *. destruct lim as [lim|].
  - destruct (search_parts _ z cfg infos k lim mds 0 0 rs) as [y| |] eqn:E; try discriminate. cbn [bind] in H. injection H as <- <-.
    rewrite (parts_live _ _ _ _ _ _ _ _ HS F _ _ _ _ E). reflexivity.
  - destruct c as [i|]; cbn [option_map bind] in *.
    + rewrite searches_live by exact F. destruct (idx_search infos i rs) as [y| |]; try discriminate. cbn [bind] in *. injection H as <- <-. reflexivity.
    + destruct (load_all z cfg infos (idx_empty k) mds) as [i| |] eqn:E; try discriminate. cbn [bind] in H.
      apply (load_live g) in E; [|exact HS]. rewrite empty_live in E. rewrite E. cbn [bind]. rewrite searches_live by exact F.
      destruct (idx_search infos i rs) as [y| |]; try discriminate. cbn [bind] in *. injection H as <- <-. reflexivity.
Qed.

(** ** One call *)
(** [s1]: the file without deletions; [m]: deleted before the file was opened last. *)
Definition rel (m : list Z) (s1 s2 : sys) : Prop :=
  s_g s2 = set_infos (s_g s1) (unlink m 0 (g_infos (s_g s1))) /\ s_idx s2 = option_map (live_index m) (s_idx s1).
Lemma read_one_live : forall m e g idx c r idx', has (g_cfg g) CFG_METADATA_SHARE = false -> ~ In (rc_did c) m ->
  read_one e g idx c = Ok (r, idx') ->
  read_one e (set_infos g (unlink m 0 (g_infos g))) (option_map (live_index m) idx) c = Ok (r, option_map (live_index m) idx').
Proof.
  intros m e g idx c r idx' HS HN H. unfold read_one in *. destruct (rc_sels c) as [|b bs]; [injection H as <- <-; reflexivity|].
  cbn [g_infos set_infos g_cfg g_mdsets g_file] in *. rewrite (unlink_live _ _ _ HN).
  destruct (info_at (g_infos g) (rc_did c)) as [[dip|]|] eqn:Ei; try discriminate. cbv zeta in *.
  set (rq := mkrreq (rc_did c) (b :: bs) (rc_buf c) (di_esize dip)) in *.
  destruct (read_search (e_zlib e) (g_cfg g) (g_infos g) (e_kind e) (e_limit e) (g_mdsets g) idx [rq]) as [[x c']| |] eqn:E; try discriminate.
  rewrite (read_search_live m _ _ _ _ _ _ _ _ _ _ HS (Forall_cons rq HN (Forall_nil _)) E). cbn [bind fst snd] in *.
  assert (EF : fill_req (unlink m 0 (g_infos g)) (rc_mem c) rq = fill_req (g_infos g) (rc_mem c) rq).
  { unfold fill_req. change (rq_did rq) with (rc_did c). rewrite (unlink_live _ _ _ HN). reflexivity. }
  rewrite EF. apply (f_equal (fun q => match q with Ok p => Ok (fst p, option_map (live_index m) (snd p)) | Err => Err | UB => UB end)) in H. exact H.
Qed.
Lemma read_each_live : forall m e g calls idx r idx', has (g_cfg g) CFG_METADATA_SHARE = false -> (forall c, In c calls -> ~ In (rc_did c) m) ->
  read_each e g idx calls = Ok (r, idx') ->
  read_each e (set_infos g (unlink m 0 (g_infos g))) (option_map (live_index m) idx) calls = Ok (r, option_map (live_index m) idx').
Proof.
  intros m e g. induction calls as [|c calls IH]; intros idx r idx' HS HN H; cbn [read_each] in *; [injection H as <- <-; reflexivity|].
  destruct (read_one e g idx c) as [[b i1]| |] eqn:E; try discriminate. cbn [bind fst snd] in H.
  rewrite (read_one_live _ _ _ _ _ _ _ HS (HN c (or_introl eq_refl)) E). cbn [bind fst snd].
  destruct (read_each e g i1 calls) as [[bs i2]| |] eqn:F; try discriminate. cbn [bind fst snd] in H. injection H as <- <-.
  rewrite (IH _ _ _ HS (fun c H => HN c (or_intror H)) F). reflexivity.
Qed.

Lemma nth_info : forall infos did, 0 <= did -> nth_error infos (Z.to_nat did) = info_at infos did.
Proof. intros infos did H. unfold info_at. destruct (Z.ltb_spec did 0); [lia|reflexivity]. Qed.

Lemma sys_eq : forall s2 g i, s_g s2 = g -> s_idx s2 = i -> s2 = mksys g i.
Proof. intros [a b] g i <- <-. reflexivity. Qed.
Lemma set_infos_flush : forall d g is, flush_writes d (set_infos g is) = set_infos (flush_writes d g) is.
Proof. intros d g is. unfold flush_writes. destruct g as [a b c f h i j]; cbn. match goal with |- (if ?x then _ else _) = _ => destruct x end; reflexivity. Qed.
Lemma set_infos_meta : forall g is, metaflush (set_infos g is) = set_infos (metaflush g) is.
Proof. intros g is. destruct g as [a b c f h i j]. reflexivity. Qed.
Lemma flush_infos : forall d g, g_infos (flush_writes d g) = g_infos g.
Proof. intros d g. unfold flush_writes. match goal with |- context [if ?x then _ else _] => destruct x end; reflexivity. Qed.
Lemma meta_infos : forall g, g_infos (metaflush g) = g_infos g.
Proof. reflexivity. Qed.
Lemma flush_cfg : forall d g, g_cfg (flush_writes d g) = g_cfg g.
Proof. intros d g. unfold flush_writes. match goal with |- context [if ?x then _ else _] => destruct x end; reflexivity. Qed.
Lemma meta_cfg : forall g, g_cfg (metaflush g) = g_cfg g.
Proof. reflexivity. Qed.

Lemma step_cfg : forall e s o s' out, step e s o = Ok (s', out) -> g_cfg (s_g s') = g_cfg (s_g s).
Proof.
  intros e s o s' out H. destruct o as [d|did dims|rk did sels data|doff|doff calls|doff np]; cbn [step] in H.
  - destruct (create_info _ d); try discriminate. cbn [bind] in H. injection H as <- _. reflexivity.
  - destruct (info_at _ did) as [[d|]|]; try discriminate. destruct (set_extent _ d dims) as [d' [|]]; try discriminate. injection H as <- _. reflexivity.
  - destruct (nth_error _ rk); try discriminate. destruct (ds_write _ _ _ _ _ _ _); try discriminate. cbn [bind] in H. injection H as <- _. reflexivity.
  - injection H as <- _. cbn [s_g]. destruct (any_pending _); [apply flush_cfg|reflexivity].
  - cbv zeta in H. destruct (read_each _ _ _ _) as [[a b]| |]; try discriminate. cbn [bind fst snd] in H. injection H as <- _. cbn [s_g].
    repeat match goal with |- context [if ?x then _ else _] => destruct x end; rewrite ?meta_cfg, ?flush_cfg; reflexivity.
  - cbv zeta in H. destruct (reopen_infos _ _); try discriminate. cbn [bind] in H. injection H as <- _. reflexivity.
Qed.
Lemma step_infos : forall e s o s' out, step e s o = Ok (s', out) -> Forall (fun x => x <> None) (g_infos (s_g s)) ->
  Forall (fun x => x <> None) (g_infos (s_g s')) /\
  Zlen (g_infos (s_g s')) = Zlen (g_infos (s_g s)) + match o with OCreate _ => 1 | _ => 0 end.
Proof.
  intros e s o s' out H F. destruct o as [d|did dims|rk did sels data|doff|doff calls|doff np]; cbn [step] in H.
  - destruct (create_info _ d); try discriminate. cbn [bind] in H. injection H as <- _. cbn [s_g set_infos g_infos]. split.
    + apply Forall_app. split; [exact F|]. constructor; [discriminate|constructor].
    + unfold Zlen. rewrite app_length. cbn. lia.
  - destruct (info_at _ did) as [[d|]|]; try discriminate. destruct (set_extent _ d dims) as [d' [|]]; try discriminate. injection H as <- _. cbn [s_g set_infos g_infos]. split.
    + clear -F. revert F. generalize (g_infos (s_g s)), (Z.to_nat did). induction l as [|x l IH]; intros [|n] F; cbn; auto; inversion F; subst; constructor; auto. discriminate.
    + unfold Zlen. rewrite upd_nth_length. lia.
  - destruct (nth_error _ rk); try discriminate. destruct (ds_write _ _ _ _ _ _ _); try discriminate. cbn [bind] in H. injection H as <- _. split; [exact F|cbn; lia].
  - injection H as <- _. cbn [s_g]. destruct (any_pending _); rewrite ?flush_infos; split; auto; lia.
  - cbv zeta in H. destruct (read_each _ _ _ _) as [[a b]| |]; try discriminate. cbn [bind fst snd] in H. injection H as <- _. cbn [s_g].
    repeat match goal with |- context [if ?x then _ else _] => destruct x end; rewrite ?meta_infos, ?flush_infos; split; auto; lia.
  - cbv zeta in H. destruct (reopen_infos _ _) as [l| |] eqn:E; try discriminate. cbn [bind] in H. injection H as <- _. cbn [s_g g_infos]. split; [eapply reopen_some; eauto|].
    unfold Zlen. rewrite (reopen_len _ _ _ E). lia.
Qed.

Lemma step_live : forall m e s1 s2 o s1' out, has (g_cfg (s_g s1)) CFG_METADATA_SHARE = false -> rel m s1 s2 ->
  (forall d, In d (named o) -> 0 <= d < Zlen (g_infos (s_g s1)) /\ ~ In d m) -> Forall (fun d => 0 <= d < Zlen (g_infos (s_g s1))) m ->
  step e s1 o = Ok (s1', out) -> exists s2', step e s2 o = Ok (s2', out) /\ rel m s1' s2'.
Proof.
  intros m e s1 s2 o s1' out HS [Rg Ri] HL HM H. rewrite (sys_eq s2 _ _ Rg Ri). clear s2 Rg Ri.
  destruct s1 as [g idx]. cbn [s_g s_idx] in *.
  destruct o as [d|did dims|rk did sels data|doff|doff calls|doff np]; cbn [step s_g s_idx] in *.
  - cbn [set_infos g_cfg g_infos]. destruct (create_info (g_cfg g) d) as [d'| |]; try discriminate. cbn [bind] in *. injection H as <- <-.
    eexists. split; [reflexivity|]. split; [|reflexivity]. unfold set_infos. cbn [s_g g_cfg g_infos g_ranks g_file g_mdsets g_nldset g_metadirty]. f_equal.
    rewrite unlink_app; [reflexivity|]. intros I. rewrite Forall_forall in HM. apply HM in I. lia.
  - destruct (HL did (or_introl eq_refl)) as [B N]. cbn [set_infos g_cfg g_infos]. rewrite (unlink_live _ _ _ N).
    destruct (info_at (g_infos g) did) as [[d|]|]; try discriminate. destruct (set_extent (g_cfg g) d dims) as [d' [|]]; try discriminate. injection H as <- <-.
    eexists. split; [reflexivity|]. split; [|reflexivity]. unfold set_infos. cbn [s_g g_cfg g_infos g_ranks g_file g_mdsets g_nldset g_metadirty]. f_equal.
    rewrite unlink_upd; [reflexivity|]. replace (0 + Z.of_nat (Z.to_nat did)) with did by lia. exact N.
  - destruct (HL did (or_introl eq_refl)) as [B N]. cbn [set_infos g_cfg g_infos g_ranks].
    destruct (nth_error (g_ranks g) rk) as [st|]; try discriminate.
    assert (E : ds_write (e_zlib e) (g_cfg g) (unlink m 0 (g_infos g)) st did sels data = ds_write (e_zlib e) (g_cfg g) (g_infos g) st did sels data).
    { unfold ds_write. destruct sels; [reflexivity|]. rewrite !nth_info by lia. rewrite (unlink_live _ _ _ N). reflexivity. }
    rewrite E. destruct (ds_write (e_zlib e) (g_cfg g) (g_infos g) st did sels data) as [st'| |]; try discriminate. cbn [bind] in *. injection H as <- <-.
    eexists. split; [reflexivity|]. split; reflexivity.
  - injection H as <- <-. eexists. split; [reflexivity|]. split; [|reflexivity]. cbn [s_g].
    change (any_pending (set_infos g (unlink m 0 (g_infos g)))) with (any_pending g). destruct (any_pending g); [|reflexivity].
    rewrite set_infos_flush, flush_infos. reflexivity.
  - cbv zeta in *. change (any_pending (set_infos g (unlink m 0 (g_infos g)))) with (any_pending g).
    set (g1 := if e_coll e && any_pending g then flush_writes doff g else g) in *.
    assert (I1 : g_infos g1 = g_infos g) by (unfold g1; destruct (e_coll e && any_pending g); [apply flush_infos|reflexivity]).
    assert (C1 : g_cfg g1 = g_cfg g) by (unfold g1; destruct (e_coll e && any_pending g); [apply flush_cfg|reflexivity]).
    assert (E1 : (if e_coll e && any_pending g then flush_writes doff (set_infos g (unlink m 0 (g_infos g))) else set_infos g (unlink m 0 (g_infos g)))
                 = set_infos g1 (unlink m 0 (g_infos g1))).
    { rewrite I1. unfold g1. destruct (e_coll e && any_pending g); [apply set_infos_flush|reflexivity]. }
    rewrite E1. clear E1. clearbody g1. change (g_metadirty (set_infos g1 (unlink m 0 (g_infos g1)))) with (g_metadirty g1).
    set (g2 := if g_metadirty g1 then metaflush g1 else g1) in *.
    assert (E2 : (if g_metadirty g1 then metaflush (set_infos g1 (unlink m 0 (g_infos g1))) else set_infos g1 (unlink m 0 (g_infos g1)))
                 = set_infos g2 (unlink m 0 (g_infos g2))).
    { unfold g2. destruct (g_metadirty g1); [|reflexivity]. rewrite set_infos_meta, meta_infos. reflexivity. }
    assert (C2 : g_cfg g2 = g_cfg g1) by (unfold g2; destruct (g_metadirty g1); reflexivity).
    rewrite E2. clear E2. clearbody g2.
    destruct (read_each e g2 (if g_metadirty g1 then None else idx) calls) as [[r i']| |] eqn:E; try discriminate. cbn [bind fst snd] in H. injection H as <- <-.
    apply (read_each_live m) in E; [|congruence|].
    + replace (if g_metadirty g1 then None else option_map (live_index m) idx) with (option_map (live_index m) (if g_metadirty g1 then None else idx)) by (destruct (g_metadirty g1); reflexivity).
      rewrite E. cbn [bind fst snd]. eexists. split; [reflexivity|]. split; reflexivity.
    + intros c Hc. apply HL. cbn [named]. apply in_map. exact Hc.
  - cbv zeta in *. cbn [set_infos g_cfg g_infos]. destruct (reopen_infos (g_cfg g) (g_infos g)) as [l| |] eqn:E; try discriminate. cbn [bind] in H. injection H as <- <-.
    fold (set_infos g (unlink m 0 (g_infos g))).
    rewrite (unlink_reopen m _ _ _ 0 E). cbn [bind]. eexists. split; [reflexivity|]. split; [|reflexivity].
    unfold close_file. rewrite set_infos_flush, set_infos_meta. reflexivity.
Qed.

(** ** Histories *)
Lemma reopen_idx : forall e g i j doff np, step e (mksys g i) (OReopen doff np) = step e (mksys g j) (OReopen doff np).
Proof. reflexivity. Qed.
Lemma in_range_info : forall infos d, Forall (fun x : option dinfo => x <> None) infos -> 0 <= d < Zlen infos -> exists i, info_at infos d = Some (Some i).
Proof.
  intros infos d F B. rewrite <- nth_info by lia. destruct (nth_error infos (Z.to_nat d)) as [[i|]|] eqn:E.
  - eauto.
  - apply nth_error_In in E. rewrite Forall_forall in F. elim (F _ E eq_refl).
  - apply nth_error_None in E. unfold Zlen in B. lia.
Qed.
Lemma drun_live : forall cs e s1 s2 m G s1' outs, has (g_cfg (s_g s1)) CFG_METADATA_SHARE = false -> rel m s1 (d_sys s2) ->
  Forall (fun x => x <> None) (g_infos (s_g s1)) -> (forall d, In d (d_gone s2) \/ In d m <-> In d G) ->
  Forall (fun d => 0 <= d < Zlen (g_infos (s_g s1))) G -> uses_live (Zlen (g_infos (s_g s1))) G cs ->
  run e s1 (kept cs) = Ok (s1', outs) ->
  exists s2', drun e s2 cs = Ok (s2', answers cs outs) /\ exists m', rel m' s1' (d_sys s2') /\
    forall d, In d (d_gone s2') \/ In d m' <-> In d G \/ In (DDelete d) cs.
Proof.
  induction cs as [|c cs IH]; intros e s1 s2 m G s1' outs HS R F HG HB HU H.
  { cbn in H. injection H as <- <-. exists s2. split; [reflexivity|]. exists m. split; [exact R|]. intros d. rewrite HG. cbn. tauto. }
  destruct c as [o|d].
  - cbn [kept run] in H. destruct (step e s1 o) as [[s1a out]| |] eqn:E1; try discriminate. cbn [bind fst snd] in H.
    destruct (run e s1a (kept cs)) as [[s1b outs']| |] eqn:E2; try discriminate. cbn [bind fst snd] in H. injection H as <- <-.
    destruct (step_infos _ _ _ _ _ E1 F) as [F' L].
    assert (HS' : has (g_cfg (s_g s1a)) CFG_METADATA_SHARE = false) by (rewrite (step_cfg _ _ _ _ _ E1); exact HS).
    assert (HL : forall d, In d (named o) -> 0 <= d < Zlen (g_infos (s_g s1)) /\ ~ In d G).
    { destruct o; cbn [uses_live] in HU; try (apply HU). intros d0 []. }
    assert (HU' : uses_live (Zlen (g_infos (s_g s1a))) G cs).
    { rewrite L. destruct o; cbn [uses_live] in HU; try (rewrite Z.add_0_r; apply HU). exact HU. }
    assert (HB' : Forall (fun d => 0 <= d < Zlen (g_infos (s_g s1a))) G).
    { eapply Forall_impl; [|exact HB]. cbv beta. intros d Hd. rewrite L. destruct o; lia. }
    cbn [drun answers]. destruct (match o with OReopen _ _ => true | _ => false end) eqn:EO.
    + destruct o as [| | | | |doff np]; try discriminate. cbn [dstep].
      destruct (step_live (d_gone s2 ++ m) e s1
                 (mksys (set_infos (s_g s1) (unlink (d_gone s2 ++ m) 0 (g_infos (s_g s1)))) (option_map (live_index (d_gone s2 ++ m)) (s_idx s1)))
                 (OReopen doff np) s1a out HS (conj eq_refl eq_refl)) as (s2a & E & R'); [intros x []| |exact E1|].
      { rewrite Forall_forall in HB |- *. intros x Hx. apply HB, HG. apply in_app_or in Hx. exact Hx. }
      destruct R as [Rg Ri]. rewrite Rg. change (g_infos (set_infos (s_g s1) (unlink m 0 (g_infos (s_g s1))))) with (unlink m 0 (g_infos (s_g s1))).
      rewrite unlink_unlink. change (set_infos (set_infos (s_g s1) (unlink m 0 (g_infos (s_g s1)))) (unlink (d_gone s2 ++ m) 0 (g_infos (s_g s1)))) with (set_infos (s_g s1) (unlink (d_gone s2 ++ m) 0 (g_infos (s_g s1)))).
      rewrite (reopen_idx e _ _ (option_map (live_index (d_gone s2 ++ m)) (s_idx s1))), E. cbn [bind fst snd].
      destruct (IH e s1a (mkdsys s2a []) (d_gone s2 ++ m) G s1b outs' HS' R' F') as (s2' & D & m' & R2 & R3); auto.
      { intros d. cbn [d_gone]. rewrite in_app_iff. rewrite <- HG. cbn. tauto. }
      rewrite D. cbn [bind fst snd]. exists s2'. split; [reflexivity|]. exists m'. split; [exact R2|]. intros x. rewrite R3. cbn [In]. intuition congruence.
    + destruct (step_live m e s1 (d_sys s2) o s1a out HS R) as (s2a & E & R'); auto.
      { intros d Hd. destruct (HL d Hd) as [A B]. split; [exact A|]. intros I. apply B, HG. auto. }
      { rewrite Forall_forall in HB |- *. intros x Hx. apply HB, HG. auto. }
      assert (ED : dstep e s2 (DOp o) = Ok (mkdsys s2a (d_gone s2), out)).
      { destruct o; try discriminate; cbn [dstep]; rewrite E; reflexivity. }
      rewrite ED. cbn [bind fst snd].
      destruct (IH e s1a (mkdsys s2a (d_gone s2)) m G s1b outs' HS' R' F' HG HB' HU' E2) as (s2' & D & m' & R2 & R3).
      rewrite D. cbn [bind fst snd]. exists s2'. split; [reflexivity|]. exists m'. split; [exact R2|]. intros x. rewrite R3. cbn [In]. intuition congruence.
  - cbn [kept] in H. cbn [uses_live] in HU. destruct HU as (B & N & HU). cbn [drun answers].
    assert (N1 : ~ In d m) by (intros I; apply N, HG; auto). assert (N2 : ~ In d (d_gone s2)) by (intros I; apply N, HG; auto).
    destruct (in_range_info _ _ F B) as [i Hi].
    assert (ED : dstep e s2 (DDelete d) = Ok (mkdsys (d_sys s2) (d :: d_gone s2), [])).
    { cbn [dstep]. destruct R as [Rg Ri]. rewrite Rg. cbn [set_infos g_infos]. rewrite (unlink_live _ _ _ N1), Hi, (gone_not _ _ N2). reflexivity. }
    rewrite ED. cbn [bind fst snd].
    destruct (IH e s1 (mkdsys (d_sys s2) (d :: d_gone s2)) m (d :: G) s1' outs HS R F) as (s2' & D & m' & R2 & R3); auto.
    { intros x. cbn [d_gone In]. rewrite <- HG. tauto. }
    rewrite D. cbn [bind fst snd]. exists s2'. split; [reflexivity|]. exists m'. split; [exact R2|]. intros x. rewrite R3. cbn [In]. intuition congruence.
Qed.
Lemma others_kept : forall e cfg np f0 cs s outs, has cfg CFG_METADATA_SHARE = false -> uses_live 0 [] cs ->
  run e (init cfg np f0) (kept cs) = Ok (s, outs) ->
  exists s', drun e (dinit cfg np f0) cs = Ok (s', answers cs outs).
Proof.
  intros e cfg np f0 cs s outs HS HU H.
  destruct (drun_live cs e (init cfg np f0) (dinit cfg np f0) [] [] s outs HS) as (s' & D & _); auto.
  - split; reflexivity.
  - constructor.
  - cbn. tauto.
  - exists s'. exact D.
Qed.
