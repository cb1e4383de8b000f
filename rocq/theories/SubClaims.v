(** Files with subfiles: whole histories, and what goes wrong. *)
From Coq Require Import Ascii String.
From Verif Require Import Base BaseProofs Spec MetaModel QueueModel FlushModel IndexModel ReadModel SysModel SysSpec History
  GeomProofs MetaProofs QueueProofs IndexProofs ReadProofs HitProofs MdProofs StoreProofs FlushProofs ReadOneProofs SysProofs HistoryProofs ClaimProofs Examples SysCheck DefSpec DefProofs SizedProofs TameSpec AnyClaims SubModel SubSpec SubProofs.
From Coq Require Import ZifyNat ZifyN.
Open Scope list_scope. Open Scope Z_scope.

(** ** A session with single-subfile reads *)
Lemma session_run : forall e cfg cv ops s tr w, e_coll e = true -> is_sort (e_sort e) -> has (sf_cfg s) CFG_SINGLE_SUBFILE_READ = true ->
  Forall (session_op (length (sf_groups s))) ops -> balanced w ops -> ginv e cfg cv (sf_groups s) tr w ops ->
  exists s' outs, sub_run e s ops = SOk (s', outs) /\ length outs = length ops /\
    forall i doffs calls, nth_error ops i = Some (SRead doffs calls) -> exists bufs, nth_error outs i = Some bufs /\
      read_right (length (sf_groups s)) (fun k => fold_left (tstep true) (own_part k (firstn (S i) ops)) (tr k)) (SRead doffs calls) bufs.
Proof.
  intros e cfg cv ops. induction ops as [|o ops IH]; intros s tr w HE HS HC HF HB HG.
  - exists s, []. split; [reflexivity|]. split; [reflexivity|]. intros [|i] doffs calls H; discriminate.
  - apply Forall_cons_iff in HF. destruct HF as [Ho HF].
    destruct (session_step _ _ _ _ _ _ _ _ HE HS HC Ho HB HG) as (s1 & out & S1 & (L1 & L2 & L3 & L4 & L5) & S3 & S4).
    apply balanced_step in HB. destruct HB as [_ HB].
    destruct (IH s1 _ _ HE HS ltac:(congruence) ltac:(rewrite L1; auto) HB S3) as (s' & outs & R1 & R2 & R3).
    exists s', (out :: outs). cbn [sub_run]. rewrite S1. cbn [sbind fst snd]. rewrite R1. cbn [sbind fst snd]. split; [reflexivity|]. split; [cbn; lia|].
    intros [|i] doffs calls Hi.
    + cbn [nth_error] in Hi. injection Hi as ->. exists out. split; [reflexivity|]. cbn [firstn own_part flat_map]. unfold own_part. cbn [flat_map]. cbn [read_right] in S4 |- *.
      destruct S4 as [S4 S5]. split; auto.
    + cbn [nth_error] in Hi. destruct (R3 i doffs calls Hi) as (bufs & B1 & B2). exists bufs. split; auto. rewrite L1 in B2. cbn [read_right] in B2 |- *.
      destruct B2 as [B2 B3]. split; auto. intros k cs Hk. destruct (B3 k cs Hk) as (b & Hb & Q). exists b. split; auto.
      change (firstn (S (S i)) (o :: ops)) with (o :: firstn (S i) ops). unfold own_part in *. cbn [flat_map]. rewrite fold_left_app. exact Q.
Qed.

Lemma land15 : forall cfg, 0 <= Z.land cfg 15 < 16.
Proof. intros cfg. change 15 with (Z.ones 4). rewrite Z.land_ones by lia. apply Z.mod_pos_bound. lia. Qed.
Lemma land15_has : forall cfg b, Z.land 15 b = b -> has (Z.land cfg 15) b = has cfg b.
Proof. intros cfg b H. unfold has. rewrite <- Z.land_assoc, H. reflexivity. Qed.
Lemma land15_plain : forall cfg, has cfg CFG_METADATA_MERGE = false -> plain_cfg (Z.land cfg 15).
Proof. intros cfg H. split; [apply land15|]. rewrite land15_has; auto. Qed.

Lemma own_group : forall e name cfg nps f0 ops,
  e_coll e = true -> is_sort (e_sort e) -> has cfg CFG_SINGLE_SUBFILE_READ = true ->
  Forall (session_op (length nps)) ops -> balanced (map (fun _ => false) nps) ops ->
  (forall gid np, nth_error nps gid = Some np -> tame e (Z.land cfg 15) np (own_part gid ops)) ->
  exists s outs, sub_run e (sub_init name cfg nps f0) ops = SOk (s, outs) /\ length outs = length ops /\
    forall i doffs calls, nth_error ops i = Some (SRead doffs calls) ->
      exists bufs, nth_error outs i = Some bufs /\ length bufs = length nps /\
        forall gid np cs, nth_error nps gid = Some np -> nth_error calls gid = Some cs ->
          exists bs, nth_error bufs gid = Some bs /\
            Forall2 (correct_read (trace_of true np (own_part gid (firstn (S i) ops)))) cs bs.
Proof.
  intros e name cfg nps f0 ops HE HS HC HF HB HG.
  set (tr := fun k => mktr [] [] (repeat [] (nth k nps 0%nat))).
  assert (HV : exists cv : nat -> conv, forall k, (k < length nps)%nat -> ok_history e (Z.land cfg 15) (cv k) (nth k nps 0%nat) (own_part k ops)).
  { apply (choose_states _ (fun k v => ok_history e (Z.land cfg 15) v (nth k nps 0%nat) (own_part k ops)) _ (mkconv (fun _ _ => false) (fun _ => 1))). intros k Hk. destruct (nth_error_lt_some _ nps k Hk) as [np Hn]. rewrite (nth_error_nth nps k 0%nat Hn). apply tame_ok. auto. }
  destruct HV as [cv HV].
  destruct (session_run e (Z.land cfg 15) cv ops (sub_init name cfg nps f0) tr (map (fun _ => false) nps)) as (s & outs & R1 & R2 & R3); auto.
  - cbn [sub_init sf_groups]. rewrite map_length. exact HF.
  - cbn [sub_init sf_groups]. split; [rewrite !map_length; reflexivity|]. intros k sg Hk. rewrite nth_error_map in Hk.
    destruct (nth_error nps k) as [np|] eqn:En; [|discriminate]. cbn in Hk. injection Hk as <-.
    destruct (HV k (nth_error_lt _ _ _ _ En)) as (_ & O1 & O2 & O3 & _ & O4). rewrite (nth_error_nth nps k 0%nat En) in *.
    assert (QZ : queued (s_g (init (Z.land cfg 15) np f0)) = 0) by (unfold queued, init; cbn [s_g g_ranks]; apply init_meta).
    split; [|split; [split; reflexivity|]].
    + constructor. exists (sinit np), (mkhs 0 (repeat [] np)), 0, [], [], (repeat (mkgr [] []) np). cbn [sg_sys]. split; [apply inv_init; auto|].
      unfold tr. rewrite (nth_error_nth nps k 0%nat En). split; [apply hrel_init|]. split; [exact O4|]. lia.
    + cbn [sg_sys]. rewrite nth_map_false. split; [discriminate|]. intros Q. contradiction.
  - exists s, outs. split; auto. split; auto. intros i doffs calls Hi. destruct (R3 i doffs calls Hi) as (bufs & B1 & B2 & B3). exists bufs. split; auto.
    cbn [sub_init sf_groups] in B2. rewrite map_length in B2. split; auto. intros gid np cs Hn Hc. destruct (B3 gid cs Hc) as (bs & Q1 & Q2). exists bs. split; auto.
    unfold tr in Q2. rewrite (nth_error_nth nps gid 0%nat Hn) in Q2. exact Q2.
Qed.

(** ** Reading all subfiles *)
Definition irel (o : option dinfo) (d : dinfo) : Prop := exists d', o = Some d' /\ di_esize d' = di_esize d /\ di_fill d' = di_fill d.

Lemma Forall2_upd : forall A B (R : A -> B -> Prop) k a b l l', Forall2 R l l' -> R a b -> Forall2 R (upd_nth k a l) (upd_nth k b l').
Proof. intros A B R k a b l l' H HR. revert k. induction H; intros [|k]; cbn; constructor; auto. Qed.

Lemma sels_size : forall d sels, Forall (block_in d) sels -> Z.of_nat (length (sel_coords sels)) = sel_size sels.
Proof.
  induction 1 as [|b sels Hb _ IH]; [reflexivity|]. unfold sel_coords in *. cbn [flat_map]. rewrite app_length, sel_size_cons.
  destruct (fits_in_blk _ _ _ Hb) as (A & B & C & D & _). assert (P : 0 < Zprod (b_count b)) by (apply Zprod_pos; auto).
  unfold coords. rewrite coords_of_length; [unfold block_size in *; rewrite Nat2Z.inj_add, Z2Nat.id by lia; f_equal; exact IH|congruence|]. unfold nonneg. eapply Forall_impl; [|exact D]. cbn. lia.
Qed.

Lemma fill_only_correct : forall g t c buf, Forall2 irel (g_infos g) (t_sets t) -> Forall set_good (t_sets t) ->
  rc_sels c <> [] -> (exists d, dataset_of t (rc_did c) d /\ Forall (block_in d) (rc_sels c)) ->
  fill_only g c = SOk buf -> correct_read (nothing_written t) c buf.
Proof.
  intros g t c buf HI HG Hne (d & [D0 D1] & Hb) H. unfold fill_only in H.
  destruct (rc_sels c) as [|b0 sels0] eqn:Es; [congruence|]. rewrite <- Es in *. clear Hne Es b0 sels0.
  destruct (Forall2_nth_error_r _ _ _ _ _ _ _ HI D1) as (o & Ho & d' & -> & E1 & E2).
  assert (Hinfo : info_at (g_infos g) (rc_did c) = Some (Some d')) by (unfold info_at; destruct (Z.ltb_spec (rc_did c) 0); [lia|exact Ho]).
  rewrite Hinfo in H. injection H as <-.
  rewrite Forall_forall in HG. destruct (HG d (nth_error_In _ _ D1)) as [G1 G2].
  pose proof (sels_size _ _ Hb) as HS. set (n := length (sel_coords (rc_sels c))) in *.
  assert (Hf : fill_ok d') by (unfold fill_ok; rewrite E1, E2; exact G2).
  assert (EB : get (fill_req (g_infos g) (rc_mem c) (mkrreq (rc_did c) (rc_sels c) (rc_buf c) (di_esize d'))) (rc_buf c)
                 (Z.to_nat (rq_bytes (mkrreq (rc_did c) (rc_sels c) (rc_buf c) (di_esize d')))) =
               concat (map (fun j => xdflt d' c j) (zseq (Z.of_nat n)))).
  { unfold rq_bytes. cbn [rq_sels rq_esize]. replace (Z.to_nat (sel_size (rc_sels c) * di_esize d')) with (Z.to_nat (di_esize d') * n)%nat by (rewrite <- HS; nia).
    rewrite get_elems by lia. f_equal. apply map_ext_in. intros j Hj.
    assert (Hjr : 0 <= j < sel_size (rc_sels c)). { rewrite <- HS. unfold zseq in Hj. apply in_map_iff in Hj. destruct Hj as (i & <- & Hi). apply in_seq in Hi. lia. }
    apply nth_ext with (d := 0) (d' := 0).
    - unfold get. rewrite map_length, seq_length. unfold xdflt. rewrite E2. destruct (di_fill d); [unfold Zlen in G2; lia|]. unfold get. rewrite map_length, seq_length. reflexivity.
    - intros i Hi. unfold get in Hi. rewrite map_length, seq_length in Hi. rewrite nth_get by lia.
      rewrite Z2Nat.id by lia. rewrite fill_req_ok with (d := d'); auto; try lia. rewrite Nat2Z.id. reflexivity. }
  rewrite EB. clear EB.
  set (vals := map (fun j => xdflt d' c j) (zseq (Z.of_nat n))).
  assert (HL : length vals = n) by (unfold vals; rewrite map_length, zseq_length; lia).
  assert (Hall : Forall (fun v => Zlen v = di_esize d) vals).
  { apply Forall_forall. intros v Hv. unfold vals in Hv. apply in_map_iff in Hv. destruct Hv as (j & <- & _). unfold xdflt. rewrite E2, E1. destruct (di_fill d); auto. unfold Zlen, get. rewrite map_length, seq_length. lia. }
  exists d. cbn [nothing_written t_sets t_pub]. split; [exact D1|]. rewrite (elems_concat _ _ G1 Hall). split; [exact HL|]. split.
  - assert (E : forall l : list value, Forall (fun v => Zlen v = di_esize d) l -> Zlen (concat l) = di_esize d * Zlen l).
    { clear. induction 1 as [|v l Hv _ IH]; [unfold Zlen; cbn; lia|]. cbn [concat]. rewrite Zlen_app, Zlen_cons, IH, Hv. lia. }
    rewrite (E _ Hall). unfold Zlen. rewrite HL. reflexivity.
  - intros k x Hk. assert (Hlt : (k < n)%nat) by (exact (nth_error_lt _ _ _ _ Hk)). unfold vals. rewrite nth_error_map, zseq_nth_error by lia. cbn [option_map].
    unfold expected. cbn [last_assigned]. unfold xdflt. rewrite E1, E2. reflexivity.
Qed.

(** Descriptions of datasets along a history. *)
Definition described (gid : nat) (s : sfile) (t : trace) : Prop :=
  Forall set_good (t_sets t) /\ forall sg, nth_error (sf_groups s) gid = Some sg -> Forall2 irel (g_infos (s_g (sg_sys sg))) (t_sets t).

Lemma create_info_irel : forall cfg d d', create_info cfg d = Ok d' -> di_esize d' = di_esize d /\ di_fill d' = di_fill d.
Proof. intros cfg d d' H. unfold create_info in H. destruct (has cfg CFG_SEL_ENCODE); [destruct (di_ndim d =? 0)%nat; [discriminate|]|]; injection H as <-; auto. Qed.

Lemma reopen_irel : forall cfg infos sets infos', Forall2 irel infos sets -> reopen_infos cfg infos = Ok infos' -> Forall2 irel infos' sets.
Proof.
  intros cfg infos sets infos' H. revert infos'. induction H as [|o d l l' (d' & -> & E1 & E2) _ IH]; intros infos' HR; cbn [reopen_infos] in HR.
  - injection HR as <-. constructor.
  - destruct (create_info cfg d') as [d2| |] eqn:EC; try discriminate. cbn [bind] in HR. destruct (reopen_infos cfg l) as [r| |]; try discriminate. cbn [bind] in HR.
    injection HR as <-. destruct (create_info_irel _ _ _ EC). constructor; auto. exists d2. split; auto. split; congruence.
Qed.

Lemma lift_ok : forall A (r : res A) a, lift r = SOk a -> r = Ok a.
Proof. intros A [x| |] a H; cbn in H; congruence. Qed.

(** Tables of the groups after each kind of call. *)
Lemma flush_infos : forall all doff sg sg', flush_group all doff sg = SOk sg' -> g_infos (s_g (sg_sys sg')) = g_infos (s_g (sg_sys sg)) /\ g_cfg (s_g (sg_sys sg')) = g_cfg (s_g (sg_sys sg)).
Proof.
  intros all doff sg sg' H. unfold flush_group in H. destruct (group_size _ =? 0); [injection H as <-; split; reflexivity|]. destruct (_ <? _); [discriminate|]. injection H as <-.
  cbn [sg_sys s_g]. unfold flush_writes. destruct (_ =? 0); split; reflexivity.
Qed.
Lemma meta_infos : forall sg sg', metaflush_group sg = SOk sg' -> g_infos (s_g (sg_sys sg')) = g_infos (s_g (sg_sys sg)) /\ g_cfg (s_g (sg_sys sg')) = g_cfg (s_g (sg_sys sg)).
Proof.
  intros sg sg' H. unfold metaflush_group in H. destruct (has_entries _); [destruct (_ <? _)%nat; [discriminate|]|]; injection H as <-; split; reflexivity.
Qed.

Lemma smap_at : forall A B (f : A -> sres B) l bs k b, smap f l = SOk bs -> nth_error bs k = Some b -> exists a, nth_error l k = Some a /\ f a = SOk b.
Proof.
  intros A B f l bs k b H Hk. destruct (smap_ok _ _ _ _ _ H) as [L K]. destruct (nth_error_lt_some _ l k) as [a Ha]. { apply nth_error_lt in Hk. lia. }
  destruct (K k a Ha) as (b' & Hb & E). exists a. split; auto. congruence.
Qed.

Lemma flush_at : forall s doffs s' k sg', sub_flush doffs s = SOk s' -> nth_error (sf_groups s') k = Some sg' ->
  exists sg, nth_error (sf_groups s) k = Some sg /\ g_infos (s_g (sg_sys sg')) = g_infos (s_g (sg_sys sg)) /\ sf_cfg s' = sf_cfg s.
Proof.
  intros s doffs s' k sg' H Hk. unfold sub_flush in H. destruct (smap _ _) as [gs| | |] eqn:E; try discriminate. cbn [sbind] in H. injection H as <-. cbn [with_groups sf_groups] in Hk.
  destruct (smap_at _ _ _ _ _ _ _ E Hk) as (p & Hp & Ef). destruct (combine_from _ _ _ _ _ _ Hp) as [_ H2]. exists (snd p). split; auto. split; [|reflexivity]. eapply flush_infos; eauto.
Qed.
Lemma flush_cfg : forall s doffs s', sub_flush doffs s = SOk s' -> sf_cfg s' = sf_cfg s.
Proof. intros s doffs s' H. unfold sub_flush in H. destruct (smap _ _); try discriminate. cbn [sbind] in H. injection H as <-. reflexivity. Qed.

Lemma metaflush_at : forall gs gs' k sg', sub_metaflush gs = SOk gs' -> nth_error gs' k = Some sg' ->
  exists sg, nth_error gs k = Some sg /\ g_infos (s_g (sg_sys sg')) = g_infos (s_g (sg_sys sg)).
Proof.
  intros gs gs' k sg' H Hk. unfold sub_metaflush in H. destruct (_ && _); [discriminate|]. destruct (smap_at _ _ _ _ _ _ _ H Hk) as (sg & H1 & H2). exists sg. split; auto. eapply meta_infos; eauto.
Qed.

Lemma described_step : forall e gid s t hi o s' out, described gid s t ->
  legal_run true t hi (own gid o) -> sub_step e s o = SOk (s', out) ->
  described gid s' (fold_left (tstep true) (own gid o) t) /\ sf_cfg s' = sf_cfg s /\
  match o with
  | SRead _ calls => has (sf_cfg s) CFG_SINGLE_SUBFILE_READ = false -> forall cs bs, nth_error calls gid = Some cs -> nth_error out gid = Some bs -> Forall2 (correct_read (nothing_written (fold_left (tstep true) (own gid o) t))) cs bs
  | _ => True
  end.
Proof.
  intros e gid s t hi o s' out [D1 D2] HL HS. destruct o as [d|did dims|g rk did sels data|doffs|doffs calls|doffs nps]; cbn [sub_step own] in *.
  - destruct (smap _ _) as [gs| | |] eqn:E; try discriminate. cbn [sbind] in HS. injection HS as <- <-. cbn [fold_left tstep with_groups sf_cfg]. split; auto. split; cbn [t_sets].
    + apply Forall_app. split; auto. constructor; auto. destruct HL as ((L1 & L2 & L3) & _). split; auto.
    + intros sg' Hsg. cbn [with_groups sf_groups] in Hsg. destruct (smap_at _ _ _ _ _ _ _ E Hsg) as (sg & H1 & H2). unfold group_step in H2.
      destruct (step e (sg_sys sg) (OCreate d)) as [p| |] eqn:Es; try discriminate. cbn [lift sbind] in H2. injection H2 as <-. cbn [sg_sys].
      cbn [step] in Es. destruct (create_info _ d) as [d'| |] eqn:EC; try discriminate. cbn [bind] in Es. injection Es as <-. cbn [fst s_g set_infos g_infos].
      apply Forall2_app; [apply D2; auto|]. constructor; [|constructor]. destruct (create_info_irel _ _ _ EC). exists d'. auto.
  - destruct (smap _ _) as [gs| | |] eqn:E; try discriminate. cbn [sbind] in HS. injection HS as <- <-. cbn [fold_left tstep with_groups sf_cfg]. split; auto.
    destruct HL as ((d & [A0 A1] & A2) & _). rewrite A1. split; cbn [t_sets].
    + apply Forall_forall. intros x Hx. rewrite Forall_forall in D1. apply In_nth_error in Hx. destruct Hx as [k Hk]. destruct (Nat.eq_dec (Z.to_nat did) k) as [Q|Q].
      * subst k. rewrite nth_error_upd_nth_eq in Hk by (apply nth_error_lt in A1; auto). injection Hk as <-. apply (D1 d). eapply nth_error_In; eauto.
      * rewrite nth_error_upd_nth_ne in Hk by auto. apply D1. eapply nth_error_In; eauto.
    + intros sg' Hsg. cbn [with_groups sf_groups] in Hsg. destruct (smap_at _ _ _ _ _ _ _ E Hsg) as (sg & H1 & H2). unfold group_step in H2.
      destruct (step e (sg_sys sg) (OSetExtent did dims)) as [p| |] eqn:Es; try discriminate. cbn [lift sbind] in H2. injection H2 as <-. cbn [sg_sys].
      cbn [step] in Es. destruct (info_at _ did) as [[d'|]|] eqn:EI; try discriminate. destruct (set_extent _ d' dims) as [d2 ok] eqn:ES. destruct ok; [|discriminate]. injection Es as <-. cbn [fst s_g set_infos g_infos].
      specialize (D2 sg H1). apply Forall2_upd; auto. exists d2. split; auto. cbn [di_esize di_fill].
      destruct (Forall2_nth_error_r _ _ _ _ _ _ _ D2 A1) as (o & Ho & d3 & -> & E1 & E2). unfold info_at in EI. destruct (Z.ltb_spec did 0); [lia|]. assert (d3 = d') by congruence. subst d3.
      unfold set_extent in ES. destruct (set_dims _ _ _) as [dd okk]. destruct okk; [|discriminate]. injection ES as <-. auto.
  - destruct (nth_error (sf_groups s) g) as [sg|] eqn:Eg; [|discriminate]. destruct (group_step _ _ sg) as [sg2| | |] eqn:E; try discriminate. cbn [sbind] in HS. injection HS as <- <-.
    cbn [with_groups sf_cfg]. split; auto.
    assert (HT : t_sets (fold_left (tstep true) (if (g =? gid)%nat then [OWrite rk did sels data] else []) t) = t_sets t) by (destruct (g =? gid)%nat; reflexivity).
    split; rewrite HT; auto. intros sg' Hsg. cbn [with_groups sf_groups] in Hsg. destruct (Nat.eq_dec g gid) as [Q|Q].
    + subst g. rewrite nth_error_upd_nth_eq in Hsg by (apply nth_error_lt in Eg; auto). injection Hsg as <-. unfold group_step in E.
      destruct (step e (sg_sys sg) (OWrite rk did sels data)) as [p| |] eqn:Es; try discriminate. cbn [lift sbind] in E. injection E as <-. cbn [sg_sys].
      cbn [step] in Es. destruct (nth_error _ rk); [|discriminate]. destruct (ds_write _ _ _ _ _ _ _); try discriminate. cbn [bind] in Es. injection Es as <-. cbn [fst s_g set_ranks g_infos]. apply D2; auto.
    + rewrite nth_error_upd_nth_ne in Hsg by auto. apply D2; auto.
  - destruct (if sub_pending s then sub_flush doffs s else SOk s) as [s1| | |] eqn:E; try discriminate. cbn [sbind] in HS. injection HS as <- <-. cbn [fold_left tstep].
    destruct (sub_pending s).
    + split; [|split; [eapply flush_cfg; eauto|auto]]. split; auto. intros sg' Hsg. destruct (flush_at _ _ _ _ _ E Hsg) as (sg & H1 & H2 & _). rewrite H2. apply D2; auto.
    + injection E as <-. split; auto. split; auto.
  - destruct (if e_coll e && sub_pending s then sub_flush doffs s else SOk s) as [s1| | |] eqn:E; try discriminate. cbn [sbind] in HS.
    assert (K : sf_cfg s1 = sf_cfg s /\ forall sg', nth_error (sf_groups s1) gid = Some sg' -> Forall2 irel (g_infos (s_g (sg_sys sg'))) (t_sets t)).
    { destruct (e_coll e && sub_pending s).
      - split; [eapply flush_cfg; eauto|]. intros sg' Hsg. destruct (flush_at _ _ _ _ _ E Hsg) as (sg & H1 & H2 & _). rewrite H2. apply D2; auto.
      - injection E as <-. auto. }
    destruct K as [K1 K2]. unfold sub_read in HS. rewrite K1 in HS.
    destruct (has (sf_cfg s) CFG_SINGLE_SUBFILE_READ) eqn:HC.
    { destruct (if existsb _ _ then _ else _) as [gs| | |] eqn:EM; try discriminate HS. cbn [sbind] in HS.
      destruct (smap _ _) as [rr| | |] eqn:ER; try discriminate HS. cbn [sbind] in HS. injection HS as <- <-. cbn [fold_left tstep with_groups sf_groups sf_cfg].
      split; [|split; [auto|intros Q; discriminate Q]]. split; auto. cbn [with_groups sf_groups t_sets]. intros sg' Hsg. rewrite nth_error_map in Hsg.
      destruct (nth_error rr gid) as [q|] eqn:Eq; [|discriminate Hsg]. cbn [option_map] in Hsg. injection Hsg as <-.
      destruct (smap_at _ _ _ _ _ _ _ ER Eq) as (p & Hp & Ef). destruct (combine_from _ _ _ _ _ _ Hp) as [Q1 _].
      assert (K3 : Forall2 irel (g_infos (s_g (sg_sys (fst p)))) (t_sets t)).
      { destruct (existsb _ _); [|injection EM as <-; apply K2; auto]. destruct (metaflush_at _ _ _ _ EM Q1) as (sg & H1 & H2). rewrite H2. apply K2; auto. }
      unfold read_own in Ef. destruct (lift _) as [x| | |]; try discriminate Ef. cbn [sbind] in Ef. injection Ef as <-. exact K3. }
    destruct (smap _ (combine (sf_groups s1) calls)) as [bufs| | |] eqn:EB; try discriminate. cbn [sbind] in HS.
    destruct (switch_subfiles s1 (sf_groups s1)) as [gs| | |] eqn:EW; try discriminate. cbn [sbind] in HS. injection HS as <- <-.
    unfold switch_subfiles in EW. destruct (forallb _ _); [|discriminate]. injection EW as <-. cbn [fold_left tstep with_groups sf_groups sf_cfg]. split; [|split; [auto|]].
    + split; auto. cbn [sf_groups t_sets]. intros sg' Hsg. cbn [with_groups sf_groups] in Hsg. rewrite nth_error_map in Hsg. destruct (nth_error (sf_groups s1) gid) as [sg|] eqn:Eg; [|discriminate]. cbn in Hsg. injection Hsg as <-. cbn [sg_sys s_g]. apply K2; auto.
    + intros _ cs bs Hc Hb. destruct (smap_at _ _ _ _ _ _ _ EB Hb) as (p & Hp & Ef). destruct (combine_from _ _ _ _ _ _ Hp) as [Q1 Q2]. assert (snd p = cs) by congruence. subst cs.
      specialize (K2 _ Q1). destruct HL as ((_ & _ & HCs) & _). rewrite (nth_error_nth calls gid [] Hc) in HCs.
      assert (HQ : forall l l', smap (fill_only (s_g (sg_sys (fst p)))) l = SOk l' -> Forall (fun c => rc_sels c <> [] /\ exists d, dataset_of t (rc_did c) d /\ Forall (block_in d) (rc_sels c)) l ->
         Forall2 (correct_read (nothing_written t)) l l').
      { induction l as [|c l IH]; intros l' Hs HF; cbn [smap] in Hs; [injection Hs as <-; constructor|]. apply Forall_cons_iff in HF. destruct HF as [[F1 F2] HF].
        destruct (fill_only _ c) as [b| | |] eqn:Ec; try discriminate. cbn [sbind] in Hs. destruct (smap _ l) as [r| | |]; try discriminate. cbn [sbind] in Hs. injection Hs as <-.
        constructor; auto. eapply fill_only_correct; eauto. }
      exact (HQ _ _ Ef HCs).
  - destruct (sub_flush doffs s) as [s1| | |] eqn:E; try discriminate. cbn [sbind] in HS. destruct (sub_metaflush (sf_groups s1)) as [gs| | |] eqn:EM; try discriminate. cbn [sbind] in HS.
    destruct (smap _ _) as [gs'| | |] eqn:EO; try discriminate. cbn [sbind] in HS. injection HS as <- <-. cbn [fold_left tstep with_groups sf_groups sf_cfg]. split; auto. split; auto. cbn [sf_groups t_sets].
    intros sg' Hsg. destruct (smap_at _ _ _ _ _ _ _ EO Hsg) as (p & Hp & Ef). destruct (combine_from _ _ _ _ _ _ Hp) as [Q1 Q2].
    assert (Q3 : fst p = gid). { rewrite nth_error_seq in Q1 || idtac. clear - Q1. assert (L : (gid < length (seq 0 (length nps)))%nat) by (apply nth_error_Some; congruence). apply (nth_error_nth _ _ 0%nat) in Q1. rewrite seq_length in L. rewrite seq_nth in Q1 by auto. lia. }
    rewrite Q3 in Ef. unfold open_group in Ef. destruct (found _ gid); [|discriminate]. destruct (nth_error gs gid) as [sg1|] eqn:Eg; [|discriminate].
    destruct (reopen_infos _ _) as [infos| |] eqn:ER; try discriminate. cbn [lift sbind] in Ef. injection Ef as <-. cbn [sg_sys s_g g_infos].
    destruct (metaflush_at _ _ _ _ EM Eg) as (sg0 & H1 & H2). destruct (flush_at _ _ _ _ _ E H1) as (sg & H3 & H4 & _). eapply reopen_irel; [|exact ER]. rewrite H2, H4. apply D2; auto.
Qed.

Lemma described_run : forall e gid ops s t hi s' outs, has (sf_cfg s) CFG_SINGLE_SUBFILE_READ = false -> described gid s t ->
  legal_run true t hi (own_part gid ops) -> sub_run e s ops = SOk (s', outs) ->
  length outs = length ops /\ forall i doffs calls bufs cs bs, nth_error ops i = Some (SRead doffs calls) -> nth_error outs i = Some bufs ->
    nth_error calls gid = Some cs -> nth_error bufs gid = Some bs ->
    Forall2 (correct_read (nothing_written (fold_left (tstep true) (own_part gid (firstn (S i) ops)) t))) cs bs.
Proof.
  intros e gid ops. induction ops as [|o ops IH]; intros s t hi s' outs HC HD HL HR; cbn [sub_run] in HR.
  - injection HR as <- <-. split; auto. intros [|i] doffs calls bufs cs bs H; discriminate.
  - destruct (sub_step e s o) as [p| | |] eqn:E; try discriminate. cbn [sbind] in HR. destruct (sub_run e (fst p) ops) as [q| | |] eqn:E2; try discriminate. cbn [sbind] in HR. injection HR as <- <-.
    destruct p as [s1 out]. destruct q as [s2 outs]. cbn [fst snd] in *. unfold own_part in HL. cbn [flat_map] in HL.
    assert (HL2 : legal_run true t hi (own gid o) /\ exists hi', legal_run true (fold_left (tstep true) (own gid o) t) hi' (own_part gid ops)).
    { destruct (own gid o) as [|a [|b l]] eqn:Eo.
      - split; [exact Logic.I|]. exists hi. exact HL.
      - cbn [app legal_run] in HL. destruct HL as [L1 L2]. split; [split; [exact L1|exact Logic.I]|]. eexists. exact L2.
      - exfalso. destruct o; cbn in Eo; try discriminate. destruct (gid0 =? gid)%nat; discriminate. }
    destruct HL2 as (L1 & hi' & L2). destruct (described_step _ _ _ _ _ _ _ _ HD L1 E) as (D1 & D2 & D3).
    destruct (IH s1 _ hi' _ _ ltac:(congruence) D1 L2 E2) as [I1 I2]. split; [cbn; lia|].
    intros [|i] doffs calls bufs cs bs Hi Ho Hc Hb.
    + cbn [nth_error] in Hi, Ho. injection Hi as ->. injection Ho as ->. cbn [firstn]. unfold own_part. cbn [flat_map]. rewrite app_nil_r. apply D3; auto.
    + cbn [nth_error] in Hi, Ho. change (firstn (S (S i)) (o :: ops)) with (o :: firstn (S i) ops). unfold own_part. cbn [flat_map]. rewrite fold_left_app. eapply I2; eauto.
Qed.

Lemma reads_nothing : forall e name cfg nps f0 ops s outs, has cfg CFG_SINGLE_SUBFILE_READ = false ->
  sub_run e (sub_init name cfg nps f0) ops = SOk (s, outs) ->
  forall gid np, nth_error nps gid = Some np -> legal_history true np (own_part gid ops) ->
  forall i doffs calls bufs cs bs, nth_error ops i = Some (SRead doffs calls) -> nth_error outs i = Some bufs ->
    nth_error calls gid = Some cs -> nth_error bufs gid = Some bs ->
    Forall2 (correct_read (nothing_written (trace_of true np (own_part gid (firstn (S i) ops))))) cs bs.
Proof.
  intros e name cfg nps f0 ops s outs HC HR gid np Hn (_ & _ & _ & HL). destruct (described_run e gid ops (sub_init name cfg nps f0) (mktr [] [] (repeat [] np)) 0 s outs HC) as [_ H]; auto.
  split; [constructor|]. intros sg Hsg. cbn [sub_init sf_groups] in Hsg. rewrite nth_error_map, Hn in Hsg. cbn in Hsg. injection Hsg as <-. constructor.
Qed.

(** ** Witnesses *)
Definition cfg_sub : Z := 512 + 10.
Definition cfg_sub1 : Z := 1024 + 512 + 10.
Definition cfg_plain1 : Z := 1024 + 512.
Definition dS : dinfo := mkdinfo 1 [4] [4] [] (Some [9]).
Definition rd (buf : Z) : rcall := mkrcall 0 [B [0] [4]] buf junk.

(** Two groups; both write, read, write again, flush, read. *)
Definition h_sub : list sop :=
  [ SCreate dS; SCreate dA; SWrite 0 0 0 [B [0] [2]] [1;2]; SWrite 1 1 0 [B [1] [3]] [5;6;7];
    SFlush [100; 200]; SWrite 1 0 1 [B [0;0] [2;3]; B [1;1] [2;2]] (by_ 10 20); SRead [300; 400] [[rd 0]; [rd 0; mkrcall 1 [B [0;0] [4;6]] 0 junk]];
    SRead [500; 600] [[rd 0]; [rd 0]];
    SWrite 0 0 0 [B [3] [1]] [4]; SWrite 1 1 0 [B [0] [1]] [8]; SFlush [1000; 1000]; SRead [2000; 2000] [[rd 0]; [rd 0]] ].

Lemma h_sub_legal : forall gid np, nth_error [1%nat; 2%nat] gid = Some np ->
  legal_history true np (own_part gid h_sub) /\ sized_history true np (own_part gid h_sub) /\ default_history np (own_part gid h_sub).
Proof.
  intros [|[|gid]] np H; cbn in H; try discriminate; try (destruct gid; discriminate); injection H as <-.
  - split; [apply legal_b_ok; vm_compute; reflexivity|]. split; [apply sized_b_ok; vm_compute; reflexivity|]. apply default_b_ok. vm_compute. reflexivity.
  - split; [apply legal_b_ok; vm_compute; reflexivity|]. split; [apply sized_b_ok; vm_compute; reflexivity|]. apply default_b_ok. vm_compute. reflexivity.
Qed.
Lemma h_sub_meets : has cfg_sub1 CFG_SINGLE_SUBFILE_READ = true /\ has cfg_plain1 CFG_SINGLE_SUBFILE_READ = true /\
  Forall (session_op 2) h_sub /\ balanced [false; false] h_sub /\
  (forall gid np, nth_error [1%nat; 2%nat] gid = Some np -> tame e_dflt (Z.land cfg_sub1 15) np (own_part gid h_sub)) /\
  (forall gid np, nth_error [1%nat; 2%nat] gid = Some np -> tame e_arr (Z.land cfg_plain1 15) np (own_part gid h_sub)).
Proof.
  split; [reflexivity|]. split; [reflexivity|]. split; [unfold h_sub; repeat (constructor; [cbn; lia||(split; reflexivity)||exact Logic.I|]); constructor|].
  split. { cbn. repeat (split; [first [left; repeat constructor; fail|right; repeat constructor; fail]|]); exact Logic.I. }
  split; intros gid np H; destruct (h_sub_legal gid np H) as (H1 & H2 & H3); (split; [reflexivity|]; split; [left; reflexivity|]; split; [exact isort_is_sort|]; split; [apply land15_plain; reflexivity|]; split; [exact H1|]; split; [exact H2|]).
  - right. left. split; [reflexivity|exact H3].
  - left. split; reflexivity.
Qed.

Definition outs_of {A} (r : sres (A * list (list (list (list Z))))) : option (list (list (list (list Z)))) :=
  match r with SOk p => Some (snd p) | _ => None end.
Definition verdict {A} (r : sres A) : nat := match r with SOk _ => 0 | SFail => 1 | SUB => 2 | SHang => 3 end%nat.

Definition h_lost : list sop := [SCreate dS; SWrite 0 0 0 [B [0] [2]] [1;2]; SRead [100] [[rd 0]]].
Definition h_again : list sop := h_lost ++ [SWrite 0 0 0 [B [2] [1]] [3]; SFlush [200]].
Definition h_back : list sop := [SCreate dS; SWrite 0 0 0 [B [0] [2]] [1;2]; SReopen [100] [1%nat]; SRead [200] [[rd 0]]].
Definition h_uneven : list sop := [SCreate dS; SWrite 0 0 0 [B [0] [2]] [1;2]; SRead [100; 100] [[rd 0]; [rd 0]]].

Lemma not_correct : forall t c buf d k x v, nth_error (t_sets t) (Z.to_nat (rc_did c)) = Some d -> nth_error (sel_coords (rc_sels c)) k = Some x ->
  nth_error (elems (di_esize d) buf) k = Some v -> v <> expected (t_pub t) d c k x -> ~ correct_read t c buf.
Proof. intros t c buf d k x v H1 H2 H3 H4 (d' & Q1 & Q2 & Q3 & Q4). assert (d' = d) by congruence. subst d'. rewrite (Q4 k x H2) in H3. congruence. Qed.

Lemma lost_outs : outs_of (sub_run e_dflt (sub_init "out.h5" cfg_sub [1%nat] f_zero) h_lost) = Some [[]; []; [[[9;9;9;9]]]].
Proof. vm_compute. reflexivity. Qed.
Lemma back_outs : outs_of (sub_run e_dflt (sub_init "out.h5" cfg_sub1 [1%nat] f_zero) h_back) = Some [[]; []; []; [[[9;9;9;9]]]].
Proof. vm_compute. reflexivity. Qed.

Lemma outs_of_ok : forall A (r : sres (A * list (list (list (list Z))))) o, outs_of r = Some o -> exists s, r = SOk (s, o).
Proof. intros A [[s o']| | |] o H; try discriminate. injection H as <-. eauto. Qed.

Lemma lost_refuted : exists ops doffs calls s outs bufs,
  Forall (session_op 1) ops /\ legal_history true 1 (own_part 0 (ops ++ [SRead doffs calls])) /\
  sub_run e_dflt (sub_init "out.h5" cfg_sub [1%nat] f_zero) (ops ++ [SRead doffs calls]) = SOk (s, outs ++ [bufs]) /\
  ~ Forall2 (Forall2 (correct_read (trace_of true 1 (own_part 0 (ops ++ [SRead doffs calls]))))) calls bufs.
Proof.
  exists [SCreate dS; SWrite 0 0 0 [B [0] [2]] [1;2]], [100], [[rd 0]]. destruct (outs_of_ok _ _ _ lost_outs) as [s Hs].
  exists s, [[]; []], [[[9;9;9;9]]]. split; [repeat constructor|]. split; [legal|]. split; [exact Hs|].
  intros H. inversion H as [|? ? ? ? H1 _]. subst. clear H. inversion H1 as [|? ? ? ? H2 _]. subst. clear H1. revert H2.
  eapply (not_correct _ _ _ dS 0%nat [0] [9]); [reflexivity|reflexivity|reflexivity|vm_compute; discriminate].
Qed.

Lemma back_refuted : exists ops doffs calls s outs bufs,
  legal_history true 1 (own_part 0 (ops ++ [SRead doffs calls])) /\
  sub_run e_dflt (sub_init "out.h5" cfg_sub1 [1%nat] f_zero) (ops ++ [SRead doffs calls]) = SOk (s, outs ++ [bufs]) /\
  ~ Forall2 (Forall2 (correct_read (trace_of true 1 (own_part 0 (ops ++ [SRead doffs calls]))))) calls bufs.
Proof.
  exists [SCreate dS; SWrite 0 0 0 [B [0] [2]] [1;2]; SReopen [100] [1%nat]], [200], [[rd 0]]. destruct (outs_of_ok _ _ _ back_outs) as [s Hs].
  exists s, [[]; []; []], [[[9;9;9;9]]]. split; [legal|]. split; [exact Hs|].
  intros H. inversion H as [|? ? ? ? H1 _]. subst. clear H. inversion H1 as [|? ? ? ? H2 _]. subst. clear H1. revert H2.
  eapply (not_correct _ _ _ dS 0%nat [0] [9]); [reflexivity|reflexivity|reflexivity|vm_compute; discriminate].
Qed.

Lemma verdict_fail : forall A (r : sres A), verdict r = 1%nat -> r = SFail.
Proof. intros A [?| | |] H; try discriminate. reflexivity. Qed.
Lemma verdict_hang : forall A (r : sres A), verdict r = 3%nat -> r = SHang.
Proof. intros A [?| | |] H; try discriminate. reflexivity. Qed.

Lemma again_refuted : exists ops, Forall (session_op 1) ops /\ legal_history true 1 (own_part 0 ops) /\
  sub_run e_dflt (sub_init "out.h5" cfg_sub [1%nat] f_zero) ops = SFail.
Proof. exists h_again. split; [repeat constructor|]. split; [legal|]. apply verdict_fail. vm_compute. reflexivity. Qed.

Lemma uneven_refuted : exists ops, Forall (session_op 2) ops /\ (forall gid, (gid < 2)%nat -> legal_history true 1 (own_part gid ops)) /\
  sub_run e_dflt (sub_init "out.h5" cfg_sub1 [1%nat; 1%nat] f_zero) ops = SHang.
Proof.
  exists h_uneven. split; [repeat constructor|]. split.
  - intros [|[|gid]] H; [legal|legal|lia].
  - apply verdict_hang. vm_compute. reflexivity.
Qed.

(** ** Names *)
Lemma has_slash_app : forall a b, has_slash (append a b) = has_slash a || has_slash b.
Proof. induction a as [|c a IH]; intros b; [reflexivity|]. cbn [append has_slash]. rewrite IH. apply Bool.orb_assoc. Qed.
Lemma basename_no_slash : forall s, has_slash (basename s) = false.
Proof. induction s as [|c s IH]; [reflexivity|]. cbn [basename]. destruct (has_slash (String c s)) eqn:E; auto. Qed.
Lemma basename_plain : forall s, has_slash s = false -> basename s = s.
Proof. intros [|c s] H; [reflexivity|]. cbn [basename]. rewrite H. reflexivity. Qed.

Lemma digit_no_slash : forall d, (d < 10)%nat -> (ascii_of_nat (48 + d) =? slash)%char = false.
Proof. intros d H. do 10 (destruct d as [|d]; [reflexivity|]). lia. Qed.
Lemma digits_no_slash : forall f n, has_slash (digits f n) = false.
Proof.
  induction f as [|f IH]; intros n; [reflexivity|]. cbn [digits]. pose proof (Nat.mod_upper_bound n 10 ltac:(lia)) as Hm.
  destruct (n <? 10)%nat; [|rewrite has_slash_app, IH]; cbn [has_slash orb]; rewrite digit_no_slash by auto; reflexivity.
Qed.

Lemma append_inj_l : forall a b c, append a b = append a c -> b = c.
Proof. induction a as [|x a IH]; intros b c H; [exact H|]. cbn in H. injection H as H. auto. Qed.

Definition dval (c : ascii) : nat := (nat_of_ascii c - 48)%nat.
Fixpoint sval (acc : nat) (s : string) : nat := match s with EmptyString => acc | String c r => sval (10 * acc + dval c) r end.
Lemma sval_app : forall a b acc, sval acc (append a b) = sval (sval acc a) b.
Proof. induction a as [|c a IH]; intros b acc; [reflexivity|]. cbn [append sval]. apply IH. Qed.
Lemma dval_digit : forall d, (d < 10)%nat -> dval (ascii_of_nat (48 + d)) = d.
Proof. intros d H. do 10 (destruct d as [|d]; [reflexivity|]). lia. Qed.
Lemma sval_digits : forall f n, (n < f)%nat -> sval 0 (digits f n) = n.
Proof.
  induction f as [|f IH]; intros n H; [lia|]. cbn [digits]. pose proof (Nat.mod_upper_bound n 10 ltac:(lia)) as Hm. pose proof (Nat.div_mod n 10 ltac:(lia)) as Hd.
  destruct (Nat.ltb_spec n 10).
  - cbn [sval]. rewrite dval_digit by auto. rewrite Nat.mod_small in * by auto. lia.
  - rewrite sval_app, IH.
    + cbn [sval]. rewrite dval_digit by auto. lia.
    + assert (n / 10 < n)%nat by (apply Nat.div_lt; lia). lia.
Qed.
Lemma number_inj : forall i j, number i = number j -> i = j.
Proof. intros i j H. apply (f_equal (sval 0)) in H. unfold number in H. rewrite !sval_digits in H by lia. exact H. Qed.

Lemma paths_inj : forall name i j, create_path name i = create_path name j -> i = j.
Proof. intros name i j H. unfold create_path in H. repeat apply append_inj_l in H. apply number_inj. exact H. Qed.
Lemma paths_same : forall name gid, has_slash name = false -> open_path name gid = create_path name gid.
Proof. intros name gid H. unfold open_path, create_path. rewrite (basename_plain _ H). reflexivity. Qed.
Lemma paths_differ : forall name i j, has_slash name = true -> open_path name i <> create_path name j.
Proof.
  intros name i j H E. unfold open_path, create_path in E. do 2 apply append_inj_l in E. apply (f_equal has_slash) in E.
  rewrite !has_slash_app in E. rewrite H, basename_no_slash in E. unfold number in E. rewrite !digits_no_slash in E. cbn in E. discriminate.
Qed.

Lemma not_found : forall s (nps : list nat) gid, sf_created s = map (create_path (sf_name s)) (seq 0 (length nps)) -> has_slash (sf_name s) = true -> found s gid = false.
Proof.
  intros s nps gid H1 H2. unfold found. rewrite H1. apply not_true_is_false. intros Q. apply existsb_exists in Q. destruct Q as (p & Q1 & Q2).
  apply in_map_iff in Q1. destruct Q1 as (j & <- & _). apply String.eqb_eq in Q2. eapply paths_differ; eauto.
Qed.

Lemma sub_flush_same : forall s doffs s', length doffs = length (sf_groups s) -> sub_flush doffs s = SOk s' -> same_file s s'.
Proof.
  intros s doffs s' HL H. unfold sub_flush in H. destruct (smap _ _) as [gs| | |] eqn:E; try discriminate. cbn [sbind] in H. injection H as <-.
  destruct (smap_ok _ _ _ _ _ E) as [L _]. rewrite combine_length in L. repeat split; cbn [with_groups sf_groups]. lia.
Qed.
Lemma same_refl : forall s, same_file s s. Proof. intros s. repeat split. Qed.
Lemma same_trans : forall a b c, same_file a b -> same_file b c -> same_file a c.
Proof. intros a b c (A1 & A2 & A3 & A4 & A5) (B1 & B2 & B3 & B4 & B5). repeat split; congruence. Qed.
Lemma maybe_flush_same : forall s doffs s' (b : bool), length doffs = length (sf_groups s) -> (if b then sub_flush doffs s else SOk s) = SOk s' -> same_file s s'.
Proof. intros s doffs s' [] HL H; [eapply sub_flush_same; eauto|]. injection H as <-. apply same_refl. Qed.

Lemma step_same : forall e s o s' out, session_op (length (sf_groups s)) o -> sub_step e s o = SOk (s', out) -> same_file s s'.
Proof.
  intros e s o s' out Ho H. destruct o as [d|did dims|g rk did sels data|doffs|doffs calls|doffs nps]; cbn [sub_step session_op] in *.
  - destruct (smap _ _) as [gs| | |] eqn:E; try discriminate. cbn [sbind] in H. injection H as <- <-. destruct (smap_ok _ _ _ _ _ E) as [L _]. repeat split; cbn [with_groups sf_groups]. lia.
  - destruct (smap _ _) as [gs| | |] eqn:E; try discriminate. cbn [sbind] in H. injection H as <- <-. destruct (smap_ok _ _ _ _ _ E) as [L _]. repeat split; cbn [with_groups sf_groups]. lia.
  - destruct (nth_error (sf_groups s) g); [|discriminate]. destruct (group_step _ _ _); try discriminate. cbn [sbind] in H. injection H as <- <-. repeat split; cbn [with_groups sf_groups]. apply upd_nth_length'.
  - destruct (if sub_pending s then sub_flush doffs s else SOk s) as [s1| | |] eqn:E; try discriminate. cbn [sbind] in H. injection H as <- <-. eapply maybe_flush_same; eauto.
  - destruct (if e_coll e && sub_pending s then sub_flush doffs s else SOk s) as [s1| | |] eqn:E; try discriminate. cbn [sbind] in H. destruct Ho as [Ho1 Ho2].
    apply maybe_flush_same in E; auto. eapply same_trans; [exact E|]. unfold sub_read in H. destruct (has (sf_cfg s1) CFG_SINGLE_SUBFILE_READ).
    + destruct (if existsb _ (sf_groups s1) then sub_metaflush (sf_groups s1) else SOk (sf_groups s1)) as [gs| | |] eqn:EM; try discriminate. cbn [sbind] in H.
      destruct (smap _ _) as [r| | |] eqn:ER; try discriminate. cbn [sbind] in H. injection H as <- <-. destruct (smap_ok _ _ _ _ _ ER) as [L _]. rewrite combine_length in L.
      assert (LG : length gs = length (sf_groups s1)).
      { destruct (existsb _ (sf_groups s1)); [|injection EM as <-; auto]. unfold sub_metaflush in EM. destruct (_ && _); [discriminate|]. destruct (smap_ok _ _ _ _ _ EM). auto. }
      destruct E as (E & _). repeat split; cbn [with_groups sf_groups]. rewrite map_length. lia.
    + destruct (smap _ _) as [bufs| | |]; try discriminate. cbn [sbind] in H. destruct (switch_subfiles s1 (sf_groups s1)) as [gs| | |] eqn:EW; try discriminate. cbn [sbind] in H. injection H as <- <-.
      unfold switch_subfiles in EW. destruct (forallb _ _); [|discriminate]. injection EW as <-. repeat split; cbn [with_groups sf_groups]. apply map_length.
  - contradiction.
Qed.

Lemma run_same : forall e ops s s' outs, Forall (session_op (length (sf_groups s))) ops -> sub_run e s ops = SOk (s', outs) -> same_file s s'.
Proof.
  intros e ops. induction ops as [|o ops IH]; intros s s' outs HF H; cbn [sub_run] in H; [injection H as <- <-; apply same_refl|].
  apply Forall_cons_iff in HF. destruct HF as [Ho HF]. destruct (sub_step e s o) as [[s1 out]| | |] eqn:E; try discriminate. cbn [sbind fst] in H.
  destruct (sub_run e s1 ops) as [[s2 outs2]| | |] eqn:E2; try discriminate. cbn [sbind fst snd] in H. injection H as <- <-.
  pose proof (step_same _ _ _ _ _ Ho E) as S1. eapply same_trans; [exact S1|]. eapply IH; eauto. destruct S1 as (-> & _). exact HF.
Qed.

Lemma directory_fails : forall e name cfg nps f0 ops s outs, has_slash name = true -> nps <> [] -> Forall (session_op (length nps)) ops ->
  sub_run e (sub_init name cfg nps f0) ops = SOk (s, outs) ->
  (has cfg CFG_SINGLE_SUBFILE_READ = false -> forall doffs calls s' bufs, length doffs = length nps -> sub_step e s (SRead doffs calls) <> SOk (s', bufs)) /\
  (forall doffs nps' s' bufs, nps' <> [] -> sub_step e s (SReopen doffs nps') <> SOk (s', bufs)).
Proof.
  intros e name cfg nps f0 ops s outs HN HP HF HR.
  assert (S : same_file (sub_init name cfg nps f0) s). { eapply run_same; [|exact HR]. cbn [sub_init sf_groups]. rewrite map_length. exact HF. }
  assert (NF : forall s1 gid, sf_name s1 = sf_name s -> sf_created s1 = sf_created s -> found s1 gid = false).
  { intros s1 gid E1 E2. destruct S as (S1 & S2 & S3 & S4 & S5). apply (not_found s1 nps); [rewrite E2, E1, S5, S2; reflexivity|rewrite E1, S2; exact HN]. }
  assert (LG : length (sf_groups s) = length nps) by (destruct S as (S1 & _); rewrite S1; cbn [sub_init sf_groups]; apply map_length).
  split.
  - intros HC doffs calls s' bufs HL H. cbn [sub_step] in H. destruct (if e_coll e && sub_pending s then sub_flush doffs s else SOk s) as [s1| | |] eqn:E; try discriminate. cbn [sbind] in H.
    apply maybe_flush_same in E; [|congruence]. destruct E as (E1 & E2 & E3 & E4 & E5). unfold sub_read in H. rewrite E3 in H. destruct S as (S1 & S2 & S3 & S4 & S5). rewrite S3 in H. cbn [sub_init sf_cfg] in H. rewrite HC in H.
    destruct (smap _ _); try discriminate. cbn [sbind] in H. unfold switch_subfiles in H.
    destruct (sf_groups s1) as [|g gs] eqn:EG; [cbn in E1; destruct nps; [congruence|cbn in LG; lia]|]. cbn [length seq forallb] in H. rewrite NF in H by congruence. discriminate.
  - intros doffs nps' s' bufs Hn H. cbn [sub_step] in H. destruct (sub_flush doffs s) as [s1| | |]; try discriminate. cbn [sbind] in H. destruct (sub_metaflush _) as [gs| | |]; try discriminate. cbn [sbind] in H.
    destruct nps' as [|n nps']; [congruence|]. cbn [length seq combine smap] in H. unfold open_group in H at 1. rewrite NF in H by reflexivity. discriminate.
Qed.
