(** Lemmas behind P_Real. *)
From Verif Require Import Base BaseProofs Spec MetaModel QueueModel FlushModel IndexModel ReadModel SysModel
  SysSpec AnySpec AnyProofs RealModel RealSpec.
From Coq Require Import ZifyNat ZifyN.

Lemma coll_read : forall e b g cs idx, read_each (with_coll e b) g idx cs = read_each e g idx cs.
Proof.
  intros e b g cs. induction cs as [|c cs IH]; intros idx; cbn [read_each]; auto.
  change (read_one (with_coll e b) g idx c) with (read_one e g idx c). destruct (read_one e g idx c); cbn [bind]; auto. rewrite IH. reflexivity.
Qed.
Lemma coll_step : forall e b c s o, b = c \/ any_pending (s_g s) = false \/ (match o with ORead _ _ => False | _ => True end) ->
  step (with_coll e b) s o = step (with_coll e c) s o.
Proof.
  intros e b c s o [->|[H|H]]; auto.
  - destruct o; cbn [step]; auto. rewrite H, !andb_false_r, !coll_read. reflexivity.
  - destruct o; cbn [step]; auto. contradiction.
Qed.

Lemma flush_none : forall doff g, Forall (tidy (g_metadirty g)) (g_ranks g) -> any_pending g = true -> any_pending (flush_writes doff g) = false.
Proof.
  intros doff g T P. unfold flush_writes. destruct (sizes_zero _ _ T) as (_ & Z0). destruct (_ =? 0) eqn:E.
  - apply Z.eqb_eq in E. apply Z0 in E. unfold any_pending in P. congruence.
  - unfold any_pending. cbn [g_ranks]. generalize (map (fun o => o + doff) (exscan 0 (map (fun st => local_size (unflushed st)) (g_ranks g)))).
    generalize (g_ranks g). induction l as [|st l IH]; intros [|z zs]; cbn [combine map existsb]; auto. rewrite IH, orb_false_r. unfold num_pending, rank_flushed. cbn [k_wreqs k_nflushed]. rewrite Nat.sub_diag. reflexivity.
Qed.
Lemma meta_none : forall g, any_pending (metaflush g) = false.
Proof. intros g. unfold any_pending, metaflush. cbn [g_ranks]. induction (g_ranks g); cbn; auto. Qed.
Lemma repeat_none : forall n, existsb (fun st => negb (num_pending st =? 0)%nat) (repeat rank0 n) = false.
Proof. induction n; cbn; auto. Qed.
Lemma upd_same : forall A (l : list A) n a, nth_error l n = Some a -> upd_nth n a l = l.
Proof. induction l as [|x l IH]; intros [|n] a H; cbn in *; try discriminate; auto; [congruence|]. f_equal. auto. Qed.
Lemma upd_len : forall A (l : list A) n a, length (upd_nth n a l) = length l.
Proof. induction l as [|x l IH]; intros [|n] a; cbn; auto. Qed.

Definition procs (np : nat) (o : op) : nat := match o with OReopen _ np' => np' | _ => np end.
Lemma flush_ranks : forall doff g, length (g_ranks (flush_writes doff g)) = length (g_ranks g).
Proof.
  intros doff g. unfold flush_writes. destruct (_ =? 0); cbn [g_ranks]; rewrite map_length; auto. rewrite combine_length, map_length.
  assert (L : forall l a, length (exscan a l) = length l) by (induction l; intros; cbn; auto). rewrite L, map_length. lia.
Qed.
Lemma step_procs : forall e s o s' out, step e s o = Ok (s', out) -> length (g_ranks (s_g s')) = procs (length (g_ranks (s_g s))) o.
Proof.
  intros e s o s' out H. destruct o; cbn [step procs] in *.
  - destruct (create_info _ _); cbn [bind] in H; try discriminate. injection H as <- <-. reflexivity.
  - destruct (info_at _ _) as [[d|]|]; try discriminate. destruct (set_extent _ _ _) as [? []]; try discriminate. injection H as <- <-. reflexivity.
  - destruct (nth_error (g_ranks (s_g s)) _); try discriminate. destruct (ds_write _ _ _ _ _ _ _); cbn [bind] in H; try discriminate. injection H as <- <-. cbn. apply upd_len.
  - injection H as <- <-. cbn [s_g]. destruct (any_pending _); auto using flush_ranks.
  - destruct (read_each _ _ _ _); cbn [bind] in H; try discriminate. injection H as <- <-. cbn [s_g].
    destruct (_ && _); destruct (g_metadirty _); cbn [metaflush g_ranks]; rewrite ?map_length, ?flush_ranks; auto.
  - destruct (reopen_infos _ _); cbn [bind] in H; try discriminate. injection H as <- <-. cbn. apply repeat_length.
Qed.

(** What is pending after a call. *)
Definition pends (np : nat) (pend : bool) (o : op) : bool :=
  match o with
  | OWrite _ _ sels _ => pend || match sels with [] => false | _ => true end
  | OFlush _ | OReopen _ _ | ORead _ _ => false
  | _ => pend
  end.
Lemma step_pends : forall e s o s' out np pend, Forall (tidy (g_metadirty (s_g s))) (g_ranks (s_g s)) ->
  (pend = false -> any_pending (s_g s) = false) ->
  (match o with ORead _ _ => e_coll e = true \/ any_pending (s_g s) = false | _ => True end) ->
  step e s o = Ok (s', out) -> pends np pend o = false -> any_pending (s_g s') = false.
Proof.
  intros e s o s' out np pend T P Rd H Q. destruct o as [d|did dims|rk did sels data|doff|doff calls|doff np']; cbn [step pends] in *.
  - destruct (create_info _ _); cbn [bind] in H; try discriminate. injection H as <- <-. auto.
  - destruct (info_at _ _) as [[d|]|]; try discriminate. destruct (set_extent _ _ _) as [? []]; try discriminate. injection H as <- <-. auto.
  - destruct (nth_error (g_ranks (s_g s)) rk) as [st|] eqn:N; try discriminate. destruct sels as [|b bs]; [|destruct pend; discriminate]. rewrite orb_false_r in Q. cbn [ds_write bind] in H. injection H as <- <-. cbn [s_g]. rewrite upd_same by exact N.
    exact (P Q).
  - injection H as <- <-. cbn [s_g]. destruct (any_pending (s_g s)) eqn:A; [apply flush_none; auto|exact A].
  - destruct (read_each _ _ _ _); cbn [bind] in H; try discriminate. injection H as <- <-. cbn [s_g]. match goal with |- any_pending (if ?b then _ else _) = _ => destruct b; [apply meta_none|] end.
    destruct (any_pending (s_g s)) eqn:A; [|rewrite andb_false_r; exact A]. destruct Rd as [->|Rd]; [|discriminate]. cbn [andb]. apply flush_none; auto.
  - destruct (reopen_infos _ _); cbn [bind] in H; try discriminate. injection H as <- <-. unfold any_pending. cbn. apply repeat_none.
Qed.

Lemma real_settled_from : forall e ops s pend, clean (with_coll e true) s -> (pend = false -> any_pending (s_g s) = false) -> Forall with_data ops ->
  settled (length (g_ranks (s_g s))) pend ops = true -> run_real e s ops = run (with_coll e true) s ops.
Proof.
  intros e. induction ops as [|o ops IH]; intros s pend C P W S; auto. cbn [run_real run]. inversion W; subst.
  assert (Rd : match o with ORead _ _ => (length (g_ranks (s_g s)) =? 1)%nat = true \/ any_pending (s_g s) = false | _ => True end).
  { destruct o; auto. cbn [settled] in S. apply andb_prop in S. destruct S as (S & _). apply orb_prop in S. destruct S as [S|S]; auto. right. apply P. destruct pend; auto; discriminate. }
  assert (E : step_real e s o = step (with_coll e true) s o).
  { unfold step_real. apply coll_step. destruct o; auto. destruct Rd; auto. }
  rewrite E. destruct (step (with_coll e true) s o) as [[s1 o1]| |] eqn:F; cbn [bind fst snd]; auto.
  assert (C1 : clean (with_coll e true) s1) by (eapply step_clean; eauto).
  rewrite (IH s1 (pends (length (g_ranks (s_g s))) pend o)); auto.
  - eapply step_pends; eauto; [apply C|]. destruct o; auto.
  - rewrite (step_procs _ _ _ _ _ F). destruct o; cbn [settled pends procs] in *; auto. apply andb_prop in S. apply S.
Qed.
Lemma real_settled : forall e cfg np f0 ops, Forall with_data ops -> settled np false ops = true ->
  run_real e (init cfg np f0) ops = run (with_coll e true) (init cfg np f0) ops.
Proof.
  intros e cfg np f0 ops W S. apply real_settled_from with (pend := false); auto using init_clean; [|cbn; rewrite repeat_length; exact S].
  intros _. unfold any_pending. cbn. apply repeat_none.
Qed.

(** ** What a read does not see *)
Lemma run_real_app : forall e xs s ys, run_real e s (xs ++ ys) =
  (do p <- run_real e s xs; do q <- run_real e (fst p) ys; Ok (fst q, snd p ++ snd q)).
Proof.
  intros e. induction xs as [|x xs IH]; intros s ys; cbn [app run_real bind fst snd].
  - destruct (run_real e s ys) as [[? ?]| |]; reflexivity.
  - destruct (step_real e s x) as [[s1 o1]| |]; cbn [bind fst snd]; auto. rewrite IH. destruct (run_real e s1 xs) as [[s2 o2]| |]; cbn [bind fst snd]; auto.
    destruct (run_real e s2 ys) as [[? ?]| |]; reflexivity.
Qed.
Lemma real_procs : forall e ops s s' outs, run_real e s ops = Ok (s', outs) -> length (g_ranks (s_g s')) = opened_by (length (g_ranks (s_g s))) ops.
Proof.
  intros e. induction ops as [|o ops IH]; intros s s' outs H; [injection H as <- <-; reflexivity|]. cbn [run_real] in H.
  destruct (step_real e s o) as [[s1 o1]| |] eqn:E; cbn [bind fst snd] in H; try discriminate. destruct (run_real e s1 ops) as [[s2 o2]| |] eqn:R; cbn [bind fst snd] in H; try discriminate.
  injection H as <- <-. rewrite (IH _ _ _ R). apply step_procs in E. rewrite E. destruct o; reflexivity.
Qed.

(** Writes change the queues only. *)
Definition same_file (s t : sys) : Prop :=
  s_idx s = s_idx t /\ g_cfg (s_g s) = g_cfg (s_g t) /\ g_infos (s_g s) = g_infos (s_g t) /\ g_file (s_g s) = g_file (s_g t) /\
  g_mdsets (s_g s) = g_mdsets (s_g t) /\ g_metadirty (s_g s) = g_metadirty (s_g t) /\ length (g_ranks (s_g s)) = length (g_ranks (s_g t)).
Lemma writes_same_file : forall e ws s s' outs, Forall is_write ws -> run_real e s ws = Ok (s', outs) -> same_file s s'.
Proof.
  intros e ws. induction ws as [|o ws IH]; intros s s' outs F H; [injection H as <- <-; unfold same_file; auto 8|]. inversion F; subst. cbn [run_real] in H.
  destruct (step_real e s o) as [[s1 o1]| |] eqn:E; cbn [bind fst snd] in H; try discriminate. destruct (run_real e s1 ws) as [[s2 o2]| |] eqn:R; cbn [bind fst snd] in H; try discriminate. injection H as <- <-.
  apply IH in R; auto. destruct o as [| |rk did sels data| | |]; try contradiction. unfold step_real in E. cbn [step] in E. destruct (nth_error _ rk); try discriminate. destruct (ds_write _ _ _ _ _ _ _); cbn [bind] in E; try discriminate.
  injection E as <- <-. destruct R as (R1 & R2 & R3 & R4 & R5 & R6 & R7). unfold same_file. cbn in R1, R2, R3, R4, R5, R6, R7. rewrite upd_len in R7. auto 8.
Qed.
Lemma read_each_same : forall e s t cs idx, same_file s t -> read_each e (s_g s) idx cs = read_each e (s_g t) idx cs.
Proof.
  intros e s t cs. induction cs as [|c cs IH]; intros idx S; cbn [read_each]; auto. pose proof S as (E0 & E1 & E2 & E3 & E4 & _). unfold read_one. rewrite E1, E2, E3, E4.
  destruct (match rc_sels c with [] => _ | _ => _ end); cbn [bind]; auto. rewrite IH; auto.
Qed.
Lemma rest_dirty : forall e s o s' out, step_real e s o = Ok (s', out) -> (match o with ORead _ _ | OReopen _ _ => True | _ => False end) -> g_metadirty (s_g s') = false.
Proof.
  intros e s o s' out H Q. unfold step_real in H. destruct o; try contradiction; cbn [step] in H.
  - destruct (read_each _ _ _ _); cbn [bind] in H; try discriminate. injection H as <- <-. cbn [s_g]. match goal with |- g_metadirty (if ?b then _ else ?g) = _ => destruct b eqn:D; [reflexivity|exact D] end.
  - destruct (reopen_infos _ _); cbn [bind] in H; try discriminate. injection H as <- <-. reflexivity.
Qed.

Lemma read_unseen : forall e cfg np f0 pre ws doff calls s outs, at_rest pre -> Forall is_write ws -> opened_by np pre <> 1%nat ->
  run_real e (init cfg np f0) (pre ++ ws ++ [ORead doff calls]) = Ok (s, outs) ->
  exists s', run_real e (init cfg np f0) (pre ++ [ORead doff calls]) = Ok (s', firstn (length pre) outs ++ [last outs []]).
Proof.
  intros e cfg np f0 pre ws doff calls s outs A F N H. rewrite run_real_app in H. destruct (run_real e (init cfg np f0) pre) as [[s1 o1]| |] eqn:P; cbn [bind fst snd] in H; try discriminate.
  rewrite run_real_app in H. destruct (run_real e s1 ws) as [[s2 o2]| |] eqn:W; cbn [bind fst snd] in H; try discriminate.
  assert (L1 : length o1 = length pre).
  { clear - P. revert P. generalize (init cfg np f0). revert s1 o1. induction pre as [|o pre IH]; intros s1 o1 s0 P; [injection P as <- <-; reflexivity|]. cbn [run_real] in P.
    destruct (step_real e s0 o) as [[s2 o2]| |]; cbn [bind fst snd] in P; try discriminate. destruct (run_real e s2 pre) as [[s3 o3]| |] eqn:R; cbn [bind fst snd] in P; try discriminate. injection P as <- <-. cbn. f_equal. eapply IH; eauto. }
  assert (D : g_metadirty (s_g s1) = false).
  { destruct A as [->|(p & o & -> & Q)]; [injection P as <- <-; reflexivity|]. rewrite run_real_app in P. destruct (run_real e _ p) as [[s0 o0]| |]; cbn [bind fst snd run_real] in P; try discriminate.
    destruct (step_real e s0 o) as [[s3 o3]| |] eqn:E; cbn [bind fst snd] in P; try discriminate. injection P as <- <-. eapply rest_dirty; eauto. }
  assert (Np : length (g_ranks (s_g s1)) <> 1%nat).
  { rewrite (real_procs _ _ _ _ _ P). cbn. rewrite repeat_length. exact N. }
  pose proof (writes_same_file _ _ _ _ _ F W) as S. pose proof S as (S0 & S1 & S2 & S3 & S4 & S5 & S6).
  rewrite run_real_app, P. cbn [bind fst snd run_real].
  assert (R : forall t, g_metadirty (s_g t) = false -> length (g_ranks (s_g t)) <> 1%nat -> step_real e t (ORead doff calls) = (do p <- read_each e (s_g t) (s_idx t) calls; Ok (mksys (s_g t) (snd p), fst p))).
  { intros t Dt Nt. unfold step_real. apply Nat.eqb_neq in Nt. rewrite Nt. cbn [step with_coll e_coll andb]. rewrite Dt.
    change (mkenv (e_zlib e) (e_kind e) (e_limit e) (e_sort e) false) with (with_coll e false). rewrite coll_read. reflexivity. }
  rewrite R by auto. cbn [run_real] in H. rewrite R in H by congruence. rewrite <- (read_each_same _ _ _ _ _ S), <- S0 in H.
  destruct (read_each e (s_g s1) (s_idx s1) calls) as [[b i]| |]; cbn [bind fst snd] in *; try discriminate. injection H as <- <-.
  eexists. f_equal. f_equal. rewrite <- L1, firstn_app, firstn_all, Nat.sub_diag, firstn_O, app_nil_r. rewrite app_assoc, last_last. reflexivity.
Qed.

(** ** What a read destroys *)
Definition drop_data (w : wreq) : wreq := mkwreq (w_hdr w) (w_body w) (w_selpos w) (w_metaoff w) [].
Definition rw (a b : rank) : Prop :=
  k_mdsize a = k_mdsize b /\ k_hash a = k_hash b /\ k_zbsize a = k_zbsize b /\ map drop_data (k_wreqs a) = map drop_data (k_wreqs b).
Definition sw (s t : sys) : Prop :=
  s_idx s = s_idx t /\ g_cfg (s_g s) = g_cfg (s_g t) /\ g_infos (s_g s) = g_infos (s_g t) /\ g_file (s_g s) = g_file (s_g t) /\
  g_mdsets (s_g s) = g_mdsets (s_g t) /\ g_metadirty (s_g s) = g_metadirty (s_g t) /\ g_nldset (s_g s) = g_nldset (s_g t) /\ Forall2 rw (g_ranks (s_g s)) (g_ranks (s_g t)).
Lemma rw_refl : forall a, rw a a.
Proof. unfold rw. auto. Qed.
Lemma sw_refl : forall s, sw s s.
Proof. unfold sw. intros s. do 7 (split; auto). induction (g_ranks (s_g s)); constructor; auto using rw_refl. Qed.
Lemma upd_rw : forall n a b l l', Forall2 rw l l' -> rw a b -> Forall2 rw (upd_nth n a l) (upd_nth n b l').
Proof. intros n a b l l' F Q. revert n. induction F; intros [|n]; cbn; constructor; auto. Qed.
Lemma nth_rw : forall n l l', Forall2 rw l l' -> match nth_error l n, nth_error l' n with Some a, Some b => rw a b | None, None => True | _, _ => False end.
Proof. intros n l l' F. revert n. induction F as [|x y l l' Q F IH]; intros [|n]; cbn; auto. apply IH. Qed.
Lemma write_rw : forall z cfg infos a b did sels data data', rw a b -> length data = length data' ->
  match ds_write z cfg infos a did sels data, ds_write z cfg infos b did sels data' with
  | Ok a', Ok b' => rw a' b' | Err, Err => True | UB, UB => True | _, _ => False end.
Proof.
  intros z cfg infos a b did sels data data' R L. unfold ds_write. destruct sels as [|s ss]; [exact R|]. destruct (nth_error infos _) as [[dip|]|]; auto. destruct R as (E1 & E2 & E3 & E4).
  assert (Em : finish_meta z cfg a (mk_wreq cfg did dip (k_mdsize a) (s :: ss)) = finish_meta z cfg b (mk_wreq cfg did dip (k_mdsize b) (s :: ss))) by (unfold finish_meta, dedup; rewrite E1, E2, E3; reflexivity).
  rewrite Em. destruct (finish_meta z cfg b (mk_wreq cfg did dip (k_mdsize b) (s :: ss))) as [[[r tbl] zb]| |]; cbn [bind]; auto. unfold rw. cbn [k_wreqs k_mdsize k_hash k_zbsize]. rewrite E1. repeat split; auto. rewrite !map_app, E4. f_equal.
  cbn [map]. unfold drop_data, set_data. cbn. unfold Zlen. rewrite L. reflexivity.
Qed.
Lemma writes_sw : forall e ws ws' s t, Forall2 same_write ws ws' -> sw s t ->
  match run_real e s ws, run_real e t ws' with
  | Ok (s1, o1), Ok (t1, o2) => sw s1 t1 /\ o1 = o2 | Err, Err => True | UB, UB => True | _, _ => False end.
Proof.
  intros e ws ws' s t F. revert s t. induction F as [|o o' ws ws' Q F IH]; intros s t S; [cbn; auto|]. cbn [run_real].
  destruct o as [| |rk did sels data| | |]; destruct o' as [| |rk' did' sels' data'| | |]; try contradiction. destruct Q as (-> & -> & -> & L).
  pose proof S as (S0 & S1 & S2 & S3 & S4 & S5 & S6 & S7). unfold step_real. cbn [step with_coll e_zlib]. rewrite <- S1, <- S2. pose proof (nth_rw rk' _ _ S7) as N.
  destruct (nth_error (g_ranks (s_g s)) rk') as [a|]; destruct (nth_error (g_ranks (s_g t)) rk') as [b|]; cbn [bind]; try contradiction; auto.
  pose proof (write_rw (e_zlib e) (g_cfg (s_g s)) (g_infos (s_g s)) a b did' sels' data data' N L) as Wr.
  destruct (ds_write _ _ _ a _ _ _) as [a'| |]; destruct (ds_write _ _ _ b _ _ _) as [b'| |]; cbn [bind fst snd]; try contradiction; auto.
  match goal with |- context [run_real e ?x ws] => match goal with |- context [run_real e ?y ws'] => assert (S' : sw x y) end end.
  { unfold sw. cbn [s_g s_idx set_ranks g_cfg g_infos g_file g_mdsets g_metadirty g_nldset g_ranks]. do 7 (split; auto). apply upd_rw; auto. }
  specialize (IH _ _ S'). destruct (run_real e _ ws) as [[s1 o1]| |]; destruct (run_real e _ ws') as [[t1 o2]| |]; cbn [bind fst snd]; try contradiction; auto. destruct IH as (I1 & ->). auto.
Qed.
Lemma map_rw : forall B (f : rank -> B) l l', Forall2 rw l l' -> (forall a b, rw a b -> f a = f b) -> map f l = map f l'.
Proof. intros B f l l' R F. induction R; cbn; auto. f_equal; auto. Qed.
Lemma rw_meta : forall a b, rw a b -> meta_len a = meta_len b /\ meta_bytes a = meta_bytes b.
Proof.
  intros a b (_ & _ & _ & E). unfold meta_len, meta_bytes. revert E. generalize (k_wreqs a) (k_wreqs b). induction l as [|x l IH]; intros [|y l'] E; cbn [map] in E; try discriminate; auto.
  assert (Q : drop_data x = drop_data y) by congruence. assert (E' : map drop_data l = map drop_data l') by congruence. destruct (IH _ E') as (I1 & I2). unfold drop_data in Q. injection Q as Q1 Q2 Q3 Q4. unfold Zsum in *. cbn [map fold_right flat_map]. rewrite I1, I2, Q1. unfold wreq_bytes. rewrite Q1, Q2. auto.
Qed.
Lemma sw_metaflush : forall s t, sw s t -> metaflush (s_g s) = metaflush (s_g t).
Proof.
  intros s t (S0 & S1 & S2 & S3 & S4 & S5 & S6 & R).
  assert (L : Zlen (g_ranks (s_g s)) = Zlen (g_ranks (s_g t))) by (unfold Zlen; f_equal; clear - R; induction R; cbn; auto).
  assert (M : meta_sizes (g_ranks (s_g s)) = meta_sizes (g_ranks (s_g t))) by (unfold meta_sizes; rewrite (map_rw _ meta_len _ _ R), L; auto; intros; apply rw_meta; auto).
  unfold metaflush. rewrite M, L, S1, S2, S3, S4, S6. f_equal.
  - apply map_rw; auto. intros a b (_ & _ & E & _). rewrite E. reflexivity.
  - destruct (_ <? _); auto. f_equal. f_equal. unfold md_content, md_pieces, md_map. rewrite M, L. destruct R as [|a b l l' Q R]; auto. destruct (rw_meta _ _ Q) as (_ & ->).
    rewrite (map_rw _ meta_bytes _ _ R); auto. intros; apply rw_meta; auto.
Qed.
Lemma flush_dirty : forall doff g, Forall (tidy (g_metadirty g)) (g_ranks g) -> any_pending g = true -> g_metadirty (flush_writes doff g) = true.
Proof.
  intros doff g T P. unfold flush_writes. destruct (sizes_zero _ _ T) as (_ & Z0). destruct (_ =? 0) eqn:E; auto.
  apply Z.eqb_eq in E. apply Z0 in E. unfold any_pending in P. congruence.
Qed.
Lemma read_lost : forall e s t doff calls, sw s t -> g_metadirty (s_g s) = true -> length (g_ranks (s_g s)) <> 1%nat ->
  step_real e s (ORead doff calls) = step_real e t (ORead doff calls).
Proof.
  intros e s t doff calls S D N. pose proof S as (S0 & S1 & S2 & S3 & S4 & S5 & S6 & R). assert (N' : length (g_ranks (s_g t)) <> 1%nat).
  { intros E. apply N. rewrite <- E. clear - R. induction R; cbn; auto. }
  unfold step_real. apply Nat.eqb_neq in N, N'. rewrite N, N'. cbn [step with_coll e_coll andb]. rewrite <- S5, D, (sw_metaflush _ _ S). reflexivity.
Qed.

Lemma real_clean : forall e ops s s' outs, clean e s -> Forall with_data ops -> run_real e s ops = Ok (s', outs) -> clean e s'.
Proof.
  intros e. induction ops as [|o ops IH]; intros s s' outs C W H; [injection H as <- <-; exact C|]. inversion W; subst. cbn [run_real] in H.
  destruct (step_real e s o) as [[s1 o1]| |] eqn:E; cbn [bind fst snd] in H; try discriminate. destruct (run_real e s1 ops) as [[s2 o2]| |] eqn:R; cbn [bind fst snd] in H; try discriminate. injection H as <- <-.
  eapply IH; [|eassumption|eassumption]. exact (step_clean (with_coll e (length (g_ranks (s_g s)) =? 1)%nat) s o s1 o1 C H2 E).
Qed.
Lemma write_pending : forall e s rk did b sels data s' out, clean e s -> step_real e s (OWrite rk did (b :: sels) data) = Ok (s', out) -> any_pending (s_g s') = true.
Proof.
  intros e s rk did b sels data s' out C H. unfold step_real in H. cbn [step with_coll e_zlib] in H. destruct (nth_error (g_ranks (s_g s)) rk) as [st|] eqn:N; try discriminate.
  destruct (ds_write _ _ _ _ _ _ _) as [st'| |] eqn:W; cbn [bind] in H; try discriminate. injection H as <- <-. unfold any_pending. cbn [s_g set_ranks g_ranks].
  assert (P : (num_pending st' =? 0)%nat = false).
  { apply Nat.eqb_neq. unfold ds_write in W. destruct (nth_error (g_infos (s_g s)) (Z.to_nat did)) as [[d|]|]; try discriminate. destruct (finish_meta _ _ _ _) as [[[r tbl] zb]| |]; cbn [bind] in W; try discriminate. injection W as <-.
    unfold num_pending. cbn [k_wreqs k_nflushed]. rewrite app_length. cbn [length]. destruct C as (T & _). rewrite Forall_forall in T. destruct (T st (nth_error_In _ _ N)) as (L & _). lia. }
  clear - N P. revert rk N. induction (g_ranks (s_g s)) as [|x l IH]; intros [|rk] N; cbn in *; try discriminate; [rewrite P; reflexivity|]. rewrite (IH _ N), orb_true_r. reflexivity.
Qed.

Lemma read_destroys : forall e cfg np f0 pre rk did b sels data d ws ws' doff calls rest, Forall with_data pre -> data <> [] ->
  opened_by np pre <> 1%nat -> Forall2 same_write ws ws' ->
  run_real e (init cfg np f0) (pre ++ OWrite rk did (b :: sels) data :: OFlush d :: ws ++ ORead doff calls :: rest) =
  run_real e (init cfg np f0) (pre ++ OWrite rk did (b :: sels) data :: OFlush d :: ws' ++ ORead doff calls :: rest).
Proof.
  intros e cfg np f0 pre rk did b sels data d ws ws' doff calls rest W Dn N F. rewrite !run_real_app. destruct (run_real e (init cfg np f0) pre) as [[s1 o1]| |] eqn:P; cbn [bind fst snd]; auto.
  assert (C1 : clean e s1) by (eapply real_clean; eauto using init_clean). assert (Np : length (g_ranks (s_g s1)) <> 1%nat) by (rewrite (real_procs _ _ _ _ _ P); cbn; rewrite repeat_length; exact N).
  cbn [run_real]. destruct (step_real e s1 _) as [[s2 o2]| |] eqn:E2; cbn [bind fst snd]; auto.
  assert (C2 : clean e s2) by exact (step_clean (with_coll e (length (g_ranks (s_g s1)) =? 1)%nat) _ (OWrite rk did (b :: sels) data) _ _ C1 ltac:(cbn; auto) E2).
  pose proof (write_pending _ _ _ _ _ _ _ _ _ C1 E2) as P2. assert (Np2 : length (g_ranks (s_g s2)) <> 1%nat) by (rewrite (step_procs _ _ _ _ _ E2); exact Np).
  destruct (step_real e s2 _) as [[s3 o3]| |] eqn:E3; cbn [bind fst snd]; auto.
  assert (Np3 : length (g_ranks (s_g s3)) <> 1%nat) by (rewrite (step_procs _ _ _ _ _ E3); exact Np2).
  assert (D3 : g_metadirty (s_g s3) = true) by (unfold step_real in E3; cbn [step] in E3; injection E3 as <- <-; cbn [s_g]; rewrite P2; apply flush_dirty; auto; apply C2).
  rewrite !run_real_app. pose proof (writes_sw e ws ws' s3 s3 F (sw_refl s3)) as Q.
  assert (Fw : Forall is_write ws) by (clear - F; induction F as [|x y l l' Q F IH]; constructor; auto; destruct x, y; try contradiction; exact Logic.I).
  destruct (run_real e s3 ws) as [[s4 o4]| |] eqn:W1; destruct (run_real e s3 ws') as [[s5 o5]| |] eqn:W2; cbn [bind fst snd]; try contradiction; auto. destruct Q as (Q & ->).
  destruct (writes_same_file _ _ _ _ _ Fw W1) as (_ & _ & _ & _ & _ & Sd & Sl).
  cbn [run_real]. rewrite (read_lost e s4 s5); auto; congruence.
Qed.
