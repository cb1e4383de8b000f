(** Calls that fail: what the successful ones return. *)
From Verif Require Import Base BaseProofs Spec MetaModel QueueModel FlushModel IndexModel ReadModel SysModel
  SysSpec FlushProofs SysProofs AnySpec AnyProofs CrashModel CrashSpec CrashProofs CrashClaims FaultModel FaultSpec.
From Coq Require Import ZifyNat ZifyN.

(** ** Files that differ in the addresses of the requests not yet flushed *)
Definition ralike (a b : rank) : Prop :=
  k_nflushed a = k_nflushed b /\ k_mdsize a = k_mdsize b /\ k_hash a = k_hash b /\ k_zbsize a = k_zbsize b /\
  flushed a = flushed b /\ assign_foff 0 (unflushed a) = assign_foff 0 (unflushed b).
Definition galike (a b : gfile) : Prop :=
  g_cfg a = g_cfg b /\ g_infos a = g_infos b /\ g_mdsets a = g_mdsets b /\ g_nldset a = g_nldset b /\ g_metadirty a = g_metadirty b /\
  Forall2 ralike (g_ranks a) (g_ranks b).

Lemma ralike_refl : forall a, ralike a a.
Proof. intros. repeat split. Qed.
Lemma galike_refl : forall g, galike g g.
Proof. intros. repeat split. induction (g_ranks g); constructor; auto using ralike_refl. Qed.
Lemma assign_len : forall ws off, length (assign_foff off ws) = length ws.
Proof. induction ws; intros; cbn; auto. Qed.
Lemma set_foff_twice : forall w a b, set_foff (set_foff w a) b = set_foff w b.
Proof. reflexivity. Qed.
Lemma assign_twice : forall ws a b, assign_foff a (assign_foff b ws) = assign_foff a ws.
Proof. induction ws as [|w ws IH]; intros; cbn; auto. f_equal. apply IH. Qed.
Lemma assign_size : forall ws a, local_size (assign_foff a ws) = local_size ws.
Proof. induction ws as [|w ws IH]; intros; unfold local_size in *; cbn; auto. rewrite IH. reflexivity. Qed.
Lemma assign_data : forall ws a, flat_map w_data (assign_foff a ws) = flat_map w_data ws.
Proof. induction ws as [|w ws IH]; intros; cbn; auto. rewrite IH. reflexivity. Qed.
Lemma assign_app : forall ws ws' a, assign_foff a (ws ++ ws') = assign_foff a ws ++ assign_foff (a + local_size ws) ws'.
Proof.
  induction ws as [|w ws IH]; intros; cbn [app assign_foff].
  - unfold local_size. cbn. rewrite Z.add_0_r. reflexivity.
  - rewrite IH. cbn [app]. unfold local_size, Zsum. cbn [map fold_right]. rewrite Z.add_assoc. reflexivity.
Qed.

Lemma ralike_len : forall a b, ralike a b -> length (unflushed a) = length (unflushed b) /\ length (k_wreqs a) = length (k_wreqs b).
Proof.
  intros a b (E1 & _ & _ & _ & E2 & E3). assert (L : length (unflushed a) = length (unflushed b)) by (rewrite <- (assign_len (unflushed a) 0), E3, assign_len; reflexivity).
  split; auto. rewrite <- (firstn_skipn (k_nflushed a) (k_wreqs a)), <- (firstn_skipn (k_nflushed b) (k_wreqs b)). fold (flushed a) (unflushed a) (flushed b) (unflushed b).
  rewrite !app_length. congruence.
Qed.
Lemma ralike_size : forall a b, ralike a b -> local_size (unflushed a) = local_size (unflushed b).
Proof. intros a b (_ & _ & _ & _ & _ & E). rewrite <- (assign_size (unflushed a) 0), E, assign_size. reflexivity. Qed.
Lemma ralike_bytes : forall a b, ralike a b -> local_bytes a = local_bytes b.
Proof. intros a b (_ & _ & _ & _ & _ & E). unfold local_bytes. rewrite <- (assign_data (unflushed a) 0), E, assign_data. reflexivity. Qed.
Lemma ralike_pending : forall a b, ralike a b -> num_pending a = num_pending b.
Proof. intros a b R. destruct (ralike_len _ _ R) as [_ L]. destruct R as (E & _). unfold num_pending. congruence. Qed.
Lemma ralike_none : forall a b, ralike a b -> num_pending a = 0%nat -> a = b.
Proof.
  intros [wa na ma ha za] [wb nb mb hb zb] R N. destruct (ralike_len _ _ R) as [L1 L2]. destruct R as (E1 & E2 & E3 & E4 & E5 & E6). unfold num_pending, flushed, unflushed in *. cbn in *. subst.
  f_equal. rewrite <- (firstn_all wa), <- (firstn_all wb). rewrite !firstn_all2 in E5 by lia. subst. reflexivity.
Qed.
Lemma ralike_flushed : forall base a b, ralike a b -> rank_flushed base a = rank_flushed base b.
Proof. intros base a b (E1 & E2 & E3 & E4 & E5 & E6). unfold rank_flushed. rewrite E2, E3, E4, E5, E6. reflexivity. Qed.
Lemma ralike_assign : forall a b, ralike a b -> rank_assign a = rank_assign b.
Proof. intros a b (E1 & E2 & E3 & E4 & E5 & E6). unfold rank_assign. rewrite E1, E2, E3, E4, E5, E6. reflexivity. Qed.
Lemma assign_ralike : forall a, ralike (rank_assign a) a.
Proof.
  intros a. unfold rank_assign. set (r := mkrank _ _ _ _ _).
  assert (L : (length (flushed a) <= k_nflushed a)%nat) by (unfold flushed; apply firstn_le_length).
  assert (Q : length (flushed a) = k_nflushed a \/ unflushed a = []).
  { unfold flushed, unflushed. destruct (Nat.le_gt_cases (k_nflushed a) (length (k_wreqs a))); [left; apply firstn_length_le; auto|right; apply skipn_all2; lia]. }
  unfold ralike. assert (F : flushed r = flushed a /\ unflushed r = assign_foff 0 (unflushed a)).
  { unfold flushed at 1, unflushed at 1. subst r. cbn [k_wreqs k_nflushed]. destruct Q as [Q|Q].
    - rewrite <- Q. rewrite firstn_app, skipn_app, Nat.sub_diag, firstn_all, skipn_all. cbn. rewrite app_nil_r. auto.
    - rewrite Q. cbn [assign_foff]. rewrite app_nil_r. rewrite firstn_all2, skipn_all2 by auto. auto. }
  destruct F as [F1 F2]. rewrite F1, F2, assign_twice. repeat split.
Qed.
Lemma ralike_trans : forall a b c, ralike a b -> ralike b c -> ralike a c.
Proof. intros a b c (A1 & A2 & A3 & A4 & A5 & A6) (B1 & B2 & B3 & B4 & B5 & B6). unfold ralike. repeat split; congruence. Qed.

Lemma sizes_alike : forall l l', Forall2 ralike l l' -> map (fun st => local_size (unflushed st)) l = map (fun st => local_size (unflushed st)) l'.
Proof. induction 1; cbn; auto. f_equal; auto using ralike_size. Qed.
Lemma combine_alike : forall B (f : Z * rank -> B) l l', Forall2 ralike l l' -> (forall z a b, ralike a b -> f (z, a) = f (z, b)) -> forall zs, map f (combine zs l) = map f (combine zs l').
Proof. intros B f l l' R F. induction R; intros [|z zs]; cbn; auto. f_equal; auto. Qed.
Lemma fold_map : forall A B C (f : A -> C -> A) (h : B -> C) l a, fold_left (fun a x => f a (h x)) l a = fold_left f (map h l) a.
Proof. induction l; intros; cbn; auto. Qed.
Lemma map_alike : forall B (f : rank -> B) l l', Forall2 ralike l l' -> (forall a b, ralike a b -> f a = f b) -> map f l = map f l'.
Proof. intros B f l l' R F. induction R; cbn; auto. f_equal; auto. Qed.

Lemma flush_alike : forall doff a b, galike a b -> g_file a = g_file b -> flush_writes doff a = flush_writes doff b.
Proof.
  intros doff a b (E1 & E2 & E3 & E4 & E5 & R) F. unfold flush_writes. rewrite (sizes_alike _ _ R), E1, E2, E3, E4, E5, F. destruct (Zsum _ =? 0).
  - f_equal. apply map_alike; auto using ralike_assign.
  - f_equal.
    + apply combine_alike; auto. intros; cbn; auto using ralike_flushed.
    + rewrite !(fold_map _ _ _ (fun f q => put f (fst q) (snd q)) (fun p : Z * rank => (fst p, local_bytes (snd p)))).
      f_equal. apply combine_alike; auto. intros; cbn. f_equal. auto using ralike_bytes.
Qed.
Lemma effects_alike : forall doff a b, galike a b -> flush_effects doff a = flush_effects doff b.
Proof.
  intros doff a b (E1 & E2 & E3 & E4 & E5 & R). unfold flush_effects. rewrite (sizes_alike _ _ R), E4. destruct (Zsum _ =? 0); auto. f_equal.
  apply combine_alike; auto. intros; cbn. f_equal. auto using ralike_bytes.
Qed.
Lemma pending_alike : forall a b, galike a b -> any_pending a = any_pending b.
Proof. intros a b (_ & _ & _ & _ & _ & R). unfold any_pending. induction R; cbn; auto. rewrite IHR, (ralike_pending _ _ H). reflexivity. Qed.
Lemma none_alike : forall a b, galike a b -> g_file a = g_file b -> any_pending a = false -> a = b.
Proof.
  intros [c1 i1 r1 f1 m1 n1 d1] [c2 i2 r2 f2 m2 n2 d2] (E1 & E2 & E3 & E4 & E5 & R) F P. cbn in *. subst. f_equal. unfold any_pending in P. cbn in P.
  induction R as [|x y l l' H R IH]; auto. cbn in P. apply orb_false_iff in P. destruct P as [P1 P2]. apply negb_false_iff, Nat.eqb_eq in P1. f_equal; auto. apply ralike_none; auto.
Qed.
Lemma write_alike : forall z cfg infos a b did sels data a', ralike a b -> ds_write z cfg infos a did sels data = Ok a' ->
  exists b', ds_write z cfg infos b did sels data = Ok b' /\ ralike a' b'.
Proof.
  intros z cfg infos a b did sels data a' R H. pose proof (ralike_len _ _ R) as [L1 L2]. pose proof (ralike_size _ _ R) as Hs. destruct R as (E1 & E2 & E3 & E4 & E5 & E6).
  unfold ds_write in *. destruct sels as [|s ss]; [injection H as <-; exists b; split; auto; unfold ralike; auto 8|].
  destruct (nth_error infos _) as [[dip|]|]; try discriminate.
  assert (Em : finish_meta z cfg b (mk_wreq cfg did dip (k_mdsize b) (s :: ss)) = finish_meta z cfg a (mk_wreq cfg did dip (k_mdsize a) (s :: ss))).
  { unfold finish_meta, dedup. rewrite E2, E3, E4. reflexivity. }
  rewrite Em. destruct (finish_meta _ _ _ _) as [[[r tbl] zb]| |]; cbn [bind] in *; try discriminate. injection H as <-. eexists. split; [reflexivity|].
  unfold ralike, flushed, unflushed in *. cbn [k_wreqs k_nflushed k_mdsize k_hash k_zbsize]. rewrite !firstn_app, !skipn_app, !assign_app, L2, E1, E2 in *.
  repeat split; congruence.
Qed.

(** ** Attempting changes *)
Lemma attempt_ok : forall bad xs n dk dk', (forall x, In x xs -> bad x = false) -> apply_all dk xs = Ok dk' -> attempt bad n dk xs = (dk', None).
Proof.
  induction xs as [|x xs IH]; intros n dk dk' B A; cbn [attempt apply_all] in *; [congruence|]. rewrite (B x) by (cbn; auto). destruct (apply dk x); cbn [bind] in A; try discriminate.
  apply IH; auto. intros; apply B; cbn; auto.
Qed.
Lemma attempt_all : forall bad xs n dk dk', attempt bad n dk xs = (dk', None) -> apply_all dk xs = Ok dk'.
Proof.
  induction xs as [|x xs IH]; intros n dk dk' A; cbn [attempt apply_all] in *; [congruence|]. destruct (bad x); [discriminate|]. destruct (apply dk x); cbn [bind]; try discriminate. eauto.
Qed.
Lemma attempt_app : forall bad xs ys n dk, attempt bad n dk (xs ++ ys) =
  match attempt bad n dk xs with (dk', None) => attempt bad (n + length xs) dk' ys | r => r end.
Proof.
  induction xs as [|x xs IH]; intros; cbn [app attempt length]; [rewrite Nat.add_0_r; reflexivity|]. destruct (bad x); auto. destruct (apply dk x); auto. rewrite IH.
  destruct (attempt bad (S n) a xs) as [d [k|]]; auto. f_equal. lia.
Qed.
Lemma attempt_bound : forall bad xs n dk dk' k, attempt bad n dk xs = (dk', Some k) -> (n <= k < n + length xs)%nat.
Proof.
  induction xs as [|x xs IH]; intros n dk dk' k A; cbn [attempt length] in *; [discriminate|]. destruct (bad x); [injection A as <- <-; lia|]. destruct (apply dk x); try (injection A as <- <-; lia).
  apply IH in A. lia.
Qed.
(** The changes carried out. *)
Lemma attempt_prefix : forall bad xs n dk dk' k, attempt bad n dk xs = (dk', Some k) -> apply_all dk (firstn (k - n) xs) = Ok dk'.
Proof.
  induction xs as [|x xs IH]; intros n dk dk' k A; cbn [attempt] in *; [discriminate|]. destruct (bad x); [injection A as <- <-; rewrite Nat.sub_diag; reflexivity|].
  destruct (apply dk x) as [d| |] eqn:E; try (injection A as <- <-; rewrite Nat.sub_diag; reflexivity).
  pose proof (attempt_bound _ _ _ _ _ _ A). replace (k - n)%nat with (S (k - S n)) by lia. cbn [firstn apply_all]. rewrite E. cbn [bind]. eauto.
Qed.
