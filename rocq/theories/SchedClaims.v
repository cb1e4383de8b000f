(** Lemmas behind P_Sched.v. *)
From Verif Require Import Base BaseProofs Spec MetaModel QueueModel FlushModel IndexModel SysModel History MergeModel
  SysSpec Examples LogSpec AlignModel SchedModel SchedSpec GeomProofs MetaProofs QueueProofs MdProofs FlushProofs LogClaims LogClaims2.
From Coq Require Import ZifyNat ZifyN Permutation.

Lemma bytes_at_fst : forall l off, map fst (bytes_at off l) = map (fun i => off + Z.of_nat i) (seq 0 (length l)).
Proof. intros. unfold bytes_at. generalize 0%nat. induction l; intros n; cbn; auto. f_equal. apply IHl. Qed.
Lemma bytes_at_cons : forall b l off, bytes_at off (b :: l) = (off, b) :: bytes_at (off + 1) l.
Proof.
  intros. unfold bytes_at. cbn [length seq map combine]. f_equal; [f_equal; lia|]. f_equal. rewrite <- seq_shift, map_map. apply map_ext. intros. lia.
Qed.
Lemma bytes_at_app : forall l m off, bytes_at off (l ++ m) = bytes_at off l ++ bytes_at (off + Zlen l) m.
Proof.
  induction l; intros; cbn [app]; [rewrite Zlen_nil, Z.add_0_r; reflexivity|]. rewrite !bytes_at_cons. cbn [app]. f_equal. rewrite IHl, Zlen_cons. f_equal. f_equal. lia.
Qed.
Lemma bytes_at_nodup : forall l off, NoDup (map fst (bytes_at off l)).
Proof. intros. rewrite bytes_at_fst. apply FinFun.Injective_map_NoDup; [|apply seq_NoDup]. intros x y H. lia. Qed.
Lemma parts_concat : forall ps a, concat (map (fun p => bytes_at (fst p) (snd p)) (combine (exscan a (map (@Zlen Z) ps)) ps)) = bytes_at a (concat ps).
Proof. induction ps; intros; cbn [map exscan combine concat fst snd]; auto. rewrite bytes_at_app, IHps. reflexivity. Qed.

Lemma arrive_out : forall l f x, ~ In x (map fst l) -> arrive f l x = f x.
Proof.
  induction l as [|[a b] l IH]; intros f x H; auto. cbn in *. change (arrive (fun x => if x =? a then b else f x) l x = f x). rewrite IH by tauto.
  destruct (Z.eqb_spec x a); auto. subst. tauto.
Qed.
Lemma arrive_in : forall l f x b, NoDup (map fst l) -> In (x, b) l -> arrive f l x = b.
Proof.
  induction l as [|[a b0] l IH]; intros f x b HN H; [contradiction|]. cbn in HN. apply NoDup_cons_iff in HN. destruct HN as [N1 N2].
  change (arrive (fun x => if x =? a then b0 else f x) l x = b). destruct H as [E|H].
  - injection E as -> ->. rewrite arrive_out by auto. rewrite Z.eqb_refl. auto.
  - apply IH; auto.
Qed.
Lemma arrive_perm : forall l l' f x, Permutation l l' -> NoDup (map fst l) -> arrive f l x = arrive f l' x.
Proof.
  intros l l' f x HP HN. assert (HN' : NoDup (map fst l')) by (eapply Permutation_NoDup; [apply Permutation_map; exact HP|auto]).
  destruct (in_dec Z.eq_dec x (map fst l)) as [H|H].
  - apply in_map_iff in H. destruct H as ([y b] & <- & H). cbn [fst]. rewrite (arrive_in l f y b), (arrive_in l' f y b); auto. eapply Permutation_in; eauto.
  - rewrite !arrive_out; auto. intros G. apply H. eapply Permutation_in; [apply Permutation_sym, Permutation_map; exact HP|exact G].
Qed.
Lemma arrive_put : forall l f off x, arrive f (bytes_at off l) x = put f off l x.
Proof.
  intros l f off x. destruct (Z_lt_dec x off) as [H|H]; [|destruct (Z_lt_dec x (off + Zlen l)) as [G|G]].
  - rewrite put_out by lia. apply arrive_out. rewrite bytes_at_fst, in_map_iff. intros (i & E & _). lia.
  - rewrite put_in by lia. apply arrive_in; [apply bytes_at_nodup|].
    replace (x, nth (Z.to_nat (x - off)) l 0) with (nth (Z.to_nat (x - off)) (bytes_at off l) (off + Z.of_nat (length l), 0)).
    + apply nth_In. unfold bytes_at. rewrite combine_length, map_length, seq_length. unfold Zlen in G. lia.
    + unfold bytes_at. rewrite combine_nth by (rewrite map_length, seq_length; auto). f_equal.
      rewrite (map_nth (fun i => off + Z.of_nat i)). rewrite seq_nth by (unfold Zlen in G; lia). lia.
  - rewrite put_out by lia. apply arrive_out. rewrite bytes_at_fst, in_map_iff. intros (i & E & Hi). apply in_seq in Hi. unfold Zlen in G. lia.
Qed.

(** ** The recorded sizes are those of the data *)
Definition weighed (w : wreq) : Prop := h_fsize (w_hdr w) = Zlen (w_data w).
Lemma weighed_write : forall z cfg infos st did sels data st', ds_write z cfg infos st did sels data = Ok st' ->
  Forall weighed (k_wreqs st) -> Forall weighed (k_wreqs st').
Proof.
  intros z cfg infos st did sels data st' H HW. unfold ds_write in H. destruct sels as [|b0 sels0]; [injection H as <-; auto|].
  destruct (nth_error infos (Z.to_nat did)) as [[dip|]|]; try discriminate.
  destruct (finish_meta _ _ _ _) as [[[r tbl] zb]| |]; cbn [bind] in H; try discriminate. injection H as <-. cbn [k_wreqs].
  apply Forall_app. split; auto. constructor; auto. reflexivity.
Qed.
Lemma weighed_assign : forall ws o, Forall weighed ws -> Forall weighed (assign_foff o ws).
Proof. intros ws o H. revert o. induction H; intros o; cbn; constructor; auto. Qed.
Definition all_weighed (g : gfile) : Prop := Forall (fun st => Forall weighed (k_wreqs st)) (g_ranks g).
Lemma weighed_split : forall st, Forall weighed (k_wreqs st) -> Forall weighed (flushed st) /\ Forall weighed (unflushed st).
Proof. intros st H. apply Forall_app. unfold flushed, unflushed. rewrite firstn_skipn. exact H. Qed.
Lemma weighed_flush : forall doff g, all_weighed g -> all_weighed (flush_writes doff g).
Proof.
  intros doff g H. unfold flush_writes. destruct (_ =? 0); unfold all_weighed; cbn [g_ranks].
  - apply Forall_map. revert H. apply Forall_impl. intros st Hs. destruct (weighed_split _ Hs). unfold rank_assign. cbn [k_wreqs]. apply Forall_app. split; auto. apply weighed_assign. auto.
  - apply Forall_map. apply Forall_forall. intros [o st] Hin. apply in_combine_r in Hin. unfold all_weighed in H. rewrite Forall_forall in H. destruct (weighed_split _ (H _ Hin)) as [A1 A2].
    unfold rank_flushed. cbn [k_wreqs fst snd]. apply Forall_app. split; auto. apply Forall_map. apply (weighed_assign _ 0) in A2. revert A2. apply Forall_impl. intros w Hw. exact Hw.
Qed.
Lemma weighed_meta : forall g, all_weighed (metaflush g).
Proof. intros. unfold all_weighed, metaflush. cbn [g_ranks]. apply Forall_map, Forall_forall. intros. constructor. Qed.
Lemma weighed_step : forall e s o s' out, step e s o = Ok (s', out) -> all_weighed (s_g s) -> all_weighed (s_g s').
Proof.
  intros e s o s' out H HW. destruct o as [d|did dims|rk did sels data|doff|doff calls|doff np]; cbn [step] in *.
  - destruct (create_info _ d) as [i| |]; try discriminate. injection H as <- <-. exact HW.
  - destruct (info_at _ did) as [[i|]|]; try discriminate. destruct (set_extent _ i dims) as [i' [|]]; try discriminate. injection H as <- <-. exact HW.
  - destruct (nth_error (g_ranks (s_g s)) rk) as [st|] eqn:EN; try discriminate.
    destruct (ds_write _ _ _ st did sels data) as [st'| |] eqn:EW; try discriminate. injection H as <- <-. unfold all_weighed in *. cbn [s_g set_ranks g_ranks].
    assert (A : Forall weighed (k_wreqs st')) by (eapply weighed_write; eauto; rewrite Forall_forall in HW; apply HW; eapply nth_error_In; eauto).
    clear - HW A. revert rk. induction HW; intros [|rk]; cbn; constructor; auto.
  - injection H as <- <-. cbn [s_g]. destruct (any_pending _); auto. apply weighed_flush. auto.
  - destruct (read_each _ _ _ _) as [q| |]; try discriminate. injection H as <- <-. cbn [s_g].
    assert (G1 : all_weighed (if e_coll e && any_pending (s_g s) then flush_writes doff (s_g s) else s_g s)) by (destruct (_ && _); auto; apply weighed_flush; auto).
    destruct (g_metadirty _); auto. apply weighed_meta.
  - destruct (reopen_infos _ _) as [r| |]; try discriminate. injection H as <- <-. unfold all_weighed. cbn [s_g g_ranks]. clear. induction np; cbn; constructor; auto. constructor.
Qed.
Lemma run_weighed : forall e ops s s' outs, run e s ops = Ok (s', outs) -> all_weighed (s_g s) -> all_weighed (s_g s').
Proof.
  induction ops as [|o ops IH]; intros s s' outs H HW; [injection H as <- <-; auto|]. cbn [run] in H.
  destruct (step e s o) as [[s1 o1]| |] eqn:E; cbn [bind fst snd] in H; try discriminate. destruct (run e s1 ops) as [[s2 o2]| |] eqn:R; cbn [bind fst snd] in H; try discriminate.
  injection H as <- <-. eapply IH; eauto. eapply weighed_step; eauto.
Qed.
Lemma init_weighed : forall cfg np f0, all_weighed (s_g (init cfg np f0)).
Proof. intros. unfold all_weighed. cbn. induction np; cbn; constructor; auto. constructor. Qed.

Lemma weighed_sizes : forall rs, Forall (fun st => Forall weighed (k_wreqs st)) rs ->
  map (fun st => local_size (unflushed st)) rs = map (@Zlen Z) (map local_bytes rs).
Proof.
  intros rs H. rewrite map_map. apply map_ext_Forall. revert H. apply Forall_impl. intros st Hs. destruct (weighed_split _ Hs) as [_ A].
  unfold local_size, local_bytes. induction A as [|w ws Hw A IH]; [reflexivity|]. cbn [map flat_map Zsum fold_right]. unfold Zsum in IH. rewrite IH, Zlen_app. rewrite Hw. reflexivity.
Qed.
Lemma flush_concat : forall doff g, all_weighed g -> concat (flush_bytes doff g) = bytes_at doff (concat (map local_bytes (g_ranks g))) /\
  (forall x, g_file (flush_writes doff g) x = put (g_file g) doff (concat (map local_bytes (g_ranks g))) x).
Proof.
  intros doff g HW. pose proof (weighed_sizes _ HW) as ES. set (ps := map local_bytes (g_ranks g)) in *.
  assert (EZ : Zsum (map (@Zlen Z) ps) = Zlen (concat ps)).
  { generalize ps. induction ps0; [reflexivity|]. cbn [map concat Zsum fold_right]. rewrite Zlen_app. unfold Zsum in IHps0. rewrite IHps0. reflexivity. }
  assert (EP : forall rs, combine (exscan doff (map (@Zlen Z) (map local_bytes rs))) (map local_bytes rs) = map (fun p : Z * rank => (fst p + doff, local_bytes (snd p))) (combine (exscan 0 (map (@Zlen Z) (map local_bytes rs))) rs)).
  { intros rs. replace doff with (0 + doff) at 1 by lia. generalize 0. induction rs; intros a0; cbn [map exscan combine fst snd]; auto. f_equal. rewrite <- IHrs. f_equal. f_equal. lia. }
  unfold flush_bytes, flush_writes. rewrite ES, EZ. destruct (Z.eqb_spec (Zlen (concat ps)) 0) as [Q|Q].
  - destruct (concat ps) eqn:E; [|rewrite Zlen_cons in Q; pose proof (Zlen_nonneg _ l); lia]. cbn [g_file]. split; auto. intros. rewrite put_out; auto. rewrite Zlen_nil. lia.
  - split.
    + rewrite <- parts_concat. f_equal. unfold ps at 2 3. rewrite EP. rewrite map_map. reflexivity.
    + intros x. cbn [g_file]. rewrite <- arrive_put, <- parts_concat. rewrite exscan_shift. change (0 + doff) with doff. unfold ps.
      generalize (g_file g). generalize doff. clear. generalize (g_ranks g). 
      assert (HE : forall l (f f' : bytemap), (forall x, f x = f' x) -> forall x, arrive f l x = arrive f' l x).
      { induction l as [|w l IH]; intros f f' H y; cbn; auto. apply (IH (fun x => if x =? fst w then snd w else f x)). intros z. rewrite H. reflexivity. }
      induction l as [|st l IH]; intros a f; cbn [map exscan combine fold_left concat fst snd]; auto. rewrite IH.
      unfold arrive at 2. rewrite fold_left_app. fold (arrive f (bytes_at a (local_bytes st))).
      apply HE. intros y. symmetry. apply arrive_put.
Qed.
Lemma flush_order : forall e cfg np f0 ops s outs doff l,
  run e (init cfg np f0) ops = Ok (s, outs) -> arrival (flush_bytes doff (s_g s)) l ->
  NoDup (map fst l) /\ forall x, arrive (g_file (s_g s)) l x = g_file (flush_writes doff (s_g s)) x.
Proof.
  intros e cfg np f0 ops s outs doff l H HP. pose proof (run_weighed _ _ _ _ _ H (init_weighed _ _ _)) as HW.
  destruct (flush_concat doff (s_g s) HW) as [C1 C2]. unfold arrival in HP. rewrite C1 in HP.
  assert (HN : NoDup (map fst l)) by (eapply Permutation_NoDup; [apply Permutation_map, Permutation_sym; exact HP|apply bytes_at_nodup]).
  split; auto. intros x. rewrite (arrive_perm _ _ _ _ HP HN), C2. apply arrive_put.
Qed.

Lemma meta_order : forall e cfg np f0 ops s outs l,
  regular [] ops -> run e (init cfg np f0) ops = Ok (s, outs) -> arrival (meta_flush_bytes (s_g s)) l ->
  NoDup (map fst l) /\ forall f, get (arrive f l) 0 (Z.to_nat (Zsum (meta_sizes (g_ranks (s_g s))))) = md_content (g_ranks (s_g s)).
Proof.
  intros e cfg np f0 ops s outs l HR H HP. pose proof (regular_tiled _ _ _ _ _ _ _ HR H) as (sets & [T1 T2 T3 T4]). set (rs := g_ranks (s_g s)) in *.
  assert (HPz : map (@Zlen Z) (md_pieces rs) = meta_sizes rs).
  { assert (HM : map meta_len rs = map (@Zlen Z) (map meta_bytes rs)).
    { rewrite map_map. apply map_ext_Forall. revert T3. apply Forall_impl. intros. apply meta_len_any. auto. }
    unfold md_pieces, meta_sizes. destruct rs as [|r0 rest]; [reflexivity|]. cbn [map] in HM |- *. injection HM as HM0 HM1.
    rewrite Zlen_app, HM0, HM1. f_equal. f_equal. unfold Zlen at 1. rewrite words_length. unfold md_map. cbn [length]. rewrite prefix_ends_length. unfold meta_sizes, Zlen.
    cbn [map length]. rewrite map_length. lia. }
  unfold arrival, meta_flush_bytes in HP. fold rs in HP. rewrite <- HPz, parts_concat in HP.
  assert (HN : NoDup (map fst l)) by (eapply Permutation_NoDup; [apply Permutation_map, Permutation_sym; exact HP|apply bytes_at_nodup]).
  split; auto. intros f. unfold md_content. rewrite <- HPz. change (fold_left _ _ _) with (lay (fun _ => 0) 0 (md_pieces rs)).
  assert (EZ : Z.to_nat (Zsum (map (@Zlen Z) (md_pieces rs))) = length (concat (md_pieces rs))).
  { assert (EZ : Zsum (map (@Zlen Z) (md_pieces rs)) = Zlen (concat (md_pieces rs))); [|rewrite EZ; unfold Zlen; lia].
    generalize (md_pieces rs). induction l0; [reflexivity|]. cbn [map concat Zsum fold_right]. rewrite Zlen_app. unfold Zsum in IHl0. rewrite IHl0. reflexivity. }
  rewrite EZ, lay_get. rewrite <- (get_put_same f 0 (concat (md_pieces rs))) at 2. apply get_ext. intros i Hi. rewrite (arrive_perm _ _ _ _ HP HN). apply arrive_put.
Qed.

Definition h_two : list op := [OCreate dA; OWrite 0 0 [B [0;0] [1;2]] [1;1;2;2]; OWrite 1 0 [B [1;0] [1;2]] [3;3;4;4]; OWrite 1 0 [B [2;0] [1;1]] [5;5]].
Definition flushed_parts (doff : Z) (ops : list op) : res (list (list (Z * Z)) * list (list (Z * Z))) :=
  do p <- run e_dflt (init cfg_dflt 2 f_zero) ops; Ok (flush_bytes doff (s_g (fst p)), meta_flush_bytes (s_g (fst p))).
Lemma h_two_bytes : regular [] h_two /\ exists m1 m2, flushed_parts 100 h_two =
  Ok ([[(100,1);(101,1);(102,2);(103,2)]; [(104,3);(105,3);(106,4);(107,4);(108,5);(109,5)]], [m1; m2]) /\ length m1 = 84%nat /\ length m2 = 120%nat.
Proof.
  split.
  - unfold h_two. cbn [regular regular_op sets_step app]. repeat split; try exact Logic.I; try (intros _; eexists; split; [reflexivity|]; repeat constructor).
  - do 2 eexists. vm_compute. repeat split.
Qed.
Lemma aligned_order : let w1 := flat_map (fun p => bytes_at (fst p) (snd p)) (AlignModel.ost_write 4 2 0 100 0 [[1;2;3;4;5;6;7;8;9;10;11;12]]) in
  let w2 := flat_map (fun p => bytes_at (fst p) (snd p)) (AlignModel.ost_write 4 2 0 100 12 [[21;22;23;24]]) in
  arrival [w1; w2] (w1 ++ w2) /\ arrival [w1; w2] (w2 ++ w1) /\
  get (arrive (fun _ => 0) (w1 ++ w2)) 124 4 = [21;22;23;24] /\ get (arrive (fun _ => 0) (w2 ++ w1)) 124 4 = [9;10;11;12].
Proof.
  intros w1 w2. unfold arrival. cbn [concat]. rewrite app_nil_r. split; [apply Permutation_refl|]. split; [apply Permutation_app_comm|]. split; vm_compute; reflexivity.
Qed.
