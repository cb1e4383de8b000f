(** The listing of the log of a whole run. *)
From Verif Require Import Base BaseProofs Spec MetaModel QueueModel FlushModel IndexModel ReadModel SysModel
  SysSpec History GeomProofs MetaProofs QueueProofs IndexProofs SearchProofs SortProofs ReadProofs HitProofs MdProofs StoreProofs
  FlushProofs ReadOneProofs SysProofs HistoryProofs ClaimProofs SysCheck Examples ClaimProofs2 SizedProofs DefSpec DefProofs DumpModel DumpSpec DumpProofs.
From Coq Require Import ZifyNat ZifyN Permutation.

(** ** The log of the invariant and the log of the calls *)
Definition is_of (a : awr) : issued := mkis (a_did a) (a_sels a) (a_data a).
Definition ls_of (l : list (list (list pwr)) * list grank) : lstate :=
  mkls (map (map (map lg_of)) (fst l)) (map (fun g => map lg_of (gr_fl g)) (snd l)) (map (fun g => map is_of (gr_pd g)) (snd l)).

Lemma lay_place : forall l off, lay_one off (map is_of l) = map lg_of (place off l).
Proof. induction l as [|a l IH]; intros off; [reflexivity|]. cbn [map lay_one place]. rewrite IH. reflexivity. Qed.
Lemma issued_abytes : forall l, issued_bytes (map is_of l) = abytes l.
Proof. intros. unfold issued_bytes, abytes. rewrite map_map. reflexivity. Qed.
Lemma ls_flush : forall md grs doff, ls_of (md, gflush doff grs) = l_flush doff (ls_of (md, grs)).
Proof.
  intros md grs doff. unfold ls_of, l_flush. cbn [fst snd ls_md ls_fl ls_pd]. f_equal.
  - revert doff. induction grs as [|g grs IH]; intros doff; [reflexivity|]. cbn [gflush map lay_all gr_fl]. unfold join. cbn [combine map fst snd].
    rewrite lay_place, issued_abytes, <- map_app. f_equal. apply IH.
  - revert doff. induction grs as [|g grs IH]; intros doff; [reflexivity|]. cbn [gflush map gr_pd]. f_equal. apply IH.
Qed.
Lemma nothing_flushed : forall grs, forallb (fun l : list logged => match l with [] => true | _ => false end) (map (fun g => map lg_of (gr_fl g)) grs) = true <->
  flat_map gr_fl grs = [].
Proof.
  induction grs as [|g grs IH]; [cbn; tauto|]. cbn [map forallb flat_map]. destruct (gr_fl g) as [|p l]; cbn [map app andb]; [exact IH|]. split; discriminate.
Qed.
Lemma ls_publish : forall md grs, all_pd grs = [] -> ls_of (gmeta grs md, gcleared grs) = l_publish (ls_of (md, grs)).
Proof.
  intros md grs HA. unfold ls_of, l_publish, gmeta. cbn [fst snd ls_md ls_fl ls_pd]. pose proof (nothing_flushed grs) as N. f_equal.
  - destruct (forallb _ (map (fun g => map lg_of (gr_fl g)) grs)).
    + rewrite (proj1 N eq_refl). reflexivity.
    + destruct (flat_map gr_fl grs); [specialize (proj2 N eq_refl); discriminate|]. rewrite map_app. cbn [map]. rewrite map_map. reflexivity.
  - unfold gcleared. rewrite !map_map. reflexivity.
  - unfold gcleared, all_pd in *. rewrite map_map. clear N. induction grs as [|g grs IH]; [reflexivity|]. cbn [map flat_map gr_pd] in *.
    apply app_eq_nil in HA. destruct HA as [HA HB]. rewrite HA, IH by auto. reflexivity.
Qed.
Lemma ls_step : forall l o, ls_of (glog_step true l o) = l_step (ls_of l) o.
Proof.
  intros [md grs] o. destruct o as [d|did dims|rk did sels data|doff|doff calls|doff np]; cbn [glog_step l_step fst snd]; try reflexivity.
  - unfold gwrite. cbn [a_sels]. destruct sels as [|b sels]; [reflexivity|].
    destruct (nth_error grs rk) as [gr|] eqn:E.
    + unfold ls_of. cbn [fst snd ls_md ls_fl ls_pd]. rewrite !map_upd_nth. cbn [gr_fl gr_pd]. f_equal.
      * rewrite SysProofs.upd_nth_same; auto. rewrite nth_error_map, E. reflexivity.
      * f_equal. rewrite map_app. cbn [map]. f_equal.
        rewrite (nth_error_nth (map (fun g => map is_of (gr_pd g)) grs) rk (x := map is_of (gr_pd gr))); auto. rewrite nth_error_map, E. reflexivity.
    + unfold ls_of. cbn [fst snd ls_md ls_fl ls_pd]. apply nth_error_None in E. f_equal. rewrite upd_oob; auto. rewrite map_length. auto.
  - apply ls_flush.
  - rewrite <- ls_flush, <- ls_publish; auto. apply gflush_all_pd.
  - rewrite <- ls_flush, <- ls_publish by apply gflush_all_pd. unfold ls_of. cbn [fst snd ls_md]. f_equal.
    + clear. induction np; cbn [repeat map]; [reflexivity|]. f_equal. auto.
    + clear. induction np; cbn [repeat map]; [reflexivity|]. f_equal. auto.
Qed.
Lemma ls_run : forall ops l, ls_of (fold_left (glog_step true) ops l) = fold_left l_step ops (ls_of l).
Proof. induction ops as [|o ops IH]; intros l; [reflexivity|]. cbn [fold_left]. rewrite IH, ls_step. reflexivity. Qed.

(** ** The file does not depend on the index *)
Lemma same_file : forall e e' ops s s' a b o o', e_zlib e = e_zlib e' -> e_coll e = e_coll e' -> s_g s = s_g s' ->
  run e s ops = Ok (a, o) -> run e' s' ops = Ok (b, o') -> s_g a = s_g b.
Proof.
  intros e e' ops. induction ops as [|op ops IH]; intros s s' a b o o' Hz Hc Hs H1 H2; cbn [run] in H1, H2; [congruence|].
  destruct (step e s op) as [[s1 x1]| |] eqn:S1; try discriminate. destruct (step e' s' op) as [[s2 x2]| |] eqn:S2; try discriminate. cbn [bind fst snd] in H1, H2.
  destruct (run e s1 ops) as [[s3 x3]| |] eqn:R1; try discriminate. destruct (run e' s2 ops) as [[s4 x4]| |] eqn:R2; try discriminate. cbn [bind fst snd] in H1, H2.
  assert (s_g s1 = s_g s2).
  { clear - Hz Hc Hs S1 S2. unfold step in *. rewrite <- Hs, <- ?Hc, <- ?Hz in S2. destruct op as [d|did dims|rk did sels data|doff|doff calls|doff np].
    - destruct (create_info _ d); try discriminate. cbn [bind] in *. injection S1 as <- _. injection S2 as <- _. reflexivity.
    - destruct (info_at _ did) as [[d|]|]; try discriminate. destruct (set_extent _ d dims) as [d' [|]]; try discriminate. injection S1 as <- _. injection S2 as <- _. reflexivity.
    - destruct (nth_error _ rk); try discriminate. destruct (ds_write _ _ _ _ _ _ _); try discriminate. cbn [bind] in *. injection S1 as <- _. injection S2 as <- _. reflexivity.
    - injection S1 as <- _. injection S2 as <- _. reflexivity.
    - cbv zeta in S1, S2. destruct (read_each e _ _ calls); try discriminate. destruct (read_each e' _ _ calls); try discriminate. cbn [bind] in *. injection S1 as <- _. injection S2 as <- _. reflexivity.
    - cbv zeta in S1, S2. destruct (reopen_infos _ _); try discriminate. cbn [bind] in *. injection S1 as <- _. injection S2 as <- _. reflexivity. }
  assert (s_g s3 = s_g s4) by (eapply IH; eauto). congruence.
Qed.

(** ** The listing *)
Lemma info_esize : forall cfg infos sets did, Forall2 (info_rep cfg) infos sets -> esize_of (geom infos) did = esize_at sets did.
Proof.
  intros cfg infos sets did H. unfold esize_of, geom, esize_at. generalize (Z.to_nat did) as k.
  induction H as [|i d infos sets H1 H2 IH]; intros [|k]; cbn [nth_error]; auto.
  destruct H1 as (d' & -> & H1). cbn [di_esize]. tauto.
Qed.

Lemma Forall_in3 : forall (P : pwr -> Prop) ms C fl, Permutation C (entries ms ++ fl) -> Forall P C -> Forall (Forall (Forall P)) (map (map snd) ms).
Proof.
  intros P ms C fl HP HF. assert (HE : Forall P (entries ms)). { apply (Permutation_Forall HP) in HF. apply Forall_app in HF. tauto. }
  clear - HE. unfold entries in HE. induction ms as [|m ms IH]; [constructor|]. cbn [flat_map map] in *. apply Forall_app in HE. destruct HE as [H1 H2]. constructor; auto.
  clear - H1. induction m as [|x m IH]; [constructor|]. cbn [flat_map map] in *. apply Forall_app in H1. destruct H1. constructor; auto.
Qed.

Lemma dump_inv : forall e cfg cv s sp h n C ms grs z wd, e_kind e = KArray -> inv e cfg cv s sp h n C ms grs ->
  exists d, dump_file z wd (s_g s) = Ok d /\
    map (map (map listed)) d = map (map (map (show wd (ss_sets sp)))) (ls_md (ls_of (glog ms grs))).
Proof.
  intros e cfg cv s sp h n C ms grs z wd HK I. unfold dump_file. rewrite (v_md _ _ _ _ _ _ _ _ _ _ I).
  pose proof (v_secs _ _ _ _ _ _ _ _ _ _ I) as HS. pose proof (v_ok _ _ _ _ _ _ _ _ _ _ I) as HO. rewrite HK in *.
  destruct (dump_mdsets_ok z cfg (g_infos (s_g s)) wd (g_file (s_g s)) ms (v_mdok _ _ _ _ _ _ _ _ _ _ I) HS) as (d & D1 & D2).
  - eapply Forall_in3; [apply (v_perm _ _ _ _ _ _ _ _ _ _ I)|]. exact HO.
  - eapply Forall_in3; [apply (v_perm _ _ _ _ _ _ _ _ _ _ I)|]. exact (v_file _ _ _ _ _ _ _ _ _ _ I).
  - exists d. split; [exact D1|]. rewrite D2. unfold ls_of, glog. cbn [fst ls_md]. rewrite !map_map. apply map_ext. intros m. rewrite !map_map. apply map_ext. intros x. rewrite map_map.
    apply map_ext. intros p. unfold show_es, show, lg_of. cbn [lg_did lg_at lg_sels lg_data].
    rewrite (info_esize _ _ _ _ (v_infos _ _ _ _ _ _ _ _ _ _ I)). reflexivity.
Qed.

Definition e_list (z : zlib) : env := mkenv z KArray None isort true.

Lemma dump_ok : forall z cfg cv np f0 ops s outs wd, ok_history (e_list z) cfg cv np ops ->
  run (e_list z) (init cfg np f0) ops = Ok (s, outs) ->
  exists d, dump_file z wd (s_g s) = Ok d /\
    map (map (map listed)) d = map (map (map (show wd (t_sets (trace_of true np ops))))) (ls_md (log_of np ops)).
Proof.
  intros z cfg cv np f0 ops s outs wd (_ & H1 & H2 & H3 & H4 & H5) HR.
  destruct (run_ok_log (e_list z) cfg cv ops _ _ _ _ _ _ _ (inv_init (e_list z) cfg cv np f0 H1 H2) H4 H5 ltac:(lia)) as (s' & C' & ms' & grs' & h' & R1 & R2 & R3).
  assert (s' = s) by congruence. subst s'.
  destruct (dump_inv (e_list z) _ _ _ _ _ _ _ _ _ z wd eq_refl R2) as (d & D1 & D2). exists d. split; [exact D1|]. rewrite D2.
  pose proof (hrel_run _ _ _ _ _ _ _ (hrel_init np) H5) as HT. change (e_coll (e_list z)) with true in *. unfold trace_of.
  rewrite (r_sets _ _ HT). rewrite R3, ls_run. unfold log_of. repeat f_equal. unfold ls_of, glog. cbn [fst snd map]. f_equal; clear; (induction np as [|np IH]; [reflexivity|]); cbn [repeat map]; f_equal; exact IH.
Qed.

Lemma dump_all : forall e cfg np f0 ops s outs wd, e_coll e = true -> plain_cfg cfg ->
  legal_history true np ops -> sized_history true np ops ->
  ((has cfg CFG_SEL_ENCODE = false /\ has cfg CFG_METADATA_SHARE = false) \/ array_history np ops) ->
  run e (init cfg np f0) ops = Ok (s, outs) ->
  exists d, dump_file (e_zlib e) wd (s_g s) = Ok d /\
    map (map (map listed)) d = map (map (map (show wd (t_sets (trace_of true np ops))))) (ls_md (log_of np ops)).
Proof.
  intros e cfg np f0 ops s outs wd Hc Hp Hl Hs Hb HR.
  assert (exists cv, ok_history (e_list (e_zlib e)) cfg cv np ops) as [cv Hok].
  { destruct Hb as [[B1 B2]|[f B]].
    - exists (mkconv (fun _ _ => false) (fun _ => 1)). apply sized_ok; auto. exact isort_is_sort.
    - exists (acv f). apply array_ok; auto. exact isort_is_sort. }
  destruct (run_spec _ _ _ _ f0 _ Hok) as [s' R'].
  assert (HG : s_g s = s_g s') by (eapply same_file; [| | |exact HR|exact R']; auto). rewrite HG. eapply dump_ok; eauto.
Qed.
