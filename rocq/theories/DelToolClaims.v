(** Claims about the utilities on files from which datasets were deleted. *)
From Coq Require Import ZifyNat.
From Verif Require Import Base BaseProofs Spec MetaModel QueueModel FlushModel IndexModel ReadModel SysModel SysSpec History SysCheck Examples DefSpec SlotModel DumpModel DumpSpec DumpRun
  SizedProofs DefProofs ReplayModel ReplayDataModel ReplayDataSpec ReplayDataProofs ReplayDataRun ReplayDataClaims AnyProofs DelModel DelSpec DelProofs DelClaims DelToolProofs.

Lemma drun_app : forall e a b s, drun e s (a ++ b) = do p <- drun e s a; do q <- drun e (fst p) b; Ok (fst q, snd p ++ snd q).
Proof.
  intros e. induction a as [|o a IH]; intros b s; cbn [app drun bind fst snd].
  - destruct (drun e s b) as [[x y]| |]; reflexivity.
  - destruct (dstep e s o) as [[s1 o1]| |]; cbn [bind fst snd]; auto. rewrite IH. destruct (drun e s1 a) as [[x y]| |]; cbn [bind fst snd]; auto.
    destruct (drun e x b) as [[x' y']| |]; reflexivity.
Qed.
Lemma reopen_rel : forall m e s1 s2 doff np s1' out, s_g s2 = unlinked m (s_g s1) -> step e s1 (OReopen doff np) = Ok (s1', out) ->
  exists s2', step e s2 (OReopen doff np) = Ok (s2', out) /\ s_g s2' = unlinked m (s_g s1').
Proof.
  intros m e [g i] [g2 i2] doff np s1' out R H. cbn [s_g] in R. subst g2. cbn [step s_g] in *. cbv zeta in *. unfold unlinked. cbn [set_infos g_cfg g_infos].
  destruct (reopen_infos (g_cfg g) (g_infos g)) as [l| |] eqn:E; try discriminate. cbn [bind] in H. injection H as <- <-.
  fold (set_infos g (unlink m 0 (g_infos g))). rewrite (unlink_reopen m _ _ _ 0 E). cbn [bind]. eexists. split; [reflexivity|].
  unfold close_file. rewrite set_infos_flush, set_infos_meta. reflexivity.
Qed.

(** The file left behind. *)
Lemma closed_file : forall e cfg np f0 cs doff np' s outs, uses_live 0 [] cs ->
  (has cfg CFG_METADATA_SHARE = false \/ not_reopened false cs) ->
  run e (init cfg np f0) (kept cs ++ [OReopen doff np']) = Ok (s, outs) ->
  exists s' outs' m, drun e (dinit cfg np f0) (cs ++ [DOp (OReopen doff np')]) = Ok (s', outs') /\
    s_g (d_sys s') = unlinked m (s_g s) /\ forall d, In d m <-> In (DDelete d) cs.
Proof.
  intros e cfg np f0 cs doff np' s outs HU HC H. rewrite run_app in H.
  destruct (run e (init cfg np f0) (kept cs)) as [[s1 o1]| |] eqn:E1; try discriminate. cbn [bind fst snd run] in H.
  destruct (step e s1 (OReopen doff np')) as [[s1' o2]| |] eqn:E2; try discriminate. cbn [bind fst snd] in H.
  assert (HS : s1' = s) by congruence. subst s1'. clear H.
  assert (K : exists s2 outs2 m, drun e (dinit cfg np f0) cs = Ok (s2, outs2) /\ s_g (d_sys s2) = unlinked m (s_g s1) /\
            forall d, In d (d_gone s2) \/ In d m <-> In (DDelete d) cs).
  { destruct HC as [HC|HC].
    - destruct (drun_live cs e (init cfg np f0) (dinit cfg np f0) [] [] s1 o1 HC) as (s2 & D & m & R & G); auto; [split; reflexivity|constructor|cbn; tauto|].
      exists s2, (answers cs o1), m. split; [exact D|]. split; [apply R|]. intros d. rewrite G. cbn [In]. tauto.
    - destruct (open_same e cs (init cfg np f0) [] s1 o1 HC HU (Forall_nil _) E1) as (g' & D & G).
      exists (mkdsys s1 g'), (answers cs o1), []. split; [exact D|]. split.
      + cbn [d_sys]. unfold unlinked. rewrite unlink_nil. destruct (s_g s1). reflexivity.
      + intros d. cbn [d_gone]. rewrite G. cbn [In]. tauto. }
  destruct K as (s2 & outs2 & m & D & R & G).
  destruct (reopen_rel (d_gone s2 ++ m) e s1 (mksys (set_infos (s_g (d_sys s2)) (unlink (d_gone s2) 0 (g_infos (s_g (d_sys s2))))) (s_idx (d_sys s2))) doff np' s o2) as (s2' & S1 & S2); [|exact E2|].
  { cbn [s_g]. rewrite R. unfold unlinked. cbn [set_infos g_infos]. rewrite unlink_unlink. reflexivity. }
  exists (mkdsys s2' []), (outs2 ++ [o2]), (d_gone s2 ++ m). split; [|split].
  - rewrite drun_app, D. cbn [bind fst snd drun dstep]. cbv zeta. rewrite S1. reflexivity.
  - exact S2.
  - intros d. rewrite in_app_iff. apply G.
Qed.

Lemma in_kept : forall o cs, In (DOp o) cs <-> In o (kept cs).
Proof. intros o. induction cs as [|[x|d] cs IH]; cbn [kept In]; [tauto| |]; rewrite <- IH; intuition congruence. Qed.
Lemma listed_in : forall wd sets (d : list (list (list dentry))) ls l, map (map (map listed)) d = map (map (map (show wd sets))) ls -> In l (concat (concat ls)) ->
  exists x, In x (concat (concat d)) /\ listed x = show wd sets l.
Proof.
  intros wd sets d ls l H Hl. assert (K : map listed (concat (concat d)) = map (show wd sets) (concat (concat ls))) by (rewrite !concat_map; f_equal; f_equal; exact H).
  assert (Hi : In (show wd sets l) (map listed (concat (concat d)))) by (rewrite K; apply in_map; exact Hl). apply in_map_iff in Hi. destruct Hi as (x & A & B). eauto.
Qed.
Lemma listed_from : forall wd sets (d : list (list (list dentry))) ls x, map (map (map listed)) d = map (map (map (show wd sets))) ls -> In x (concat (concat d)) ->
  exists l, In l (concat (concat ls)) /\ listed x = show wd sets l.
Proof.
  intros wd sets d ls x H Hl. assert (K : map listed (concat (concat d)) = map (show wd sets) (concat (concat ls))) by (rewrite !concat_map; f_equal; f_equal; exact H).
  assert (Hi : In (listed x) (map (show wd sets) (concat (concat ls)))) by (rewrite <- K; apply in_map; exact Hl). apply in_map_iff in Hi. destruct Hi as (l & A & B). exists l. split; [exact B|congruence].
Qed.
Lemma log_from : forall np ops l, In l (concat (concat (ls_md (log_of np ops)))) -> exists rk, In (OWrite rk (lg_did l) (lg_sels l) (lg_data l)) ops.
Proof.
  intros np ops l H. destruct (log_written np ops) as (K & _). apply in_concat in H. destruct H as (sec & H1 & H2). apply in_concat in H1. destruct H1 as (secs & H3 & H4).
  rewrite Forall_forall in K. specialize (K _ H3). rewrite Forall_forall in K. specialize (K _ H4). rewrite Forall_forall in K. exact (K _ H2).
Qed.
Lemma all_slices : forall (md : list (list (list logged))), flat_map (fun secs => concat (slice 0 1 secs)) md = concat (concat md).
Proof. induction md as [|secs l IH]; [reflexivity|]. cbn [flat_map concat]. rewrite slice_all, IH, concat_app. reflexivity. Qed.

Lemma dump_deleted : forall e cfg np f0 cs doff np' s outs rk did sels data, let ops := kept cs ++ [OReopen doff np'] in
  e_coll e = true -> plain_cfg cfg -> legal_history true np ops -> sized_history true np ops ->
  ((has cfg CFG_SEL_ENCODE = false /\ has cfg CFG_METADATA_SHARE = false) \/ array_history np ops) ->
  run e (init cfg np f0) ops = Ok (s, outs) ->
  uses_live 0 [] cs -> (has cfg CFG_METADATA_SHARE = false \/ not_reopened false cs) ->
  In (DOp (OWrite rk did sels data)) cs -> data <> [] -> In (DDelete did) cs ->
  (exists d, dump_file (e_zlib e) true (s_g s) = Ok d) /\
  exists s' outs', drun e (dinit cfg np f0) (cs ++ [DOp (OReopen doff np')]) = Ok (s', outs') /\
    forall d, dump_file (e_zlib e) true (s_g (d_sys s')) <> Ok d.
Proof.
  intros e cfg np f0 cs doff np' s outs rk did sels data ops H1 H2 H3 H4 H5 H6 H7 H8 H9 H10 H11.
  destruct (dump_all e cfg np f0 ops s outs true H1 H2 H3 H4 H5 H6) as (d & D1 & D2). split; [exists d; exact D1|].
  destruct (closed_file e cfg np f0 cs doff np' s outs H7 H8 H6) as (s' & outs' & m & R & G & M). exists s', outs'. split; [exact R|]. intros d' D'.
  destruct (logged_write np (kept cs) doff np' rk did sels data H3) as (l & L1 & L2 & L3); [apply in_or_app; left; apply in_kept; exact H9|exact H10|].
  destruct (listed_in _ _ _ _ _ D2 L1) as (x & X1 & X2).
  apply (f_equal (fun a => (sh_did a, sh_size a))) in X2. unfold listed, show in X2. cbn [sh_did sh_size] in X2. injection X2 as X2 X3.
  unfold dump_file in D1, D'. rewrite G in D'. unfold unlinked in D'. cbn [set_infos g_infos g_mdsets g_file] in D'.
  refine (dump_mdsets_stuck m _ _ _ _ _ D1 x X1 _ _ _ D'); [apply M; unfold de_did; congruence|lia].
Qed.
Lemma replay_deleted : forall e cfg np f0 cs doff np' s outs rk did sels data, let ops := kept cs ++ [OReopen doff np'] in
  e_coll e = true -> plain_cfg cfg -> legal_history true np ops -> sized_history true np ops ->
  ((has cfg CFG_SEL_ENCODE = false /\ has cfg CFG_METADATA_SHARE = false) \/ array_history np ops) ->
  run e (init cfg np f0) ops = Ok (s, outs) ->
  Forall (stays_in (trace_of true np ops)) ops -> Forall (fun md => Zlen md < 2 ^ 31) (g_mdsets (s_g s)) ->
  uses_live 0 [] cs -> (has cfg CFG_METADATA_SHARE = false \/ not_reopened false cs) ->
  In (DOp (OWrite rk did sels data)) cs -> data <> [] -> In (DDelete did) cs ->
  (exists ws, replay_proc (e_zlib e) 0 1 (s_g s) = Ok ws) /\
  exists s' outs', drun e (dinit cfg np f0) (cs ++ [DOp (OReopen doff np')]) = Ok (s', outs') /\
    forall ws, replay_proc (e_zlib e) 0 1 (s_g (d_sys s')) <> Ok ws.
Proof.
  intros e cfg np f0 cs doff np' s outs rk did sels data ops H1 H2 H3 H4 H5 H6 HI H31 H7 H8 H9 H10 H11.
  destruct (replay_log_order e cfg np f0 ops s outs H1 H2 H3 H4 H5 H6 HI H31) as (ws & W & _). split; [exists ws; exact W|].
  destruct (closed_file e cfg np f0 cs doff np' s outs H7 H8 H6) as (s' & outs' & m & R & G & M). exists s', outs'. split; [exact R|]. intros ws' W'.
  destruct (dids_all e cfg np f0 ops s outs 0 1 H1 H2 H3 H4 H5 H6 H31 ltac:(lia) (legal_sections _ _ H3)) as (es & E1 & E2 & E3).
  destruct (logged_write np (kept cs) doff np' rk did sels data H3) as (l & L1 & L2 & _); [apply in_or_app; left; apply in_kept; exact H9|exact H10|].
  rewrite all_slices in E2. assert (Hi : In did (map me_did es)) by (rewrite E2, <- L2; apply in_map; exact L1).
  apply in_map_iff in Hi. destruct Hi as (x & X1 & X2). rewrite Forall_forall in E3. destruct (E3 _ X2) as (i & X3).
  rewrite G in W'. refine (replay_stuck m _ _ _ _ _ E1 x i X2 _ X3 _ W'). apply M. congruence.
Qed.
Lemma tools_unwritten : forall e cfg np f0 cs doff np' s outs, let ops := kept cs ++ [OReopen doff np'] in
  e_coll e = true -> plain_cfg cfg -> legal_history true np ops -> sized_history true np ops ->
  ((has cfg CFG_SEL_ENCODE = false /\ has cfg CFG_METADATA_SHARE = false) \/ array_history np ops) ->
  run e (init cfg np f0) ops = Ok (s, outs) ->
  uses_live 0 [] cs -> (has cfg CFG_METADATA_SHARE = false \/ not_reopened false cs) ->
  (forall rk did sels data, In (DOp (OWrite rk did sels data)) cs -> ~ In (DDelete did) cs) ->
  exists s' outs', drun e (dinit cfg np f0) (cs ++ [DOp (OReopen doff np')]) = Ok (s', outs') /\
    (forall withdata, dump_file (e_zlib e) withdata (s_g (d_sys s')) = dump_file (e_zlib e) withdata (s_g s)) /\
    (Forall (fun md => Zlen md < 2 ^ 31) (g_mdsets (s_g s)) ->
     replay_proc (e_zlib e) 0 1 (s_g (d_sys s')) = replay_proc (e_zlib e) 0 1 (s_g s)).
Proof.
  intros e cfg np f0 cs doff np' s outs ops H1 H2 H3 H4 H5 H6 H7 H8 HN.
  destruct (closed_file e cfg np f0 cs doff np' s outs H7 H8 H6) as (s' & outs' & m & R & G & M). exists s', outs'. split; [exact R|]. rewrite G.
  assert (HM : forall l, In l (concat (concat (ls_md (log_of np ops)))) -> ~ In (lg_did l) m).
  { intros l Hl. destruct (log_from _ _ _ Hl) as (rk & K). apply in_app_or in K. destruct K as [K|[K|[]]]; [|discriminate]. rewrite M. eapply HN. apply in_kept. exact K. }
  split.
  - intros wd. destruct (dump_all e cfg np f0 ops s outs wd H1 H2 H3 H4 H5 H6) as (d & D1 & D2). rewrite D1.
    unfold dump_file in *. unfold unlinked. cbn [set_infos g_infos g_mdsets g_file]. apply dump_mdsets_same; [exact D1|]. intros x Hx.
    destruct (listed_from _ _ _ _ _ D2 Hx) as (l & L1 & L2). apply (f_equal sh_did) in L2. unfold listed, show in L2. cbn [sh_did] in L2. unfold de_did. rewrite L2. apply HM. exact L1.
  - intros H31. destruct (dids_all e cfg np f0 ops s outs 0 1 H1 H2 H3 H4 H5 H6 H31 ltac:(lia) (legal_sections _ _ H3)) as (es & E1 & E2 & _).
    apply (replay_same m _ _ es E1). intros x Hx. rewrite all_slices in E2. assert (Hi : In (me_did x) (map lg_did (concat (concat (ls_md (log_of np ops)))))) by (rewrite <- E2; apply in_map; exact Hx).
    apply in_map_iff in Hi. destruct Hi as (l & L1 & L2). rewrite <- L1. apply HM. exact L2.
Qed.

(** * Cases *)
(** Default settings, two processes: a dataset with data in shared and multi-block entries is deleted before the file is closed. *)
Definition del_own : list dcall := map DOp h_own0 ++ [DDelete 0].
Lemma del_own_ok : let ops := kept del_own ++ [OReopen 9000 2] in
  e_coll e_dflt = true /\ plain_cfg cfg_dflt /\ legal_history true 2 ops /\ sized_history true 2 ops /\ array_history 2 ops /\
  (exists s outs, run e_dflt (init cfg_dflt 2 f_zero) ops = Ok (s, outs) /\ Forall (fun md => Zlen md < 2 ^ 31) (g_mdsets (s_g s))) /\
  Forall (stays_in (trace_of true 2 ops)) ops /\ uses_live 0 [] del_own /\ not_reopened false del_own /\
  In (DOp (OWrite 1 0 [B [2;2] [2;3]] (by_ 50 12))) del_own /\ In (DDelete 0) del_own.
Proof.
  cbv zeta. change (kept del_own ++ [OReopen 9000 2]) with h_own. destruct own_ex as (A & B & C & D & _ & _ & E & s & outs & F & G & _).
  split; [reflexivity|]. split; [exact D|]. split; [exact A|]. split; [exact B|]. split; [exact C|]. split; [exists s, outs; auto|]. split; [exact E|].
  split; [cbn; intuition lia|]. split; [cbn; auto|]. split; [do 3 right; left; reflexivity|]. apply in_or_app. right. left. reflexivity.
Qed.
(** Default settings: a dataset that was never written is deleted. *)
Definition del_new : list dcall := map DOp h_own0 ++ [DOp (OCreate dA); DDelete 2].
Lemma del_new_ok : let ops := kept del_new ++ [OReopen 9000 2] in
  legal_history true 2 ops /\ sized_history true 2 ops /\ array_history 2 ops /\
  (exists s outs, run e_dflt (init cfg_dflt 2 f_zero) ops = Ok (s, outs)) /\
  uses_live 0 [] del_new /\ not_reopened false del_new /\
  (forall rk did sels data, In (DOp (OWrite rk did sels data)) del_new -> ~ In (DDelete did) del_new).
Proof.
  cbv zeta. split; [legal|]. split; [apply sized_b_ok; vm_compute; reflexivity|]. split; [apply (array_b_ok 2); vm_compute; reflexivity|].
  split; [eexists; eexists; vm_compute; reflexivity|]. split; [cbn; intuition lia|]. split; [cbn; auto|].
  intros rk did sels data H. cbn in H. intuition; try discriminate; cbn in *; intuition congruence.
Qed.
(** Without data (-H) the listing is not the same either: no coordinates are shown. *)
Definition del_one : list dcall := [DOp (OCreate dA); DOp (OCreate dA); DOp (OWrite 0 0 [B [1;0] [1;2]] (by_ 1 4)); DOp (OWrite 0 1 [B [0;0] [1;2]] (by_ 5 4)); DDelete 0].
Definition shapes (d : list (list (list dentry))) : list (Z * list (list Z * list Z)) :=
  map (fun x => (h_did (de_hdr x), map (fun b => (db_start b, db_count b)) (de_blocks x))) (concat (concat d)).
Lemma del_one_listed : uses_live 0 [] del_one /\
  exists s s' outs outs' d d', run e_dflt (init 0 1 f_zero) (kept del_one ++ [OReopen 100 1]) = Ok (s, outs) /\
    drun e_dflt (dinit 0 1 f_zero) (del_one ++ [DOp (OReopen 100 1)]) = Ok (s', outs') /\
    dump_file (e_zlib e_dflt) false (s_g s) = Ok d /\ dump_file (e_zlib e_dflt) false (s_g (d_sys s')) = Ok d' /\
    shapes d = [(0, [([1;0], [1;2])]); (1, [([0;0], [1;2])])] /\ shapes d' = [(0, [([], [])]); (1, [([0;0], [1;2])])].
Proof.
  split; [cbn; intuition lia|]. do 6 eexists. split; [vm_compute; reflexivity|]. split; [vm_compute; reflexivity|]. split; [vm_compute; reflexivity|]. split; [vm_compute; reflexivity|]. split; reflexivity.
Qed.
