(** Statements about buffers and life times, in the form used by P_Life.v. *)
From Coq Require Import ZifyNat.
From Verif Require Import Base BaseProofs BufModel BufSpec BufProofs RefModel RefSpec RefProofs.

Lemma accounting : forall limit os s, brun (bufs_new limit 0) os = Ok s ->
  bf_used s = outstanding s mod 2 ^ 64 /\ (bf_live s = [] -> bf_used s = 0).
Proof.
  intros limit os s H. apply brun_sum in H; [|reflexivity].
  split; [exact H|]. intros E. rewrite H. unfold outstanding. rewrite E. reflexivity.
Qed.

Lemma limit_kept : forall L os s, 0 <= L < 2 ^ 63 -> sizes_below (2 ^ 63) os ->
  brun (bufs_new L 0) os = Ok s -> bf_used s = outstanding s /\ 0 <= bf_used s <= L.
Proof.
  intros L os s HL Hs H. apply (brun_within L) in H; auto.
  - destruct H as (_ & A & B & C). apply Zsum_nonneg in C. fold (outstanding s) in C. lia.
  - repeat split; cbn; auto; unfold outstanding; cbn; lia.
Qed.

(** Space is refused only when it would exceed the limit (or the system is out of memory). *)
Lemma refused_only_full : forall L os s n oom, 0 <= L < 2 ^ 63 -> sizes_below (2 ^ 63) os ->
  0 <= n < 2 ^ 63 -> brun (bufs_new L 0) os = Ok s ->
  (balloc oom s n = Err <-> L < outstanding s + n \/ oom = true).
Proof.
  intros L os s n oom HL Hs Hn H. apply (brun_within L) in H; auto.
  2:{ repeat split; cbn; auto; unfold outstanding; cbn; lia. }
  destruct H as (A & B & C & D). apply Zsum_nonneg in D. fold (outstanding s) in D.
  unfold balloc. rewrite A, B. rewrite !u64_id by lia.
  destruct (Z.eqb_spec L BSIZE_UNLIMITED) as [E|E]; [unfold BSIZE_UNLIMITED in E; lia|]. cbn [negb andb].
  destruct (Z.ltb_spec L (outstanding s + n)).
  - split; auto.
  - destruct oom; split; auto; try discriminate. intros [F|F]; [lia|discriminate].
Qed.

Lemma tidy_start : forall limit, tidy (bufs_new limit 0) [].
Proof. intros. repeat split; cbn; auto; constructor. Qed.

Lemma flush_releases : forall e mem limit os q,
  wrun e (start_proc mem limit) (os ++ [WFlush]) = Ok q ->
  bf_live (wp_bufs (fst q)) = [] /\ bf_used (wp_bufs (fst q)) = 0.
Proof.
  intros e mem limit os q H.
  assert (T : tidy (wp_bufs (fst q)) (wp_pend (fst q))).
  { eapply wrun_tidy; [|exact H]. apply tidy_start. }
  assert (P : wp_pend (fst q) = []).
  { clear T. revert q H. generalize (start_proc mem limit). induction os as [|o os IH]; intros p q H; cbn [app wrun] in H.
    - destruct (wstep e p WFlush) as [r| |] eqn:W; cbn in H; try discriminate. inversion H; subst; cbn.
      cbn in W. destruct (free_all _ _) in W; cbn in W; try discriminate. inversion W; auto.
    - destruct (wstep e p o) as [r| |]; cbn [bind] in H; try discriminate.
      destruct (wrun e (fst r) (os ++ [WFlush])) as [q'| |] eqn:R; cbn [bind] in H; try discriminate.
      inversion H; subst; cbn [fst]. eauto. }
  destruct T as (A & _ & _ & U). rewrite P in A. cbn in A. apply Permutation_nil in A.
  apply map_eq_nil in A. split; auto. rewrite U. unfold outstanding. rewrite A. reflexivity.
Qed.

Lemma no_double_free : forall e mem limit os, (forall b, we_filter e b <> UB) ->
  wrun e (start_proc mem limit) os <> UB.
Proof. intros. apply wrun_no_ub; auto. apply tidy_start. Qed.

Lemma buffered_safe : forall e mem limit os q, stores_safe [] os ->
  wrun e (start_proc mem limit) os = Ok q -> ideal e mem [] os = Ok (snd q).
Proof.
  intros e mem limit os q S H. eapply (wrun_ideal e os (start_proc mem limit) [] []) in H; eauto.
  - apply tidy_start.
  - constructor.
Qed.

Lemma no_alias_safe : forall os,
  Forall (fun o => match o with WWrite m _ _ _ _ _ => aliases m = false | _ => True end) os ->
  stores_safe [] os.
Proof. induction 1 as [|o os H1 H2 IH]; cbn; auto. destruct o; cbn in *; auto. rewrite H1. auto. Qed.

Lemma isolated : forall e mem limit os q,
  Forall (fun o => match o with WWrite m _ _ _ _ _ => aliases m = false | _ => True end) os ->
  wrun e (start_proc mem limit) os = Ok q -> ideal e mem [] os = Ok (snd q).
Proof. intros. eapply buffered_safe; eauto. apply no_alias_safe; auto. Qed.

Lemma unbuffered_no_alias : forall m, wm_buffered m = false -> aliases m = false.
Proof. intros m H. unfold aliases. rewrite H. reflexivity. Qed.

(** Examples. *)
Definition ex_ext : wext :=
  mkwext (fun mem a => get mem (a + 4) 2 ++ get mem a 2) (map (Z.mul 2)) (fun l => Ok (7 :: l)).

Lemma uninitialised :
  (exists garbage n s, 0 <= garbage < 2 ^ 64 /\ 0 <= n <= 10 /\
     brun (bufs_new 10 garbage) [] = Ok s /\ balloc false s n = Err) /\
  (exists garbage os s, 0 <= garbage < 2 ^ 64 /\ sizes_below (2 ^ 63) os /\
     brun (bufs_new 10 garbage) os = Ok s /\ 10 < outstanding s).
Proof.
  split.
  - exists 4096, 1, (bufs_new 10 4096). repeat split; try lia.
  - exists (2 ^ 64 - 100), [BAlloc 100 false]. eexists. split; [lia|].
    split; [constructor; [lia|constructor]|]. split; vm_compute; reflexivity.
Qed.

Lemma wrapped :
  exists os s, sizes_below (2 ^ 64) os /\ brun (bufs_new 10 0) os = Ok s /\ 10 < outstanding s.
Proof.
  exists [BAlloc 5 false; BAlloc (2 ^ 64 - 5) false]. eexists. split; [constructor; [lia|constructor; [lia|constructor]]|].
  split; vm_compute; reflexivity.
Qed.

Lemma buffered_not_isolated :
  exists e mem os q m, wm_buffered m = true /\ In (WWrite m 0 4 4 false false) os /\
    wrun e (start_proc mem BSIZE_UNLIMITED) os = Ok q /\ ideal e mem [] os <> Ok (snd q).
Proof.
  set (m := mkwmode true true true false).
  set (os := [WWrite m 0 4 4 false false; WStore 1 [9; 9]; WFlush]).
  exists ex_ext, (fun a => a), os.
  destruct (wrun ex_ext (start_proc (fun a => a) BSIZE_UNLIMITED) os) as [q| |] eqn:E;
    [|vm_compute in E; discriminate|vm_compute in E; discriminate].
  exists q, m. split; [reflexivity|]. split; [left; reflexivity|]. split; [auto|].
  assert (S : snd q = [[0; 9; 9; 3]]).
  { assert (Q : (match wrun ex_ext (start_proc (fun a => a) BSIZE_UNLIMITED) os with Ok q => snd q | _ => [] end) = [[0; 9; 9; 3]]) by (vm_compute; reflexivity).
    rewrite E in Q. exact Q. }
  rewrite S. vm_compute. discriminate.
Qed.

(** * Reference counts *)

Lemma closed_once : forall log os, Zlen os < 2 ^ 31 - 1 ->
  opens_succeed log os -> file_id_open (fobj_new log) os ->
  exists f, rrun (fobj_new log) os = Ok f /\ fo_closes f = expected_closes f.
Proof.
  intros log os L S G. destruct (run_inv os (fobj_new log)) as (f & E & I); auto.
  - apply rinv_new.
  - change (fo_ref (fobj_new log)) with 1; lia.
  - exists f; split; auto. apply rinv_closes; auto.
Qed.

(** Without H5Iget_file_id the condition on it is empty. *)
Lemma no_get_file : forall f os, Forall (fun o => match o with RGetFile _ => False | _ => True end) os ->
  file_id_open f os.
Proof.
  intros f os F pre h post g E R. subst. apply Forall_app in F. destruct F as [_ F].
  inversion F; contradiction.
Qed.

Lemma get_file_early : exists os f, rrun (fobj_new true) os = Ok f /\
  ~ all_closed f /\ fo_closes f = 1%nat /\ rrun f [RClose 1 true] = UB.
Proof.
  exists [ROpen 0 KDset true; RClose 0 true; RGetFile 1; RClose 2 true]. eexists.
  split; [vm_compute; reflexivity|]. split; [discriminate|]. split; vm_compute; reflexivity.
Qed.

Lemma failed_open_leaks : exists os f, rrun (fobj_new false) os = Ok f /\
  all_closed f /\ fo_closes f = 0%nat.
Proof.
  exists [ROpen 0 KDset false; RClose 0 true]. eexists.
  split; [vm_compute; reflexivity|]. split; reflexivity.
Qed.

(** * Open files *)

Lemma second_open_refused : forall fs os p,
  is_open fs (orun fs otable0 os) p -> ot_openf fs (orun fs otable0 os) p = Err.
Proof.
  intros fs os p (id & who & I & (N & E)). assert (V := oinv_run fs os otable0 (oinv0 fs)).
  unfold ot_openf, ot_search. destruct (fs p) as [[dev ino]|] eqn:F; [|congruence].
  subst who. apply (oi_map _ _ V) in I.
  destruct (find (fun q => fst q =? ino) (ot_map (orun fs otable0 os))) eqn:G; [reflexivity|].
  apply (find_none _ _ G) in I. cbn in I. rewrite Z.eqb_refl in I. discriminate.
Qed.

Lemma first_open_accepted : forall fs os p, one_device fs ->
  ~ is_open fs (orun fs otable0 os) p -> exists r, ot_openf fs (orun fs otable0 os) p = Ok r.
Proof.
  intros fs os p D N. assert (V := oinv_run fs os otable0 (oinv0 fs)).
  unfold ot_openf, ot_search. destruct (fs p) as [[dev ino]|] eqn:F; [|eauto].
  destruct (find (fun q => fst q =? ino) (ot_map (orun fs otable0 os))) as [[i id]|] eqn:G; cbn [option_map]; [|eauto].
  exfalso. apply N. apply find_some in G. destruct G as [G1 G2]. cbn in G2. apply Z.eqb_eq in G2. subst i.
  destruct (oi_open _ _ V _ _ G1) as (d & q & H1 & H2). exists id, (Some (d, ino)). split; auto.
  split; [congruence|]. rewrite F. f_equal. f_equal. eapply D; eauto.
Qed.

Lemma closed_forgotten : forall fs os id,
  let t := orun fs otable0 (os ++ [FClose id]) in forall who, ~ In (id, who) (ot_open t).
Proof.
  intros fs os id. unfold orun. rewrite fold_left_app. cbn. fold (orun fs otable0 os).
  intros who I. unfold ot_close in I. destruct (find _ _) as [[id' w]|] eqn:F.
  - cbn in I. apply filter_In in I. destruct I as [_ I]. cbn in I. rewrite Nat.eqb_refl in I. discriminate.
  - apply (find_none _ _ F) in I. cbn in I. rewrite Nat.eqb_refl in I. discriminate.
Qed.

Lemma other_device_refused : exists fs os p,
  ~ is_open fs (orun fs otable0 os) p /\ ot_openf fs (orun fs otable0 os) p = Err.
Proof.
  exists (fun p => Some (p, 7)), [FOpen 1], 2. split; [|reflexivity].
  intros (id & who & I & (N & E)). cbn in I. destruct I as [I|[]]. inversion I; subst. discriminate.
Qed.

(** Cases meeting the hypotheses. *)
Definition ex_bops : list bop := [BAlloc 40 false; BAlloc 70 false; BAlloc 30 true; BAlloc 50 false; BFree 0; BAlloc 25 false].
Lemma ex_bops_run : sizes_below (2 ^ 63) ex_bops /\
  exists s, brun (bufs_new 100 0) ex_bops = Ok s /\ bf_live s = [(1%nat, 50); (2%nat, 25)] /\ bf_used s = 75.
Proof.
  split.
  - unfold ex_bops, sizes_below. repeat (constructor; [first [lia|exact Logic.I]|]). constructor.
  - eexists; split; [vm_compute; reflexivity|]. split; reflexivity.
Qed.

Definition ex_wops : list wop :=
  [ WWrite (mkwmode false true true false) 0 3 3 false false; WStore 0 [50; 51];
    WWrite (mkwmode true false true false) 0 2 4 false false; WStore 1 [60];
    WWrite (mkwmode true true false true) 0 4 4 false false;
    WWrite (mkwmode true true true true) 0 2 4 false false; WStore 0 [1; 2; 3; 4; 5; 6]; WFlush ].
Lemma ex_wops_run :
  Forall (fun o => match o with WWrite m _ _ _ _ _ => aliases m = false | _ => True end) ex_wops /\
  (exists q, wrun ex_ext (start_proc (fun a => a) 20) ex_wops = Ok q) /\
  ideal ex_ext (fun a => a) [] ex_wops = Ok [[0; 1; 2]; [100; 102]; [7; 4; 5; 50; 60]; [7; 50; 60]].
Proof.
  split; [unfold ex_wops; repeat (constructor; [first [reflexivity|exact Logic.I]|]); constructor|].
  split; [|vm_compute; reflexivity].
  destruct (wrun ex_ext (start_proc (fun a => a) 20) ex_wops) as [q| |] eqn:E;
    [eauto|vm_compute in E; discriminate|vm_compute in E; discriminate].
Qed.

Definition ex_wops2 : list wop :=
  [ WWrite (mkwmode true true true false) 0 3 3 false false; WStore 3 [50; 51];
    WWrite (mkwmode true true true false) 3 2 3 false false; WFlush; WStore 0 [8] ].
Lemma ex_wops2_run : stores_safe [] ex_wops2 /\
  (exists q, wrun ex_ext (start_proc (fun a => a) 20) ex_wops2 = Ok q) /\
  ideal ex_ext (fun a => a) [] ex_wops2 = Ok [[0; 1; 2]; [50; 51]].
Proof.
  split; [|split].
  - split; [constructor; [left; vm_compute; discriminate|constructor]|]. split; [constructor|exact Logic.I].
  - destruct (wrun ex_ext (start_proc (fun a => a) 20) ex_wops2) as [q| |] eqn:E;
      [eauto|vm_compute in E; discriminate|vm_compute in E; discriminate].
  - vm_compute; reflexivity.
Qed.

Definition ex_rops : list rop :=
  [ROpen 0 KOther true; ROpen 1 KDset true; RGetFile 2; RVisit 1 KDset; ROpen 0 KOther false;
   RReopen 2; RClose 0 true; RClose 2 true; RClose 3 true; RClose 4 true; RClose 1 true].
Lemma ex_rops_run : opens_succeed true ex_rops /\ file_id_open (fobj_new true) ex_rops /\
  exists f, rrun (fobj_new true) ex_rops = Ok f /\ all_closed f.
Proof.
  split; [left; reflexivity|]. split.
  - intros pre h post f E R.
    assert (P : pre = [ROpen 0 KOther true; ROpen 1 KDset true]).
    { unfold ex_rops in E.
      do 11 (destruct pre as [|? pre]; [try discriminate; try reflexivity|inversion E; clear E; subst;
             match goal with X : _ = pre ++ _ |- _ => rename X into E end]);
        destruct pre; discriminate. }
    subst pre. vm_compute in R. inversion R; subst. exists 0%nat, 0%nat. cbn. auto.
  - eexists; split; [vm_compute; reflexivity|reflexivity].
Qed.

Lemma ex_oops : exists fs os p q, one_device fs /\ is_open fs (orun fs otable0 os) p /\ ~ is_open fs (orun fs otable0 os) q /\ fs q <> None.
Proof.
  exists (fun p => Some (0, p / 2)), [FOpen 4; FOpen 7; FClose 0; FOpen 5], 7, 8.
  split; [intros a b d1 i1 d2 i2 E1 E2; inversion E1; inversion E2; congruence|].
  split; [exists 1%nat, (Some (0, 3)); split; [cbn; auto|split; [discriminate|reflexivity]]|].
  split; [|discriminate].
  intros (id & who & I & (_ & E)). cbn in I. destruct I as [I|[I|[]]]; inversion I; subst; discriminate.
Qed.
