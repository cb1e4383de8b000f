(** Closing a file with subfiles, and the utilities on it: examples. *)
From Coq Require Import Ascii String ZifyNat.
From Verif Require Import Base BaseProofs Spec MetaModel QueueModel FlushModel IndexModel ReadModel SysModel SysSpec History HistoryProofs ClaimProofs AnyProofs
  SysProofs SortProofs SysCheck Examples SizedProofs DefSpec DefProofs DumpModel DumpSpec DumpProofs DumpRun ReplayDataModel ReplayDataSpec ReplayDataProofs ReplayDataRun ReplayDataClaims
  SubModel SubSpec SubProofs SubClaims SubToolModel SubToolSpec SubToolProofs SubCloseProofs SubToolClaims.
Open Scope list_scope. Open Scope Z_scope.

(** ** Examples *)
(** Three groups; two blocks in one selection, overwriting, an extended dataset, a flush between. *)
Definition h_tool : list sop :=
  [ SCreate dA; SCreate dR;
    SWrite 0 1 0 [B [0;0] [1;3]; B [1;1] [1;2]] (by_ 10 10); SWrite 1 0 0 [B [2;2] [2;3]] (by_ 50 12); SWrite 2 0 1 [B [2;0] [1;4]] (by_ 60 4);
    SFlush [100; 200; 300];
    SWrite 0 1 0 [B [0;0] [1;3]; B [1;1] [1;2]] (by_ 100 10); SSetExtent 1 [4;4]; SWrite 2 1 1 [B [3;0] [1;4]] (by_ 70 4); SWrite 1 0 0 [B [2;2] [1;1]] (by_ 90 2) ].
Definition np_tool : list nat := [2; 1; 2]%nat.
Definition do_tool : list Z := [1000; 2000; 3000].

Definition owner_tool (did : Z) (x : list Z) : nat * nat :=
  if did =? 0 then (if hd 0 x <? 2 then (0, 1)%nat else (1, 0)%nat) else (if hd 0 x <? 3 then (2, 0)%nat else (2, 1)%nat).
Definition owned_b (f : Z -> list Z -> nat * nat) (o : sop) : bool :=
  match o with
  | SWrite g rk did sels _ => forallb (fun x => ((fst (f did x) =? g) && (snd (f did x) =? rk))%nat) (sel_coords sels)
  | _ => true
  end.
Lemma owned_b_ok : forall f ops, forallb (owned_b f) ops = true -> owned_sub ops.
Proof.
  intros f ops H. exists f. rewrite forallb_forall in H. apply Forall_forall. intros o Ho. specialize (H o Ho). destruct o; auto. cbn [owned_b] in H. rewrite forallb_forall in H.
  intros x Hx. specialize (H x Hx). apply andb_prop in H. destruct H as [H1 H2]. apply Nat.eqb_eq in H1, H2. destruct (f did x). cbn in *. congruence.
Qed.

Ltac group_facts := split; [split; [legal|split; [apply sized_b_ok; vm_compute; reflexivity|right; first [apply (array_b_ok 2); vm_compute; reflexivity|apply (array_b_ok 1); vm_compute; reflexivity]]]|apply stays_b_ok; vm_compute; reflexivity].

Definition tool_run (e : env) (name : string) (cfg : Z) (nps : list nat) (ops : list sop) (doffs : list Z) : sres closed :=
  sdo p <- sub_run e (sub_init name cfg nps f_zero) ops; sub_close doffs (fst p).
Lemma tool_run_ok : forall e name cfg nps ops doffs c, tool_run e name cfg nps ops doffs = SOk c ->
  exists s outs, sub_run e (sub_init name cfg nps f_zero) ops = SOk (s, outs) /\ sub_close doffs s = SOk c.
Proof. intros e name cfg nps ops doffs c H. unfold tool_run in H. destruct (sub_run _ _ _) as [[s outs]| | |]; try discriminate. exists s, outs. split; [reflexivity|exact H]. Qed.

Definition small_subs (c : closed) : bool := forallb (fun p => small_md (snd p)) (cl_disk c).
Lemma small_subs_ok : forall c, small_subs c = true -> forall k g, subfile c k = Ok g -> Forall (fun md => Zlen md < 2 ^ 31) (g_mdsets g).
Proof.
  intros c H k g E. unfold subfile in E. destruct (on_path _ _) as [h| |] eqn:EP; try discriminate. cbn [bind] in E. destruct (reopen_infos _ _) as [infos| |]; try discriminate. cbn [bind] in E.
  injection E as <-. cbn [set_infos g_mdsets]. apply small_md_ok. unfold small_subs in H. rewrite forallb_forall in H.
  assert (K : exists q, In (q, h) (cl_disk c)). { clear - EP. induction (cl_disk c) as [|[q f] l IH]; [discriminate|]. cbn [on_path] in EP. destruct (String.eqb _ q); [injection EP as ->; eexists; left; reflexivity|].
    destruct (IH EP) as [q' Hq]. exists q'. right. exact Hq. }
  destruct K as [q Hq]. exact (H _ Hq).
Qed.

Definition tool_replay (e : env) (name : string) (cfg : Z) (nps : list nat) (ops : list sop) (doffs : list Z) (nr : Z) : option (list (res (list rwrite))) :=
  match tool_run e name cfg nps ops doffs with
  | SOk c => if small_subs c then Some (map (fun r => replay_sub (e_zlib e) r nr c) (zseq nr)) else None
  | _ => None
  end.
Lemma tool_replay_ok : forall e name cfg nps ops doffs nr ps, tool_replay e name cfg nps ops doffs nr = Some ps ->
  exists s outs c, sub_run e (sub_init name cfg nps f_zero) ops = SOk (s, outs) /\ sub_close doffs s = SOk c /\
    (forall k g, subfile c k = Ok g -> Forall (fun md => Zlen md < 2 ^ 31) (g_mdsets g)) /\ map (fun r => replay_sub (e_zlib e) r nr c) (zseq nr) = ps.
Proof.
  intros e name cfg nps ops doffs nr ps H. unfold tool_replay in H. destruct (tool_run _ _ _ _ _ _) as [c| | |] eqn:E; try discriminate. destruct (small_subs c) eqn:ES; [|discriminate].
  apply tool_run_ok in E. destruct E as (s & outs & E1 & E2). exists s, outs, c. split; [exact E1|]. split; [exact E2|]. split; [apply small_subs_ok; exact ES|congruence].
Qed.

Lemma wrote_at : forall i gid rk did sels data ops, nth_error ops i = Some (SWrite gid rk did sels data) -> sels <> [] -> SubToolSpec.wrote gid ops.
Proof. intros i gid rk did sels data ops H1 H2. exists rk, did, sels, data. split; [eapply nth_error_In; exact H1|exact H2]. Qed.

Lemma tool_meets : plain_cfg (Z.land cfg_sub 15) /\ Forall (writing_op (length np_tool)) h_tool /\ length do_tool = length np_tool /\ all_or_none (length np_tool) h_tool /\
  (forall k np, nth_error np_tool k = Some np -> group_ok (Z.land cfg_sub 15) np (own_session k np h_tool do_tool) /\
     Forall (stays_in (trace_of true np (own_session k np h_tool do_tool))) (own_session k np h_tool do_tool)) /\
  owned_sub h_tool /\ Forall (fun np => 2 <= 2 * Z.of_nat np) np_tool /\
  exists s outs c a b, sub_run e_dflt (sub_init "dir/out.h5" cfg_sub np_tool f_zero) h_tool = SOk (s, outs) /\ sub_close do_tool s = SOk c /\
    (forall k g, subfile c k = Ok g -> Forall (fun md => Zlen md < 2 ^ 31) (g_mdsets g)) /\
    map (fun r => replay_sub (e_zlib e_dflt) r 2 c) (zseq 2) = [Ok a; Ok b] /\ (length a, length b) = (6, 2)%nat.
Proof.
  split; [split; [vm_compute; split; [discriminate|reflexivity]|reflexivity]|].
  split; [unfold h_tool; repeat (constructor; [cbn; first [lia|exact Logic.I|reflexivity]|]); constructor|]. split; [reflexivity|].
  split. { left. intros [|[|[|gid]]] Hg; [apply (wrote_at 2%nat _ 1%nat 0 [B [0;0] [1;3]; B [1;1] [1;2]] (by_ 10 10))|apply (wrote_at 3%nat _ 0%nat 0 [B [2;2] [2;3]] (by_ 50 12))|apply (wrote_at 4%nat _ 0%nat 1 [B [2;0] [1;4]] (by_ 60 4))|cbn in Hg; lia]; first [reflexivity|discriminate]. }
  split. { intros [|[|[|gid]]] np H; cbn in H; try discriminate; try (destruct gid; discriminate); injection H as <-; group_facts. }
  split; [apply (owned_b_ok owner_tool); vm_compute; reflexivity|]. split; [repeat (constructor; [cbn; lia|]); constructor|].
  assert (H : exists a b, tool_replay e_dflt "dir/out.h5" cfg_sub np_tool h_tool do_tool 2 = Some [Ok a; Ok b] /\ (length a, length b) = (6, 2)%nat).
  { eexists; eexists; (split; [vm_compute; reflexivity|reflexivity]). }
  destruct H as (a & b & H1 & H2). destruct (tool_replay_ok _ _ _ _ _ _ _ _ H1) as (s & outs & c & R1 & R2 & R3 & R4). exists s, outs, c, a, b. auto.
Qed.

(** Group 0 writes, group 1 does not. *)
Definition h_half : list sop := [SCreate dA; SWrite 0 0 0 [B [0;0] [1;3]] (by_ 10 6)].
Lemma half_meets : plain_cfg (Z.land cfg_sub 15) /\ Forall (writing_op 2) h_half /\
  (forall k np, nth_error [1; 2]%nat k = Some np -> group_ok (Z.land cfg_sub 15) np (own_session k np h_half [100; 200])) /\
  SubToolSpec.wrote 0 h_half /\ ~ SubToolSpec.wrote 1 h_half.
Proof.
  split; [split; [vm_compute; split; [discriminate|reflexivity]|reflexivity]|].
  split; [unfold h_half; repeat (constructor; [cbn; first [lia|exact Logic.I|reflexivity]|]); constructor|].
  split. { intros k np H. cut (group_ok (Z.land cfg_sub 15) np (own_session k np h_half [100; 200]) /\ Forall (stays_in (trace_of true np (own_session k np h_half [100; 200]))) (own_session k np h_half [100; 200])); [tauto|].
    destruct k as [|[|k]]; cbn in H; try discriminate; try (destruct k; discriminate); injection H as <-; group_facts. }
  split; [apply (wrote_at 1%nat _ 0%nat 0 [B [0;0] [1;3]] (by_ 10 6)); first [reflexivity|discriminate]|].
  intros (rk & did & sels & data & W & _). cbn in W. destruct W as [W|[W|[]]]; congruence.
Qed.

(** Group 1 writes an element, group 0 overwrites it after a flush. *)
Definition h_twice : list sop := [SCreate dA; SWrite 1 0 0 [B [0;0] [1;1]] [7;8]; SFlush [100; 200]; SWrite 0 0 0 [B [0;0] [1;1]] [9;10]; SFlush [300; 400]].
Lemma twice_groups : forall k np, nth_error [1;1]%nat k = Some np -> group_ok (Z.land cfg_sub 15) np (own_session k np h_twice [500; 600]) /\
  Forall (stays_in (trace_of true np (own_session k np h_twice [500; 600]))) (own_session k np h_twice [500; 600]).
Proof. intros [|[|gid]] np H; cbn in H; try discriminate; try (destruct gid; discriminate); injection H as <-; group_facts. Qed.
Lemma twice_wrong : exists name cfg nps ops doffs s outs c ws did x, plain_cfg (Z.land cfg 15) /\ Forall (writing_op (length nps)) ops /\ length doffs = length nps /\ all_or_none (length nps) ops /\
  (forall k np, nth_error nps k = Some np -> group_ok (Z.land cfg 15) np (own_session k np ops doffs) /\
     Forall (stays_in (trace_of true np (own_session k np ops doffs))) (own_session k np ops doffs)) /\
  sub_run e_dflt (sub_init name cfg nps f_zero) ops = SOk (s, outs) /\ sub_close doffs s = SOk c /\ replay_sub (e_zlib e_dflt) 0 1 c = Ok ws /\
  content ws did x = Some [7;8] /\ last_assigned did x (program_order [] (everyone ops)) = Some [9;10].
Proof.
  assert (H : exists ws, tool_replay e_dflt "out.h5" cfg_sub [1;1]%nat h_twice [500; 600] 1 = Some [Ok ws] /\ content ws 0 [0;0] = Some [7;8]).
  { eexists. split; vm_compute; reflexivity. }
  destruct H as (ws & H1 & H2). destruct (tool_replay_ok _ _ _ _ _ _ _ _ H1) as (s & outs & c & R1 & R2 & R3 & R4). change (zseq 1) with [0] in R4. cbn [map] in R4.
  exists "out.h5"%string, cfg_sub, [1;1]%nat, h_twice, [500; 600], s, outs, c, ws, 0, [0;0].
  split; [split; [vm_compute; split; [discriminate|reflexivity]|reflexivity]|].
  split; [unfold h_twice; repeat (constructor; [cbn; first [lia|exact Logic.I|reflexivity]|]); constructor|]. split; [reflexivity|].
  split. { left. intros [|[|gid]] Hg; [apply (wrote_at 3%nat _ 0%nat 0 [B [0;0] [1;1]] [9;10])|apply (wrote_at 1%nat _ 0%nat 0 [B [0;0] [1;1]] [7;8])|cbn in Hg; lia]; first [reflexivity|discriminate]. }
  split; [exact twice_groups|].
  split; [exact R1|]. split; [exact R2|]. split; [congruence|]. split; [exact H2|]. vm_compute. reflexivity.
Qed.
