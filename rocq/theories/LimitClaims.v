(** Files to which nothing was written, read with a bounded metadata buffer. *)
From Verif Require Import Base BaseProofs Spec MetaModel QueueModel FlushModel IndexModel ReadModel SysModel SysSpec History HistoryProofs ClaimProofs SysCheck AnyProofs Examples ClaimProofs2.

Definition blank (g : gfile) : Prop := (exists np, g_ranks g = repeat rank0 np) /\ g_mdsets g = [] /\ g_metadirty g = false.

Lemma blank_pending : forall g, blank g -> any_pending g = false.
Proof.
  intros g [[n H] _]. unfold any_pending. rewrite H. clear. induction n; cbn; auto.
Qed.
Lemma zsum_zero : forall A (f : A -> Z) x n, f x = 0 -> Zsum (map f (repeat x n)) = 0.
Proof.
  intros A f x n H. induction n; cbn [repeat map]; [reflexivity|].
  change (Zsum (f x :: map f (repeat x n))) with (f x + Zsum (map f (repeat x n))). lia.
Qed.
Lemma blank_close : forall doff g, blank g -> g_mdsets (close_file doff g) = [].
Proof.
  intros doff g [[n H] [M _]]. unfold close_file.
  assert (F : flush_writes doff g = mkg (g_cfg g) (g_infos g) (repeat rank0 n) (g_file g) [] (g_nldset g) (g_metadirty g)).
  { unfold flush_writes. rewrite H, zsum_zero by reflexivity. cbn [Z.eqb]. rewrite M. f_equal.
    clear. induction n; cbn [repeat map]; [reflexivity|]. rewrite IHn. reflexivity. }
  rewrite F. unfold metaflush. cbn [g_ranks g_mdsets].
  assert (T : (8 * (Zlen (repeat rank0 n) + 1) <? Zsum (meta_sizes (repeat rank0 n))) = false).
  { apply Z.ltb_ge. unfold meta_sizes. destruct n as [|n]; [cbn; lia|]. cbn [repeat map].
    change (meta_len rank0) with 0. set (q := 8 * _).
    change (Zsum (q + 0 :: map meta_len (repeat rank0 n))) with (q + 0 + Zsum (map meta_len (repeat rank0 n))).
    rewrite zsum_zero by reflexivity. lia. }
  rewrite T. reflexivity.
Qed.
Lemma blank_step : forall e s o s' out, match o with OWrite _ _ _ _ => False | _ => True end ->
  blank (s_g s) -> step e s o = Ok (s', out) -> blank (s_g s').
Proof.
  intros e s o s' out N B H. destruct o; cbn [step] in H; try contradiction.
  - destruct (create_info _ _); cbn [bind] in H; inversion H; subst. exact B.
  - destruct (info_at _ _) as [[d|]|]; try discriminate H. destruct (set_extent _ _ _) as [d' []]; try discriminate H.
    inversion H; subst. exact B.
  - rewrite (blank_pending _ B) in H. inversion H; subst. exact B.
  - rewrite (blank_pending _ B), Bool.andb_false_r in H. destruct B as [B1 [B2 B3]]. rewrite B3 in H.
    destruct (read_each _ _ _ _); cbn [bind] in H; inversion H; subst. repeat split; auto.
  - destruct (reopen_infos _ _); cbn [bind] in H; inversion H; subst. cbn.
    repeat split; [eexists; reflexivity|]. apply blank_close. exact B.
Qed.
Lemma blank_run : forall e ops s s' outs, Forall (fun o => match o with OWrite _ _ _ _ => False | _ => True end) ops ->
  blank (s_g s) -> run e s ops = Ok (s', outs) -> blank (s_g s').
Proof.
  induction ops as [|o ops IH]; intros s s' outs N B H; cbn [run] in H.
  - inversion H; subst. exact B.
  - inversion N; subst. destruct (step e s o) as [[s1 out]| |] eqn:S; cbn [bind fst snd] in H; try discriminate H.
    destruct (run e s1 ops) as [[s2 outs2]| |] eqn:R; cbn [bind fst snd] in H; inversion H; subst.
    eapply IH; [assumption| |exact R]. eapply blank_step; eauto.
Qed.
Lemma blank_one : forall e lim g idx c r, e_limit e = Some lim -> g_mdsets g = [] -> rc_sels c <> [] ->
  read_one e g idx c <> Ok r.
Proof.
  intros e lim g idx c r L M N H. unfold read_one in H. destruct (rc_sels c) as [|b bs]; [congruence|].
  destruct (info_at _ _) as [[d|]|]; try discriminate H. unfold read_search in H. rewrite L, M in H.
  cbn in H. discriminate H.
Qed.
Lemma blank_each : forall e lim g cs idx r, e_limit e = Some lim -> g_mdsets g = [] ->
  Exists (fun c => rc_sels c <> []) cs -> read_each e g idx cs <> Ok r.
Proof.
  intros e lim g cs idx r L M X. revert idx r. induction X as [c cs N|c cs X IH]; intros idx r H; cbn [read_each] in H;
    destruct (read_one e g idx c) as [p| |] eqn:R; cbn [bind] in H; try discriminate H.
  - exact (blank_one _ _ _ _ _ _ L M N R).
  - destruct (read_each e g (snd p) cs) as [q| |] eqn:Q; cbn [bind] in H; try discriminate H. exact (IH _ _ Q).
Qed.
Lemma blank_unreadable : forall e lim cfg np f0 ops doff calls r, e_limit e = Some lim ->
  Forall (fun o => match o with OWrite _ _ _ _ => False | _ => True end) ops ->
  Exists (fun c => rc_sels c <> []) calls ->
  run e (init cfg np f0) (ops ++ [ORead doff calls]) <> Ok r.
Proof.
  intros e lim cfg np f0 ops doff calls r L N X H. rewrite run_app in H.
  destruct (run e (init cfg np f0) ops) as [[s outs]| |] eqn:R; cbn [bind fst snd] in H; try discriminate H.
  assert (B : blank (s_g s)).
  { eapply blank_run; [exact N| |exact R]. repeat split. exists np. reflexivity. }
  cbn [run step] in H. rewrite (blank_pending _ B), Bool.andb_false_r in H. destruct B as [_ [B2 B3]]. rewrite B3 in H.
  destruct (read_each e (s_g s) (s_idx s) calls) as [q| |] eqn:Q; cbn [bind] in H; try discriminate H.
  exact (blank_each _ _ _ _ _ _ L B2 X Q).
Qed.
Lemma blank_case : let ops := [OCreate sq; OFlush 50; OReopen 60 1] in
  Forall (fun o => match o with OWrite _ _ _ _ => False | _ => True end) ops /\
  Exists (fun c => rc_sels c <> []) rd_sq /\ (exists lim, e_limit e_small = Some lim) /\
  legal_history true 1 (ops ++ [ORead 100 rd_sq]) /\
  (exists s outs, run e_small (init cfg_dflt 1 f_zero) ops = Ok (s, outs)) /\
  exists s outs, run e_dflt (init cfg_dflt 1 f_zero) (ops ++ [ORead 100 rd_sq]) = Ok (s, outs).
Proof.
  cbv zeta. split; [repeat constructor|]. split; [apply Exists_cons_hd; discriminate|].
  split; [eexists; reflexivity|]. split; [legal|].
  split; eexists; eexists; vm_compute; reflexivity.
Qed.
