(** Claims about names and identifiers. *)
From Verif Require Import Base BaseProofs NameModel NameSpec NameProofs.
From Coq Require Import ZifyNat.

Lemma open_keeps : forall loc n f f' i, fs_open loc n f = Ok (f', i) -> f_ndset f' = f_ndset f /\ f_links f' = f_links f.
Proof.
  intros loc n f f' i. unfold fs_open. destruct (stored loc n) as [p| |]; cbn; try discriminate.
  destruct (find_link p (f_links f)); [|discriminate]. destruct (_ && _); [|discriminate]. intros H. injection H as <- <-. auto.
Qed.
Lemma visit_keeps : forall ps f f', fs_visit ps f = Ok f' -> f_ndset f' = f_ndset f /\ f_links f' = f_links f.
Proof.
  induction ps as [|p ps IH]; intros f f' H; cbn in H; [injection H as <-; auto|]. destruct (dset_visit p) as [n|]; [|auto].
  destruct (fs_open "" n f) as [[f1 i]| |] eqn:E; cbn in H; try discriminate. apply open_keeps in E. apply IH in H. destruct H, E. split; congruence.
Qed.
Lemma handed_spec : forall ops f f' outs, 0 <= f_ndset f -> nrun f ops = Ok (f', outs) ->
  handed ops outs = map (fun k => f_ndset f + k) (zseq (Zlen (handed ops outs))) /\ f_ndset f' = f_ndset f + Zlen (handed ops outs).
Proof.
  unfold handed. induction ops as [|o ops IH]; intros f f' outs Hn H; [injection H as <- <-; cbn; split; [auto|lia]|].
  cbn [nrun] in H. destruct (nstep f o) as [[f1 r]| |] eqn:E1; cbn [bind fst snd] in H; try discriminate.
  destruct (nrun f1 ops) as [[f2 rs]| |] eqn:E2; cbn [bind fst snd] in H; try discriminate. injection H as <- <-. cbn [combine flat_map].
  destruct o as [loc n|loc n|loc n|]; cbn [nstep] in E1.
  - destruct (fs_create loc n f) as [[g i]| |] eqn:EC; try discriminate; injection E1 as <- <-; cbn [app].
    + assert (G : f_ndset g = f_ndset f + 1 /\ i = f_ndset f).
      { unfold fs_create in EC. destruct (stored loc n) as [p| |]; cbn in EC; try discriminate. destruct (find_link p (f_links f)); [discriminate|]. injection EC as <- <-. auto. }
      destruct G as [G ->]. destruct (IH g f2 rs) as [I1 I2]; auto; try lia. rewrite G in *. set (K := flat_map _ (combine ops rs)) in *.
      rewrite Zlen_cons. split; [|lia]. rewrite zseq_shift by (pose proof (Zlen_nonneg _ K); lia). cbn [map]. f_equal; [lia|].
      replace (1 + Zlen K - 1) with (Zlen K) by lia. replace (Zlen K + 1 - 1) with (Zlen K) by lia. rewrite I1 at 1. rewrite map_map. apply map_ext. intros. lia.
    + apply IH; auto.
  - cbn [app]. assert (G : f_ndset f1 = f_ndset f).
    { destruct (fs_open loc n f) as [[g i]| |] eqn:EC; try discriminate; injection E1 as <- <-; auto. apply open_keeps in EC. tauto. }
    rewrite <- G in *. apply IH; auto.
  - cbn [app]. assert (G : f_ndset f1 = f_ndset f).
    { destruct (fs_delete loc n f) as [g| |] eqn:EC; try discriminate; injection E1 as <- <-; auto.
      unfold fs_delete in EC. destruct (stored loc n) as [p| |]; cbn in EC; try discriminate. destruct (find_link p (f_links f)); [|discriminate]. injection EC as <-. auto. }
    rewrite <- G in *. apply IH; auto.
  - cbn [app]. assert (G : f_ndset f1 = f_ndset f).
    { destruct (fs_reopen f) as [g| |] eqn:EC; cbn in E1; try discriminate. injection E1 as <- <-. unfold fs_reopen in EC. apply visit_keeps in EC. destruct EC as [EC _]. exact EC. }
    rewrite <- G in *. apply IH; auto.
Qed.
Lemma handed_any : forall ops f outs, nrun fs0 ops = Ok (f, outs) -> handed ops outs = zseq (Zlen (handed ops outs)).
Proof.
  intros ops f outs H. destruct (handed_spec ops fs0 f outs) as [H1 _]; auto; [cbn; lia|]. rewrite H1 at 1. cbn. rewrite <- map_id. apply map_ext. auto.
Qed.

Lemma names_run : forall ops, Forall simple_op ops -> exists f, nrun fs0 (map call ops) = Ok (f, snd (urun ([], 0) ops)).
Proof. intros ops H. destruct (names_refine ops H) as (f & H1 & _). eauto. Qed.

(** The scan at opening: after any history the loaded descriptions are those of the user's
    datasets, found under the names the user gave. *)
Lemma scan_recognises : forall p, simple_path p ->
  stored (group_path (fst p)) (snd p) = Ok (dpath p) /\ ~ reserved (dpath p) /\
  exists s, dset_visit (dpath p) = Some s /\ stored "" s = Ok (dpath p).
Proof. intros p H. split; [apply stored_dpath; auto|]. split; [apply not_reserved; auto|apply visit_dpath; auto]. Qed.
Lemma stored_never_reserved : forall p, simple_path p -> exists s, stored (group_path (fst p)) (snd p) = Ok s /\ ~ reserved s.
Proof. intros p H. exists (dpath p). destruct (scan_recognises p H) as (H1 & H2 & _). auto. Qed.
Lemma stored_distinct : forall p q s, simple_path p -> simple_path q -> stored (group_path (fst p)) (snd p) = Ok s -> stored (group_path (fst q)) (snd q) = Ok s -> p = q.
Proof. intros p q s Hp Hq. rewrite !stored_dpath by auto. intros H1 H2. apply dpath_inj; auto. congruence. Qed.
Lemma scan_exact : forall p, simple_path p -> exists s, stored (group_path (fst p)) (snd p) = Ok s /\
  exists n, dset_visit s = Some n /\ stored "" n = Ok s.
Proof. intros p H. exists (dpath p). destruct (scan_recognises p H) as (H1 & _ & H2). auto. Qed.
Lemma iterate_back : forall n, simple_name n -> exists s, name_remap n = Ok s /\ iterate_name s = Some n.
Proof. intros n H. destruct (iterate_simple n H) as (H1 & H2 & _). eauto. Qed.

(** A concrete history. *)
Local Open Scope string_scope.
Definition names_history : list uop :=
  [ UCreate ([], "a"); UCreate ([], "_a"); UCreate (["g"; "_h"], "_LOG"); UCreate ([], "a"); UCreate ([], "_LOG");
    UReopen; UOpen (["g"; "_h"], "_LOG"); UDelete ([], "_a"); UOpen ([], "_a"); UCreate ([], "_a"); UReopen; UOpen ([], "_a") ].
Lemma names_history_simple : Forall simple_op names_history.
Proof. repeat (apply Forall_cons; [cbn; unfold simple_path, simple_name; cbn; repeat split; try discriminate; repeat (apply Forall_cons; [cbn; repeat split; discriminate|]); try apply Forall_nil|]); apply Forall_nil. Qed.
Lemma names_history_results : snd (urun ([], 0) names_history) =
  [Some 0; Some 1; Some 2; None; Some 3; None; Some 2; None; None; Some 4; None; Some 4] /\
  exists f, nrun fs0 (map call names_history) = Ok (f, snd (urun ([], 0) names_history)).
Proof. split; [vm_compute; reflexivity|]. exact (names_run _ names_history_simple). Qed.

(** An absolute name is not escaped: it is stored under a reserved name and is not found by the scan;
    a name used inside a group and the same path used at the root mean different objects; a name
    starting with a dot is not found by the scan. *)
Lemma absolute_reserved : stored "" "/_LOG" = Ok "_LOG" /\ reserved "_LOG".
Proof. split; [reflexivity|]. split; [reflexivity|discriminate]. Qed.
Lemma not_scanned : exists n s, (n = "/_x" \/ n = ".x") /\ stored "" n = Ok s /\ dset_visit s = None.
Proof. exists "/_x", "_x". auto. Qed.
Lemma not_scanned_dot : stored "" ".x" = Ok ".x" /\ dset_visit ".x" = None.
Proof. auto. Qed.
Lemma path_disagrees : exists f, nrun fs0 [NCreate "g" "_x"; NOpen "" "g/_x"; NOpen "" "/g/_x"; NCreate "" "g/__x"] = Ok (f, [Some 0; None; None; None]).
Proof. eexists. vm_compute. reflexivity. Qed.
