(** Lemmas behind P_Dump.v: examples, counterexamples, printing, kinds of files. *)
From Coq Require Import Ascii String.
From Verif Require Import Base BaseProofs Spec MetaModel QueueModel FlushModel IndexModel ReadModel SysModel
  SysSpec History SysProofs SysCheck Examples ClaimProofs ClaimProofs2 SizedProofs DefSpec DefProofs DumpModel DumpSpec DumpRun.
From Coq Require Import ZifyNat ZifyN.

Definition h_dump : list op := h_full ++ [OReopen 20000 1].
Definition listing (e : env) (cfg : Z) (np : nat) (ops : list op) (wd : bool) : res (list (list (list shown))) :=
  do p <- run e (init cfg np f_zero) ops;
  do d <- dump_file (e_zlib e) wd (s_g (fst p));
  Ok (map (map (map listed)) d).

Lemma dump_ex : legal_history true 2 h_dump /\ sized_history true 2 h_dump /\ array_history 2 h_dump /\ plain_cfg cfg_dflt /\
  (exists s outs, run e_dflt (init cfg_dflt 2 f_zero) h_dump = Ok (s, outs)) /\
  map (map (@List.length logged)) (ls_md (log_of 2 h_dump)) = [[3; 3]; [0; 1]; [0; 0; 1]]%nat.
Proof.
  split; [legal|]. split; [apply sized_b_ok; vm_compute; reflexivity|]. split; [apply (array_b_ok 2); vm_compute; reflexivity|]. split; [split; [vm_compute; split; [discriminate|reflexivity]|reflexivity]|].
  split; [|vm_compute; reflexivity].
  assert (H : ok_history e_dflt cfg_dflt (mkconv (fun _ _ => false) (fun _ => 2)) 2 h_dump) by hist.
  destruct (run_spec _ _ _ _ f_zero _ H) as [s R]. eauto.
Qed.

(** Sharing between datasets of different element size: the blocks of the second write. *)
Definition w_esize2 : list op :=
  [OCreate ds1; OCreate ds2;
   OWrite 0 0 [B [0;0] [1;2]; B [1;1] [1;2]] (by_ 10 4);
   OWrite 0 1 [B [0;0] [1;2]; B [1;1] [1;2]] (by_ 20 8); OReopen 100 1].
Definition w_wide2 : list op := w_wide ++ [OReopen 100 1].

Lemma listing_run : forall e cfg np ops wd x, listing e cfg np ops wd = Ok x ->
  exists s outs d, run e (init cfg np f_zero) ops = Ok (s, outs) /\ dump_file (e_zlib e) wd (s_g s) = Ok d /\ map (map (map listed)) d = x.
Proof.
  unfold listing. intros e cfg np ops wd x H. destruct (run e (init cfg np f_zero) ops) as [[s outs]| |] eqn:R; try discriminate. cbn [bind fst] in H.
  destruct (dump_file _ wd (s_g s)) as [d| |] eqn:D; try discriminate. cbn [bind] in H. exists s, outs, d. split; auto. split; auto. congruence.
Qed.

Lemma dump_esize_wrong : exists cfg np ops s outs d, plain_cfg cfg /\ legal_history true np ops /\ sized_history true np ops /\
  run e_dflt (init cfg np f_zero) ops = Ok (s, outs) /\ dump_file (e_zlib e_dflt) true (s_g s) = Ok d /\
  map (map (map listed)) d <> map (map (map (show true (t_sets (trace_of true np ops))))) (ls_md (log_of np ops)).
Proof.
  assert (H : exists x, listing e_dflt cfg_dflt 2 w_esize2 true = Ok x /\
     x <> map (map (map (show true (t_sets (trace_of true 2 w_esize2))))) (ls_md (log_of 2 w_esize2))).
  { eexists. split; [vm_compute; reflexivity|]. vm_compute. discriminate. }
  destruct H as (x & H1 & H2). destruct (listing_run _ _ _ _ _ _ H1) as (s & outs & d & R1 & R2 & R3).
  exists cfg_dflt, 2%nat, w_esize2, s, outs, d. split; [split; [vm_compute; split; [discriminate|reflexivity]|reflexivity]|]. split; [legal|].
  split; [apply sized_b_ok; vm_compute; reflexivity|]. split; auto. split; auto. rewrite R3. exact H2.
Qed.

Definition aborts (e : env) (cfg : Z) (np : nat) (ops : list op) : bool :=
  match run e (init cfg np f_zero) ops with Ok p => match dump_file (e_zlib e) true (s_g (fst p)) with Err => true | _ => false end | _ => false end.
Lemma aborts_run : forall e cfg np ops, aborts e cfg np ops = true ->
  exists s outs, run e (init cfg np f_zero) ops = Ok (s, outs) /\ dump_file (e_zlib e) true (s_g s) = Err.
Proof.
  unfold aborts. intros e cfg np ops H. destruct (run e (init cfg np f_zero) ops) as [[s outs]| |]; try discriminate. cbn [fst] in H.
  exists s, outs. split; auto. destruct (dump_file _ true (s_g s)); try discriminate. reflexivity.
Qed.
Lemma dump_wide_aborts : exists cfg np ops s outs, plain_cfg cfg /\ legal_history true np ops /\ sized_history true np ops /\
  run e_dflt (init cfg np f_zero) ops = Ok (s, outs) /\ dump_file (e_zlib e_dflt) true (s_g s) = Err.
Proof.
  destruct (aborts_run e_dflt cfg_dflt 2 w_wide2) as (s & outs & R1 & R2); [vm_compute; reflexivity|].
  exists cfg_dflt, 2%nat, w_wide2, s, outs. split; [split; [vm_compute; split; [discriminate|reflexivity]|reflexivity]|]. split; [legal|].
  split; [apply sized_b_ok; vm_compute; reflexivity|]. split; auto.
Qed.

(** A dataset that the visit of the file skips. *)
Definition hidden (k : nat) (g : gfile) : gfile := set_infos g (upd_nth k None (g_infos g)).
Definition hides (e : env) (cfg : Z) (np : nat) (ops : list op) : bool :=
  match run e (init cfg np f_zero) ops with
  | Ok p => match dump_file (e_zlib e) true (s_g (fst p)), dump_file (e_zlib e) true (hidden 0 (s_g (fst p))) with Ok _, UB => true | _, _ => false end
  | _ => false
  end.
Lemma hides_run : forall e cfg np ops, hides e cfg np ops = true ->
  exists s outs, run e (init cfg np f_zero) ops = Ok (s, outs) /\ (exists d, dump_file (e_zlib e) true (s_g s) = Ok d) /\
    dump_file (e_zlib e) true (hidden 0 (s_g s)) = UB.
Proof.
  unfold hides. intros e cfg np ops H. destruct (run e (init cfg np f_zero) ops) as [[s outs]| |]; try discriminate. cbn [fst] in H.
  exists s, outs. split; auto. destruct (dump_file _ true (s_g s)); try discriminate. split; [eauto|].
  destruct (dump_file _ true (hidden 0 (s_g s))); try discriminate. reflexivity.
Qed.
Lemma dump_hidden : exists ops s outs, legal_history true 2 ops /\ run e_dflt (init cfg_dflt 2 f_zero) ops = Ok (s, outs) /\
  (exists d, dump_file (e_zlib e_dflt) true (s_g s) = Ok d) /\ dump_file (e_zlib e_dflt) true (hidden 0 (s_g s)) = UB.
Proof.
  destruct (hides_run e_dflt cfg_dflt 2 h_dump) as (s & outs & R1 & R2); [vm_compute; reflexivity|].
  exists h_dump, s, outs. split; [legal|]. auto.
Qed.

(** ** Printing *)
Lemma print_exact : forall c nelem esize, 0 <= nelem -> 0 < esize ->
  match c with TInt _ | TOther => True | TFloat => esize = 4 \/ esize = 8 | TString => esize = 1 end ->
  let p := print_plan c nelem esize in
  fst p * snd p = nelem * esize /\ (p = (nelem, esize) \/ p = (nelem * esize, 1)).
Proof.
  intros c nelem esize H0 H1 Hc. destruct c; cbn [print_plan].
  - destruct ((esize =? 1) || (esize =? 2) || (esize =? 4) || (esize =? 8)); cbn [fst snd]; auto with zarith.
  - destruct Hc; subst; cbn [fst snd]; auto.
  - subst. cbn [fst snd]. auto.
  - cbn [fst snd]. auto with zarith.
Qed.
Lemma print_short : forall nelem esize, 0 < nelem -> 1 < esize ->
  let p := print_plan TString nelem esize in fst p * snd p < nelem * esize.
Proof. intros nelem esize H1 H2. cbn. nia. Qed.
Lemma print_floats : forall nelem esize, 0 < nelem -> 0 < esize -> esize <> 4 -> esize <> 8 ->
  let p := print_plan TFloat nelem esize in
  (esize < 8 -> nelem * esize < fst p * snd p) /\ (8 < esize -> fst p * snd p < nelem * esize).
Proof. intros nelem esize H1 H2 H3 H4. cbn [print_plan fst snd]. destruct (Z.ltb_spec 4 esize); split; intros; nia. Qed.

(** ** Kinds of files *)
Lemma zlist_eqb_eq : forall a b, zlist_eqb a b = true <-> a = b.
Proof.
  induction a as [|x a IH]; intros [|y b]; cbn; split; intros H; try congruence; try discriminate.
  - apply andb_prop in H. destruct H as [H1 H2]. apply Z.eqb_eq in H1. apply IH in H2. congruence.
  - injection H as -> ->. rewrite Z.eqb_refl. cbn. apply IH. reflexivity.
Qed.
Lemma pad_prefix : forall sig n c, (List.length sig <= n)%nat -> Forall (fun x => x <> 0) sig ->
  firstn (List.length sig) (firstn n (c ++ repeat 0 n)) = sig -> exists r, c = sig ++ r.
Proof.
  intros sig n c HL HF H. rewrite firstn_firstn, Nat.min_l in H by auto.
  destruct (le_lt_dec (List.length sig) (List.length c)) as [Hc|Hc].
  - exists (skipn (List.length sig) c). rewrite firstn_app in H. replace (List.length sig - List.length c)%nat with 0%nat in H by lia. rewrite firstn_O, app_nil_r in H.
    rewrite <- H at 1. symmetry. apply firstn_skipn.
  - exfalso. assert (nth_error sig (List.length c) = Some 0).
    { rewrite <- H. rewrite firstn_app. rewrite (firstn_all2 c) by lia. rewrite nth_error_app2, Nat.sub_diag by lia.
      destruct (List.length sig - List.length c)%nat eqn:E; [lia|]. destruct n; [lia|]. reflexivity. }
    rewrite Forall_forall in HF. apply nth_error_In in H0. apply (HF 0 H0). reflexivity.
Qed.
Lemma starts : forall sig n c, firstn (List.length sig) (firstn n ((sig ++ c) ++ repeat 0 n)) = firstn n sig.
Proof.
  intros. rewrite firstn_firstn, <- app_assoc. rewrite Nat.min_comm, <- firstn_firstn, firstn_app, Nat.sub_diag, firstn_O, app_nil_r, firstn_all. reflexivity.
Qed.
Lemma kind_hdf5 : forall r a, file_kind (Some (hdf5_sig ++ r)) a =
  (if has_log_attr a then "HDF5-LogVOL" else if has_nc_attr a then "NetCDF-4" else "HDF5")%string.
Proof. reflexivity. Qed.
Lemma kind_unknown : forall c a, ~ (exists r, c = hdf5_sig ++ r) -> ~ (exists r, c = cdf_sig ++ r) -> file_kind (Some c) a = "unknown"%string.
Proof.
  intros c a H1 H2. unfold file_kind. set (sig := firstn 8 (c ++ repeat 0 8)).
  destruct (zlist_eqb hdf5_sig sig) eqn:E1.
  { exfalso. apply zlist_eqb_eq in E1. apply H1. apply (pad_prefix hdf5_sig 8); [cbn; lia|repeat constructor; discriminate|].
    fold sig. rewrite E1. apply firstn_all2. unfold sig. rewrite firstn_length. lia. }
  destruct (zlist_eqb cdf_sig (firstn 3 sig)) eqn:E2; [|reflexivity].
  exfalso. apply zlist_eqb_eq in E2. apply H2. apply (pad_prefix cdf_sig 8); [cbn; lia|repeat constructor; discriminate|]. symmetry. exact E2.
Qed.
Lemma kind_cdf : forall v r a, file_kind (Some (cdf_sig ++ v :: r)) a =
  (if (v =? 5)%Z then "NetCDF classic" else if (v =? 2)%Z then "NetCDF 64-bit offset" else if (v =? 1)%Z then "NetCDF 64-bit data" else "")%string.
Proof. reflexivity. Qed.
