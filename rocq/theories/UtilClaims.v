(** The main programs of the utilities: proofs of the claims. *)
From Coq Require Import String ZifyNat.
From Verif Require Import Base UtilModel UtilSpec.
Open Scope list_scope. Open Scope Z_scope.

Lemma store_same : forall d p f, store d p f p = Some f.
Proof. intros. unfold store. rewrite String.eqb_refl. reflexivity. Qed.
Lemma store_other : forall d p f q, q <> p -> store d p f q = d q.
Proof. intros d p f q H. unfold store. destruct (String.eqb_spec p q); [congruence|reflexivity]. Qed.

Lemma core_others : forall w inp out d p, p <> out -> fst (replay_core w inp out d) p = d p.
Proof.
  intros w inp out d p H. unfold replay_core. cbv zeta. destruct (w_can w out && _); [|reflexivity].
  destruct (store d out new_file inp); [|apply store_other; exact H].
  destruct (match d inp with Some f => uf_h5 f | None => None end) as [[[|] c]|]; cbn [fst]; rewrite !store_other by exact H; reflexivity.
Qed.

Lemma replay_status : forall w inp out d d', replay_main w inp out d = (d', 0) -> replayed_to w d d' inp out.
Proof.
  intros w inp out d d' H. unfold replay_main in H. pose proof (core_others w inp out d) as HO. unfold replay_core in H, HO. cbv zeta in H, HO.
  destruct (w_can w out && _); [|cbn [fst snd] in H; destruct (bad_input inp d); discriminate].
  destruct (store d out new_file inp); [|cbn [fst snd] in H; destruct (bad_input inp d); discriminate].
  destruct (d inp) as [[h hc]|] eqn:E; [|cbn [fst snd] in H; destruct (bad_input inp d); discriminate]. cbn [uf_h5] in *.
  destruct hc as [[[|] c]|]; try (cbn [fst snd] in H; destruct (bad_input inp d); discriminate). cbn [fst snd] in H.
  destruct (bad_input inp d); [discriminate|]. destruct (snd (w_copy w c)) eqn:EC; [|discriminate]. cbn in H. injection H as <-.
  exists c, hdf5sig. split; [exists h; exact E|]. split; [exact EC|]. split; [apply store_same|exact HO].
Qed.

Lemma replay_does : forall w inp out d c, inp <> out -> d inp = Some (mkuf hdf5sig (Some (true, c))) -> w_can w out = true -> snd (w_copy w c) = true ->
  exists d', replay_main w inp out d = (d', 0) /\ replayed_to w d d' inp out.
Proof.
  intros w inp out d c HN HD HW HC. assert (exists d', replay_main w inp out d = (d', 0)) as [d' E]; [|exists d'; split; [exact E|apply replay_status; exact E]].
  unfold replay_main, replay_core, bad_input. cbv zeta. rewrite HD. cbn [uf_h5 uf_head]. rewrite HW. destruct (String.eqb_spec inp out); [congruence|]. rewrite andb_false_r. cbn [negb andb].
  rewrite store_other by exact HN. rewrite HD. destruct (list_eq_dec Z.eq_dec hdf5sig hdf5sig); [|congruence]. cbn [fst snd negb orb]. rewrite HC. cbn. eauto.
Qed.

Lemma replay_destroys : forall w inp out d, no_log d inp -> w_can w out = true -> (inp = out -> forall f, d inp = Some f -> uf_h5 f = None) ->
  exists d', replay_main w inp out d = (d', -1) /\ d' out = Some new_file.
Proof.
  intros w inp out d HN HW HS. unfold replay_main, replay_core. cbv zeta. rewrite HW.
  assert (HB : (match match d inp with Some f => uf_h5 f | None => None end with Some _ => w_refuse w && String.eqb inp out | None => false end) = false).
  { destruct (d inp) as [f|] eqn:E; [|reflexivity]. destruct (String.eqb_spec inp out) as [->|N]; [rewrite (HS eq_refl f eq_refl); reflexivity|]. rewrite andb_false_r. destruct (uf_h5 f); reflexivity. }
  rewrite HB. cbn [negb andb]. destruct (store d out new_file inp) eqn:ES.
  - destruct (d inp) as [[h [[[|] c]|]]|] eqn:E; cbn [uf_h5 fst snd negb]; try (exfalso; apply (HN c); exists h; exact E);
      (eexists; split; [rewrite orb_true_r; reflexivity|apply store_same]).
  - eexists. split; [cbn [fst snd negb]; rewrite orb_true_r; reflexivity|apply store_same].
Qed.

Lemma dump_status : forall dump inp d l, dump_main 1 false dump inp d = (0, l) -> exists c, log_file d inp c /\ dump c = (l, true).
Proof.
  intros dump inp d l H. unfold dump_main in H. cbn [Z.ltb Z.compare Pos.compare Pos.compare_cont] in H. cbv zeta in H.
  destruct (d inp) as [[h hc]|] eqn:E; [|discriminate]. cbn [uf_head uf_h5] in H. destruct hc as [[[|] c]|]; try discriminate.
  destruct (list_eq_dec Z.eq_dec h hdf5sig); [|discriminate]. exists c. split; [exists h; exact E|]. destruct (dump c) as [t [|]]; cbn in H; congruence.
Qed.

Definition w_ex : world := mkworld (fun _ => true) true (fun c => (c ++ [1], true)).
Definition d_ex : fs := fun p => if String.eqb p "log.h5" then Some (mkuf hdf5sig (Some (true, [5]))) else if String.eqb p "plain.h5" then Some (mkuf hdf5sig (Some (false, [6])))
  else if String.eqb p "notes.txt" then Some (mkuf [65; 66] None) else if String.eqb p "old.h5" then Some (mkuf hdf5sig (Some (false, [7; 8; 9]))) else None.
Lemma util_ex : (exists d', replay_main w_ex "log.h5" "old.h5" d_ex = (d', 0) /\ d' "old.h5"%string = Some (mkuf hdf5sig (Some (false, [5; 1])))) /\
  no_log d_ex "plain.h5" /\ no_log d_ex "notes.txt" /\ no_log d_ex "missing" /\ w_can w_ex "old.h5" = true /\ d_ex "old.h5"%string <> Some new_file.
Proof.
  split; [|split; [|split; [|split; [|split; [reflexivity|discriminate]]]]].
  - eexists. split; [unfold replay_main; f_equal|]; reflexivity.
  - intros c [h H]. discriminate.
  - intros c [h H]. discriminate.
  - intros c [h H]. discriminate.
Qed.
