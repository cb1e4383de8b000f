(** Proofs about files not made by the connector (RegModel.v). *)
From Verif Require Import Base NameModel LibModel NsModel RegModel RegSpec.
From Coq Require Import Ascii String ZifyNat Lia.

Lemma other_skip st l : other_id st l -> skip_of st l = 0%nat.
Proof.
  intros O. unfold skip_of, loc_hnd. unfold other_id in O. destruct (nth_error (l_hnds st) _) as [hd|] eqn:E; [|reflexivity].
  destruct (O hd eq_refl) as [A B]. unfold skip. destruct (h_type hd) as [|[]]; try reflexivity; congruence.
Qed.
Lemma assoc_notin {A} n (l : list (string * A)) : ~ In n (map fst l) -> assoc n l = None.
Proof.
  induction l as [|[m a] t IH]; intros H; cbn [assoc]; [reflexivity|]. cbn [map fst In] in H.
  destruct (String.eqb_spec n m) as [->|]; [exfalso; apply H; auto|apply IH; tauto].
Qed.

Lemma fail_keeps st c : snd (lib_step st c) = RFail -> match c with ANameIdx _ _ _ _ | AInfoIdx _ _ _ _ => fst (lib_step st c) = st | _ => True end.
Proof.
  destruct c; auto; intros _; cbn [lib_step]; unfold or_fail;
    destruct (loc_of st l) as [p|]; [|reflexivity| |reflexivity]; destruct (nth_error _ k); reflexivity.
Qed.
Lemma get_idx_plain st l io k c : skip_of st l = 0%nat ->
  (snd (lib_step st (c k)) = RFail -> fst (lib_step st (c k)) = st) ->
  get_idx st l io k c = Ok (lib_step st (c k)).
Proof.
  intros S0 F. unfold get_idx. rewrite S0, Nat.add_0_r. unfold under.
  destruct (lib_step st (c k)) as [st' r] eqn:E. cbn [fst snd] in *. destruct r; destruct io; try reflexivity; rewrite F; reflexivity.
Qed.
Lemma num_mod st l i o : loc_of st l = Some (i, o) -> Zlen (ob_attrs o) < 2 ^ 64 -> skip_of st l = 0%nat ->
  wrap64 (Zlen (ob_attrs o) - Z.of_nat (skip_of st l)) = Zlen (ob_attrs o).
Proof. intros _ H ->. unfold wrap64. change (Z.of_nat 0) with 0. rewrite Z.sub_0_r. apply Z.mod_small. unfold Zlen in *. lia. Qed.

Section R.
  Context {D A X : Type} (ud : X -> lib -> D -> X * A).

  Lemma reg_step_plain x st (c : rcall D) : rsupported st c -> reg_step ud x st c = Ok (plain_step ud x st c).
  Proof.
    destruct c as [c|h n|d|]; cbn [rsupported]; [|intros []|intros _; reflexivity|intros []].
    intros H. unfold reg_step, plain_step.
    assert (E : reg_ns st c = Ok (lib_step st c)); [|rewrite E; reflexivity].
    destruct c; try reflexivity; cbn [reg_ns].
    - destruct h1; [|contradiction]. destruct h2; [|contradiction]. reflexivity.
    - apply get_idx_plain; [apply other_skip; exact H|]. intros F. exact (fail_keeps st (ANameIdx l it io k) F).
    - apply get_idx_plain; [apply other_skip; exact H|]. intros F. exact (fail_keeps st (AInfoIdx l it io k) F).
    - destruct H as [O B]. apply other_skip in O. cbn [lib_step]. unfold or_fail. destruct (loc_of st l) as [[i o]|] eqn:L; cbn [fst snd]; [|reflexivity].
      rewrite (num_mod st l i o L (B _ _ eq_refl) O). reflexivity.
    - unfold reg_reopen. destruct (l_objs st) as [|r t] eqn:E; [reflexivity|]. rewrite (assoc_notin "_int_att" (ob_attrs r) (H _ _ E)). reflexivity.
  Qed.
  Lemma reg_run_plain : forall cs x st, rsupported_run ud x st cs -> reg_run ud x st cs = Ok (plain_run ud x st cs).
  Proof.
    induction cs as [|c t IH]; intros x st H; [reflexivity|]. unfold rsupported_run in H. cbn [rsupported_from snd] in H. destruct H as [A1 B].
    cbn [reg_run plain_run]. rewrite (reg_step_plain x st c A1). cbn [bind]. unfold plain_next in B. cbn [fst snd] in B. rewrite (IH (fst (fst (plain_step ud x st c))) (snd (fst (plain_step ud x st c)))) by (unfold rsupported_run; rewrite <- surjective_pairing; exact B). reflexivity.
  Qed.

  Lemma reg_run_app : forall cs ds x st y s rs, reg_run ud x st cs = Ok (y, s, rs) ->
    reg_run ud x st (cs ++ ds) = (do r <- reg_run ud y s ds; Ok (fst r, rs ++ snd r)).
  Proof.
    induction cs as [|c t IH]; intros ds x st y s rs H; cbn [app].
    - injection H as -> -> <-. cbn [app]. destruct (reg_run ud y s ds) as [[[? ?] ?]| |]; reflexivity.
    - cbn [reg_run] in *. destruct (reg_step ud x st c) as [r| |]; cbn [bind] in *; try discriminate.
      destruct (reg_run ud (fst (fst r)) (snd (fst r)) t) as [[[y1 s1] rs1]| |] eqn:E; cbn [bind fst snd] in *; try discriminate.
      injection H as -> -> <-. rewrite (IH ds _ _ _ _ _ E). destruct (reg_run ud y s ds) as [[[? ?] ?]| |]; reflexivity.
  Qed.
  (** One more call after a supported history. *)
  Lemma reg_run_snoc cs x st c r : rsupported_run ud x st cs ->
    reg_step ud (fst (fst (plain_run ud x st cs))) (snd (fst (plain_run ud x st cs))) c = Ok r ->
    reg_run ud x st (cs ++ [c]) = Ok (fst r, snd (plain_run ud x st cs) ++ [snd r]).
  Proof.
    intros H E. destruct (plain_run ud x st cs) as [[y s] rs] eqn:P. cbn [fst snd] in *.
    rewrite (reg_run_app cs [c] x st y s rs) by (rewrite <- P; apply reg_run_plain; exact H).
    cbn [reg_run]. rewrite E. cbn [bind fst snd]. destruct r as [[? ?] ?]; reflexivity.
  Qed.

  Lemma skip_self st l t : on_id st (match l with Self h => h | Named h _ => h end) t -> skip_of st l = skip t.
  Proof. intros (hd & E & T). unfold skip_of, loc_hnd. rewrite E, T. reflexivity. Qed.

  Lemma count_wrong cs x st l t i o : rsupported_run ud x st cs ->
    let s := snd (fst (plain_run ud x st cs)) in
    on_id s (match l with Self h => h | Named h _ => h end) t -> loc_of s l = Some (i, o) ->
    exists z, reg_run ud x st (cs ++ [RNs (ANum l)]) = Ok (z, snd (plain_run ud x st cs) ++ [RR (RNum ((Zlen (ob_attrs o) - Z.of_nat (skip t)) mod 2 ^ 64))]).
  Proof.
    intros H s O L. eexists. erewrite reg_run_snoc; [|exact H|]; cycle 1.
    - unfold reg_step, reg_ns. fold s. cbn [lib_step]. unfold or_fail. rewrite L. cbn [snd fst bind]. reflexivity.
    - cbn [fst snd]. rewrite (skip_self s l t O). reflexivity.
  Qed.

  Lemma nth_past {B} (l : list B) k d : (d > 0)%nat -> S k = List.length l -> nth_error l (k + d) = None.
  Proof. intros P E. apply nth_error_None. lia. Qed.
  Lemma insert_len (p : string * list Z) : forall l, List.length (insert p l) = S (List.length l).
  Proof. induction l as [|q l IH]; cbn [insert List.length]; [reflexivity|]. destruct (sleb (fst p) (fst q)); cbn [List.length]; lia. Qed.
  Lemma ordered_len it io (l : list (string * list Z)) : List.length (ordered it io l) = List.length l.
  Proof.
    unfold ordered. assert (E : List.length (match it with ByCrt => l | ByName => fold_right insert [] l end) = List.length l).
    { destruct it; [|reflexivity]. induction l as [|p l IH]; cbn [fold_right List.length]; [reflexivity|]. rewrite insert_len. lia. }
    destruct io; [exact E|rewrite rev_length; exact E].
  Qed.

  Lemma last_lost cs x st l t i o it io k : rsupported_run ud x st cs ->
    let s := snd (fst (plain_run ud x st cs)) in
    on_id s (match l with Self h => h | Named h _ => h end) t -> t = TFile \/ t = TObj KDset ->
    loc_of s l = Some (i, o) -> S k = List.length (ob_attrs o) ->
    (exists z, reg_run ud x st (cs ++ [RNs (ANameIdx l it io k)]) = Ok (z, snd (plain_run ud x st cs) ++ [RR RFail])) /\
    (exists z, reg_run ud x st (cs ++ [RNs (AInfoIdx l it io k)]) = Ok (z, snd (plain_run ud x st cs) ++ [RR RFail])).
  Proof.
    intros H s O T L K.
    assert (SK : (skip t > 0)%nat) by (destruct T as [-> | ->]; cbn; lia).
    assert (NE : nth_error (ordered it io (ob_attrs o)) (k + skip t) = None) by (apply nth_past; [exact SK|rewrite ordered_len; exact K]).
    split; eexists; (erewrite reg_run_snoc; [|exact H|]; [|unfold reg_step, reg_ns, get_idx; fold s; rewrite (skip_self s l t O); cbn [lib_step]; unfold or_fail; rewrite L; cbn [snd]; rewrite NE; cbn [snd fst bind]; reflexivity]); reflexivity.
  Qed.

  Lemma shifted cs x st l t i o it k : rsupported_run ud x st cs ->
    let s := snd (fst (plain_run ud x st cs)) in
    on_id s (match l with Self h => h | Named h _ => h end) t -> loc_of s l = Some (i, o) ->
    exists z, reg_run ud x st (cs ++ [RNs (ANameIdx l it Inc k)]) =
      Ok (z, snd (plain_run ud x st cs) ++ [RR (match nth_error (ordered it Inc (ob_attrs o)) (k + skip t) with Some q => RName (fst q) | None => RFail end)]).
  Proof.
    intros H s O L. eexists. erewrite reg_run_snoc; [|exact H|]; cycle 1.
    - unfold reg_step, reg_ns, get_idx. fold s. rewrite (skip_self s l t O). cbn [lib_step]. unfold or_fail. rewrite L. cbn [snd].
      instantiate (1 := (fst (fst (plain_run ud x st cs)), s, RR (match nth_error (ordered it Inc (ob_attrs o)) (k + skip t) with Some q => RName (fst q) | None => RFail end))).
      destruct (nth_error _ _); reflexivity.
    - reflexivity.
  Qed.

  Lemma marked cs x st r t v : rsupported_run ud x st cs ->
    l_objs (snd (fst (plain_run ud x st cs))) = r :: t -> assoc "_int_att" (ob_attrs r) = Some v ->
    (5 < Zlen v -> reg_run ud x st (cs ++ [RNs CReopen]) = UB) /\
    (Zlen v <= 5 -> ~ In "_LOG"%string (map fst (ob_links r)) ->
      exists z, reg_run ud x st (cs ++ [RNs CReopen]) = Ok (z, snd (plain_run ud x st cs) ++ [RR RFail])).
  Proof.
    intros H L M. destruct (plain_run ud x st cs) as [[y s] rs] eqn:P. cbn [fst snd] in *.
    rewrite (reg_run_app cs [RNs CReopen] x st y s rs) by (rewrite <- P; apply reg_run_plain; exact H).
    cbn [reg_run reg_step reg_ns]. unfold reg_reopen. rewrite L, M. split.
    - intros V. replace (5 <? Zlen v) with true by (symmetry; apply Z.ltb_lt; exact V). reflexivity.
    - intros V N. replace (5 <? Zlen v) with false by (symmetry; apply Z.ltb_ge; exact V).
      cbn [resolve]. unfold LOG_GROUP. rewrite (assoc_notin _ _ N). eexists. reflexivity.
  Qed.
End R.
