(** In a synchronised program the published values are the last ones in program order. *)
From Verif Require Import Base BaseProofs Spec MetaModel QueueModel FlushModel IndexModel ReadModel SysModel
  SysSpec History SysProofs HistoryProofs ClaimProofs SysCheck Examples DefSpec TameSpec AnyClaims ReplayDataSpec ReplayDataRun SyncSpec.
From Coq Require Import ZifyNat.

Lemma concat_map_nil : forall A B (l : list A), concat (map (fun _ => @nil B) l) = [].
Proof. induction l; auto. Qed.
Lemma concat_repeat_nil : forall A n, concat (repeat (@nil A) n) = [].
Proof. induction n; auto. Qed.

Section Elem.
Context (did : Z) (x : list Z).

Fixpoint sync_from (cur : option nat) (ops : list op) : Prop :=
  match ops with
  | [] => True
  | OWrite rk did' sels _ :: rest =>
      (did' = did /\ In x (sel_coords sels) -> (cur = None \/ cur = Some rk) /\ sync_from (Some rk) rest) /\
      (~ (did' = did /\ In x (sel_coords sels)) -> sync_from cur rest)
  | OFlush _ :: rest | ORead _ _ :: rest | OReopen _ _ :: rest => sync_from None rest
  | _ :: rest => sync_from cur rest
  end.

Lemma sync_tail : forall o ops, synchronised (o :: ops) -> synchronised ops.
Proof.
  intros o ops H i j oi oj a b d y Hij Hi Hj Wi Wj Hab. destruct (H (S i) (S j) oi oj a b d y ltac:(lia) Hi Hj Wi Wj Hab) as (k & ok & K1 & K2 & K3).
  destruct k as [|k]; [lia|]. exists k, ok. split; [lia|auto].
Qed.

(** [cur] is the only process that may write the element before the next synchronisation. *)
Definition cur_ok (cur : option nat) (ops : list op) : Prop :=
  forall rk b j oj, cur = Some rk -> nth_error ops j = Some oj -> writes_elem b did x oj -> b <> rk ->
    exists k ok, (k < j)%nat /\ nth_error ops k = Some ok /\ synchronises ok.
Lemma cur_tail : forall cur o ops, ~ synchronises o -> cur_ok cur (o :: ops) -> cur_ok cur ops.
Proof.
  intros cur o ops Hn H rk b j oj E Hj W Hb. destruct (H rk b (S j) oj E Hj W Hb) as (k & ok & K1 & K2 & K3).
  destruct k as [|k]; [cbn in K2; congruence|]. exists k, ok. split; [lia|auto].
Qed.
Lemma sync_from_ok : forall ops cur, synchronised ops -> cur_ok cur ops -> sync_from cur ops.
Proof.
  induction ops as [|o ops IH]; intros cur HS HC; [exact Logic.I|]. pose proof (sync_tail _ _ HS) as HS'.
  assert (HN : cur_ok None ops) by (intros rk b j oj E; discriminate).
  destruct o as [d|did' dims|rk did' sels data|doff|doff calls|doff np]; cbn [sync_from]; auto.
  - apply IH; auto. eapply cur_tail; [|exact HC]. auto.
  - apply IH; auto. eapply cur_tail; [|exact HC]. auto.
  - split; intros HT.
    + split.
      * destruct cur as [r|]; [|auto]. right. destruct (Nat.eq_dec rk r) as [->|Hne]; [reflexivity|]. exfalso.
        destruct (HC r rk O (OWrite rk did' sels data) eq_refl eq_refl) as (k & ok & K1 & _); [cbn; tauto|exact Hne|lia].
      * apply IH; auto. intros r b j oj E Hj W Hb. injection E as <-.
        destruct (HS O (S j) (OWrite rk did' sels data) oj rk b did x ltac:(lia) eq_refl Hj) as (k & ok & K1 & K2 & K3); [cbn; tauto|exact W|congruence|].
        destruct k as [|k]; [lia|]. exists k, ok. split; [lia|auto].
    + apply IH; auto. eapply cur_tail; [|exact HC]. auto.
Qed.

Definition pend_of (cur : option nat) (t : trace) : Prop := forall j, cur <> Some j -> last_assigned did x (nth j (t_pend t) []) = None.

Lemma last_concat : forall l k, (forall j, j <> k -> last_assigned did x (nth j l []) = None) -> last_assigned did x (concat l) = last_assigned did x (nth k l []).
Proof.
  intros l k H. rewrite <- (map_id l) at 1. rewrite <- flat_map_concat_map. apply (last_flat_nth _ did x (fun a => a) []); auto.
Qed.
Lemma last_concat_upd : forall l k A, last_assigned did x A = None -> last_assigned did x (concat (upd_nth k (nth k l [] ++ A) l)) = last_assigned did x (concat l).
Proof.
  induction l as [|a l IH]; intros [|k] A H; cbn [upd_nth nth concat]; auto; rewrite !last_assigned_app, ?H, ?IH; auto.
Qed.

Lemma sync_order : forall ops t sets cur, sync_from cur ops -> ranks_ok (length (t_pend t)) ops -> pend_of cur t ->
  map di_esize (t_sets t) = map di_esize sets ->
  last_assigned did x (publish (fold_left (tstep true) ops t)) = last_assigned did x (publish t ++ program_order sets ops).
Proof.
  induction ops as [|o ops IH]; intros t sets cur HS HR HP HE; [cbn; rewrite app_nil_r; reflexivity|]. cbn [fold_left].
  destruct HR as [R1 R2]. rewrite <- tstep_pend in R2. pose proof (tstep_esizes t o) as ES.
  assert (PN : forall t', (forall j, nth j (t_pend t') [] = []) -> pend_of None t'). { intros t' K j _. rewrite K. reflexivity. }
  destruct o as [d|did' dims|rk did' sels data|doff|doff calls|doff np]; cbn [sync_from program_order new_esize] in *.
  - rewrite (IH _ (sets ++ [d]) cur HS R2); [reflexivity|exact HP|]. rewrite ES, HE, map_app. reflexivity.
  - rewrite (IH _ sets cur HS R2); [reflexivity|exact HP|]. rewrite ES, HE, app_nil_r. reflexivity.
  - rewrite app_nil_r in ES. assert (EA : esize_at sets did' = esize_at (t_sets t) did') by (rewrite !esize_nth, HE; reflexivity). rewrite EA.
    set (A := assigns_of (esize_at (t_sets t) did') did' sels data) in *.
    assert (HD : (did' = did /\ In x (sel_coords sels)) \/ ~ (did' = did /\ In x (sel_coords sels))).
    { destruct (Z.eq_dec did' did); [|tauto]. destruct (in_dec (list_eq_dec Z.eq_dec) x (sel_coords sels)); tauto. }
    cbn [in_ranks] in R1. destruct HD as [HT|HT].
    + destruct HS as [HS _]. destruct (HS HT) as [HC HS']. 
      assert (HO : forall j, j <> rk -> last_assigned did x (nth j (t_pend t) []) = None).
      { intros j Hj. apply HP. destruct HC as [->| ->]; congruence. }
      rewrite (IH _ sets (Some rk) HS' R2).
      * rewrite app_assoc, !(last_assigned_app did x _ (program_order sets ops)). f_equal. unfold publish. cbn [tstep t_pub t_pend]. fold A. rewrite !last_assigned_app.
        rewrite (last_concat _ rk). 2: { intros j Hj. rewrite nth_upd_other by auto. auto. }
        rewrite (last_concat (t_pend t) rk HO). rewrite ClaimProofs.nth_upd_same by exact R1. rewrite last_assigned_app. destruct (last_assigned did x A); reflexivity.
      * intros j Hj. cbn [tstep t_pend]. rewrite nth_upd_other by congruence. apply HO. congruence.
      * rewrite ES. exact HE.
    + destruct HS as [_ HS]. specialize (HS HT). assert (HA : last_assigned did x A = None) by (apply assigns_touch; exact HT).
      rewrite (IH _ sets cur HS R2).
      * rewrite app_assoc, !(last_assigned_app did x _ (program_order sets ops)). f_equal. unfold publish. cbn [tstep t_pub t_pend]. fold A. rewrite !last_assigned_app, HA.
        rewrite last_concat_upd by exact HA. reflexivity.
      * intros j Hj. cbn [tstep t_pend]. destruct (Nat.eq_dec rk j) as [->|Hne]; [|rewrite nth_upd_other by auto; auto].
        rewrite ClaimProofs.nth_upd_same by exact R1. rewrite last_assigned_app. fold A. rewrite HA. apply HP. exact Hj.
      * rewrite ES. exact HE.
  - rewrite (IH _ sets None HS R2); [| |rewrite ES, HE, app_nil_r; reflexivity].
    + unfold publish at 1. cbn [tstep t_pub t_pend]. rewrite concat_map_nil. rewrite app_nil_r. reflexivity.
    + apply PN. intros j. cbn [tstep t_pend]. apply nth_empties.
  - rewrite (IH _ sets None HS R2); [| |rewrite ES, HE, app_nil_r; reflexivity].
    + unfold publish at 1. cbn [tstep t_pub t_pend]. rewrite concat_map_nil. rewrite app_nil_r. reflexivity.
    + apply PN. intros j. cbn [tstep t_pend]. apply nth_empties.
  - rewrite (IH _ sets None HS R2); [| |rewrite ES, HE, app_nil_r; reflexivity].
    + unfold publish at 1. cbn [tstep t_pub t_pend]. rewrite concat_repeat_nil. rewrite app_nil_r. reflexivity.
    + apply PN. intros j. cbn [tstep t_pend]. apply nth_repeat_nil.
Qed.
End Elem.
