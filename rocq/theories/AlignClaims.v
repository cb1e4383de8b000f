(** Statements about the stripe-aligned write path in the form used by P_Align. *)
From Verif Require Import Base BaseProofs AlignModel AlignSpec AlignProofs.

Lemma recorded_wrong : forall ssize scount target doff off segs,
  0 < ssize -> 1 <= scount -> 0 <= target -> 0 < doff -> 0 <= off -> concat segs <> [] ->
  exists w rest, ost_write ssize scount target doff off segs = w :: rest /\
    hd_error (align_recorded off segs) = Some off /\ off < fst w.
Proof.
  intros ssize scount target doff off segs H1 H2 H3 H4 H5 Hne.
  destruct (ost_write_ok ssize scount target doff off segs H1 ltac:(lia)) as [HB _].
  destruct (ost_write ssize scount target doff off segs) as [|w rest] eqn:E; [cbn in HB; congruence|].
  exists w, rest. split; [reflexivity|]. split; [destruct segs; [cbn in Hne; congruence|reflexivity]|].
  rewrite (first_write _ _ _ _ _ _ _ _ E). apply start_differs; auto.
Qed.

Lemma overwritten :
  let w1 := ost_write 4 2 0 100 0 [[1;2;3;4;5;6;7;8;9;10;11;12]] in
  let w2 := ost_write 4 2 0 100 12 [[21;22;23;24]] in
  w1 = [(100, [1;2;3;4]); (112, [5;6;7;8]); (124, [9;10;11;12])] /\ w2 = [(124, [21;22;23;24])] /\
  get (after_writes (after_writes (fun _ => 0) w1) w2) 124 4 = [21;22;23;24].
Proof. vm_compute. auto. Qed.

Lemma three_nodes : concat (chain_offs 0 [[10]; [10]; [10]]) = [0; 10; 10].
Proof. reflexivity. Qed.
