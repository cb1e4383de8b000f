(** Statements about replay in the form used by P_Replay. *)
From Verif Require Import Base BaseProofs MetaModel LogSpec ReplayModel ReplaySpec ReplayProofs.

Lemma once : forall share secs np, Forall (Forall entry_ok) secs -> Zlen (meta_dataset secs) < 2 ^ 31 ->
  1 <= np <= Zlen secs ->
  exists parts, map (fun r => replay_meta share r np (meta_dataset secs)) (zseq np) = map Ok parts /\
    concat parts = all_positions secs /\ NoDup (concat parts).
Proof.
  intros share secs np HE HL Hnp. destruct (replay_once share secs np HE HL Hnp) as [H1 H2].
  exists (map (fun r => replayed (replay_meta share r np (meta_dataset secs))) (zseq np)).
  rewrite <- flat_map_concat_map, H2. split; [|split; [reflexivity|]].
  - rewrite map_map. apply map_ext_in. intros r Hr. apply zseq_In in Hr. destruct (H1 r Hr) as [l ->]. reflexivity.
  - apply positions_NoDup. apply Forall_concat. exact HE.
Qed.

Definition ex_e1 : entry := (mkhdr 28 0 0 0 0, []).
Definition ex_e2 : entry := (mkhdr 30 0 0 0 0, [1; 2]).
Definition ex_secs : list (list entry) := [[ex_e1; ex_e2]; []; [ex_e1]].

Lemma once_applies : Forall (Forall entry_ok) ex_secs /\ Zlen (meta_dataset ex_secs) = 118 /\
  all_positions ex_secs = [32; 60; 90] /\
  map (fun r => replay_meta true r 2 (meta_dataset ex_secs)) (zseq 2) = [Ok [32; 60]; Ok [90]].
Proof. split; [repeat constructor|]. split; [reflexivity|]. split; vm_compute; reflexivity. Qed.

Lemma twice_refuted : exists secs, Forall (Forall entry_ok) secs /\
  forall share, replay_meta share 0 2 (meta_dataset secs) = Ok (all_positions secs) /\
  replay_meta share 1 2 (meta_dataset secs) = Ok (all_positions secs) /\ all_positions secs <> [].
Proof.
  exists [[ex_e1; ex_e2]]. split; [repeat constructor|]. intros [|]; (split; [|split]); vm_compute; try reflexivity; discriminate.
Qed.

Lemma missed_refuted : exists secs x, Forall (Forall entry_ok) secs /\ In x (all_positions secs) /\
  forall r l, 0 <= r < 3 -> replay_meta true r 3 (meta_dataset secs) = Ok l -> ~ In x l.
Proof.
  exists [[ex_e1; ex_e2]], 44. split; [repeat constructor|]. split; [right; left; reflexivity|].
  intros r l Hr H. assert (Hc : r = 0 \/ r = 1 \/ r = 2) by lia.
  destruct Hc as [->|[->| ->]]; vm_compute in H; injection H as <-; cbn; lia.
Qed.
