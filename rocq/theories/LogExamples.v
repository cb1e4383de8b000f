(** Concrete histories for the properties of the log. *)
From Verif Require Import Base Spec MetaModel QueueModel FlushModel IndexModel ReadModel SysModel History LogSpec LogClaims Examples.
From Coq Require Import Lia Permutation.

Ltac num := vm_compute; intuition congruence.
Ltac one_shaped :=
  lazymatch goal with
  | |- _ <> _ -> _ => intros _; split; [num|split; [num|eexists; split; [reflexivity|split;
        [repeat (apply Forall_cons; [split; reflexivity|]); apply Forall_nil|vm_compute; reflexivity]]]]
  | |- true = true \/ _ => left; reflexivity
  | |- True => exact I
  | |- _ = _ => reflexivity
  end.
Ltac shaped_tac :=
  split; [lia|split; [vm_compute; reflexivity|split; [repeat (apply Forall_cons; [try exact I; try (split; [lia|vm_compute; reflexivity])|]); apply Forall_nil|]]];
  cbn [shaped]; repeat (lazymatch goal with |- _ /\ _ => apply conj; [cbn [shaped_op]; one_shaped|] end); exact I.

Lemma h_full_shaped : shaped_history true 2 h_full.
Proof. unfold h_full, h_pre. cbn [app]. shaped_tac.
Qed.
Definition flushes_full : list flush :=
  [mkfl 100 [by_ 10 20; by_ 100 20; by_ 50 6; by_ 60 4]; mkfl 1000 [[1;2];[7;8]]; mkfl 5000 [[3;3;4;4]]; mkfl 9000 [[5;6]]].
Lemma h_full_flushes : flushes_of true 2 h_full = (flushes_full, [[];[];[]]).
Proof. vm_compute. reflexivity. Qed.
Lemma h_full_range : Forall (fun f => 0 <= f_at f /\ f_at f + Zlen (f_bytes f) < 2 ^ 63) (fst (flushes_of true 2 h_full)).
Proof. rewrite h_full_flushes. unfold flushes_full. repeat (apply Forall_cons; [num|]). apply Forall_nil. Qed.
Lemma h_full_apart : ForallOrdPairs apart (map region (fst (flushes_of true 2 h_full))).
Proof.
  replace (map region (fst (flushes_of true 2 h_full))) with [(100,50);(1000,4);(5000,4);(9000,2)] by (vm_compute; reflexivity).
  repeat (apply FOP_cons; [repeat (apply Forall_cons; [intros x; cbn [fst snd]; lia|]); apply Forall_nil|]). apply FOP_nil.
Qed.
Lemma h_full_runs : exists s outs, run e_dflt (init cfg_dflt 2 f_zero) h_full = Ok (s, outs).
Proof. eexists. eexists. vm_compute. reflexivity. Qed.

(** A write of no element is never flushed. *)
Definition h_zero : list op := [OCreate dA; OWrite 0 0 [B [0;0] [0;3]] []; OFlush 100; OFlush 200].
Lemma zero_refuted : exists s outs, run e_dflt (init cfg_dflt 1 f_zero) h_zero = Ok (s, outs) /\
  pending_counts (s_g s) = [1%nat].
Proof. eexists. eexists. split; vm_compute; reflexivity. Qed.
