(** Examples for P_Ro. *)
From Verif Require Import Base BaseProofs Spec MetaModel QueueModel FlushModel IndexModel ReadModel SysModel
  SysSpec History SysCheck Examples AnySpec CrashModel FaultModel RealModel RealSpec RoModel RoSpec RoClaims.

(** The file written by [h_pre] and closed. *)
Definition dk_pre : disk := match crun e_dflt (init cfg_dflt 2 f_zero, disk0 cfg_dflt f_zero) (h_pre ++ [OReopen 5000 2]) with Ok p => snd (fst p) | _ => disk0 0 f_zero end.
Definition opened (np : nat) : sys := match recover np dk_pre with Ok s => s | _ => init 0 1 f_zero end.
Lemma ro_made : exists s outs, crun e_dflt (init cfg_dflt 2 f_zero, disk0 cfg_dflt f_zero) (h_pre ++ [OReopen 5000 2]) = Ok ((s, dk_pre), outs).
Proof.
  unfold dk_pre. destruct (crun _ _ _) as [[[s dk] outs]| |] eqn:E; [eexists; eexists; reflexivity| |]; exfalso;
  (assert (K : (match crun e_dflt (init cfg_dflt 2 f_zero, disk0 cfg_dflt f_zero) (h_pre ++ [OReopen 5000 2]) with Ok _ => true | _ => false end) = true) by (vm_compute; reflexivity)); rewrite E in K; discriminate.
Qed.
Lemma ro_opened : forall np, (np = 1 \/ np = 2)%nat -> recover np dk_pre = Ok (opened np).
Proof.
  intros np H. unfold opened. destruct (recover np dk_pre) eqn:E; auto; exfalso;
  (assert (K : (match recover np dk_pre with Ok _ => true | _ => false end) = true) by (destruct H as [-> | ->]; vm_compute; reflexivity)); rewrite E in K; discriminate.
Qed.
Definition w_ro : op := OWrite 0 0 [B [0;0] [1;2]] [7;7;8;8].
Definition r_ro (d : Z) : op := ORead d [mkrcall 0 [B [0;0] [1;2]] 0 junk].
Lemma ro_reads_ex : Forall only_asks [r_ro 6000; OFlush 7000; r_ro 8000] /\
  observed (ro_run e_dflt (opened 2, dk_pre) [r_ro 6000; OFlush 7000; r_ro 8000]) = Ok [Some [[100;101;102;103]]; Some []; Some [[100;101;102;103]]].
Proof. split; [repeat constructor|vm_compute; reflexivity]. Qed.
Lemma ro_session_ex : let ops := [w_ro; OFlush 6000; OCreate dA; OSetExtent 1 [11;4]; r_ro 7000] in
  Forall stays_open ops /\ Forall with_data ops /\
  observed (ro_run e_dflt (opened 2, dk_pre) (ops ++ [OReopen 8000 1; r_ro 9000])) =
    Ok [Some []; None; None; None; Some [[100;101;102;103]]; Some []; Some [[100;101;102;103]]] /\
  observed (ro_run e_dflt (opened 1, dk_pre) (ops ++ [OReopen 8000 2; r_ro 9000])) =
    Ok [Some []; None; None; None; None; Some []; Some [[100;101;102;103]]].
Proof. cbv zeta. split; [repeat constructor|]. split; [repeat constructor; discriminate|]. split; vm_compute; reflexivity. Qed.
