(** Examples and counterexamples behind P_ReadN. *)
From Verif Require Import Base BaseProofs Spec MetaModel QueueModel FlushModel IndexModel ReadModel SysModel
  SysSpec History SysCheck Examples DefSpec AnySpec TameSpec AnyClaims PendModel RealModel RealClaims2 NbModel NbClaims2 ReadNModel ReadNSpec ReadNProofs.
From Coq Require Import ZifyNat ZifyN.

Definition d_line : dinfo := mkdinfo 1 [10] [10] [] (Some [9]).
Definition w_line : list op := [OCreate d_line; OWrite 0 0 [B [0] [10]] [10;11;12;13;14;15;16;17;18;19]].
Definition r_line : rcall := mkrcall 0 [B [0] [10]; B [2] [2]] 0 junk.
Definition r_apart : rcall := mkrcall 0 [B [4] [3]; B [9] [1]; B [0] [2]] 0 junk.

Lemma read_n_ex : tame e_dflt cfg_dflt 1 (w_line ++ [ORead 100 [r_apart]]) /\
  tame e_dflt cfg_dflt 1 (w_line ++ read_one_by_one [200;300;400] 1 r_apart) /\
  read_one_by_one [200;300;400] 1 r_apart = [ORead 200 [mkrcall 0 [B [4] [3]] 0 junk]; ORead 300 [mkrcall 0 [B [9] [1]] 3 junk]; ORead 400 [mkrcall 0 [B [0] [2]] 4 junk]] /\
  exists s outs, run e_dflt (init cfg_dflt 1 f_zero) (w_line ++ [ORead 100 [r_apart]]) = Ok (s, outs ++ [[[14;15;16;19;10;11]]]).
Proof.
  split; [tame_dflt|]. split; [tame_dflt|]. split; [reflexivity|]. eexists. exists [[]; []]. vm_compute. reflexivity.
Qed.

Lemma read_n_nested : legal_history true 1 (w_line ++ [ORead 100 [r_line]]) /\ legal_history true 1 (w_line ++ read_one_by_one [200;300] 1 r_line) /\
  (exists s outs, run e_dflt (init cfg_dflt 1 f_zero) (w_line ++ [ORead 100 [r_line]]) = Ok (s, outs ++ [[[10;11;12;13;14;15;16;17;18;19;18;19]]])) /\
  (exists s outs, run e_dflt (init cfg_dflt 1 f_zero) (w_line ++ read_one_by_one [200;300] 1 r_line) = Ok (s, outs ++ [[[10;11;12;13;14;15;16;17;18;19]]; [[12;13]]])).
Proof.
  split; [legal|]. split; [legal|]. split; eexists; exists [[]; []]; vm_compute; reflexivity.
Qed.

Definition a_pre : list aop :=
  [ACall (NOp (OCreate d_line)); ACall (NOp (OWrite 0 0 [B [0] [10]] [10;11;12;13;14;15;16;17;18;19])); ASet 0 [B [4] [3]; B [0] [2]]].
Lemma arrays_ex :
  let ops := a_pre ++ [AReadN 0 0 2 0 5; ASet 1 [B [7] [1]]; AReadN 0 0 1 1 0; ACall (NOp (OFlush 100)); ASet 0 []] in
  arrays_kept [] ops = true /\
  (exists st outs, arun e_dflt (ainit cfg_dflt 1 f_zero (fun _ => junk)) ops = Ok (st, outs) /\ get (n_mem (a_nst st) 0) 0 11 = [17;77;77;77;77;14;15;16;10;11;77]) /\
  by_value (fun _ => []) ops = [NOp (OCreate d_line); NOp (OWrite 0 0 [B [0] [10]] [10;11;12;13;14;15;16;17;18;19]);
    NRead 0 (mkrcall 0 [B [4] [3]; B [0] [2]] 5 (fun _ => 0)); NRead 0 (mkrcall 0 [B [7] [1]] 0 (fun _ => 0)); NOp (OFlush 100)].
Proof.
  intros ops. split; [reflexivity|]. split; [|reflexivity]. eexists. eexists. split; [vm_compute; reflexivity|]. vm_compute. reflexivity.
Qed.

Lemma arrays_changed_ex :
  let asked := [B [4] [3]; B [0] [2]] in let new := [B [7] [3]; B [2] [2]] in
  let prog := a_pre ++ [AReadN 0 0 2 0 5; ASet 0 new; ACall (NOp (OFlush 100))] in
  length (firstn 2 new) = 2%nat /\ sel_size (firstn 2 new) = sel_size (firstn 2 asked) /\
  (exists st outs, arun e_dflt (ainit cfg_dflt 1 f_zero (fun _ => junk)) prog = Ok (st, outs) /\ get (n_mem (a_nst st) 0) 5 5 = [17;18;19;12;13]) /\
  (exists st outs, arun e_dflt (ainit cfg_dflt 1 f_zero (fun _ => junk)) (a_pre ++ [AReadN 0 0 2 0 5; ACall (NOp (OFlush 100))]) = Ok (st, outs) /\ get (n_mem (a_nst st) 0) 5 5 = [14;15;16;10;11]).
Proof.
  intros asked new prog. split; [reflexivity|]. split; [reflexivity|]. split; eexists; eexists; (split; [vm_compute; reflexivity|]); vm_compute; reflexivity.
Qed.
