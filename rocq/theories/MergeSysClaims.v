(** Lemmas behind P_MergeSys.v. *)
From Verif Require Import Base BaseProofs Spec MetaModel QueueModel FlushModel IndexModel ReadModel SysModel
  SysSpec History SysProofs ClaimProofs SysCheck Examples ClaimProofs2 SizedProofs DefSpec DefProofs AnySpec AnyProofs TameSpec TameProofs AnyClaims
  MergeModel MergeSysModel MergeSysSpec MergeSysProofs MergeRun.
From Coq Require Import ZifyNat ZifyN.

Lemma merging_same : forall e e' cfg cfg' np f0 f0' ops, merging cfg -> tame e 0 np ops -> tame e' cfg' np ops -> once_each [] ops ->
  exists s s' outs, mrun e (minit cfg np f0) ops = Ok (s, outs) /\ run e' (init cfg' np f0') ops = Ok (s', outs).
Proof.
  intros e e' cfg cfg' np f0 f0' ops Hm T T' Ho. destruct (tame_ok _ _ _ _ T) as [cv H]. destruct (tame_ok _ _ _ _ T') as [cv' H'].
  destruct T as [E _], T' as [E' _]. destruct (mrun_spec e cfg cv np f0 ops Hm E H Ho) as (s & R). destruct (run_spec e' cfg' cv' np f0' ops H') as (s' & R').
  exists s, s', (snd (srun true (sinit np) ops)). rewrite E in R. rewrite E' in R'. auto.
Qed.

Definition h_mrg : list op :=
  [ OCreate dA; OCreate dR;
    OWrite 0 1 [B [2;0] [1;4]] (by_ 60 4);
    OWrite 0 0 [B [0;0] [2;3]; B [1;1] [2;2]] (by_ 10 20);
    OWrite 1 0 [B [1;2] [1;3]] (by_ 50 6);
    OFlush 100;
    OSetExtent 1 [9;4];
    OWrite 1 1 [B [7;1] [1;2]] [7;8];
    OWrite 0 0 [B [3;5] [1;1]] [1;2];
    ORead 1000 h_read;
    OWrite 1 0 [B [0;0] [1;2]] [3;3;4;4];
    OReopen 5000 3;
    OWrite 2 0 [B [0;1] [1;1]] [5;6];
    ORead 9000 [mkrcall 0 [B [0;0] [4;6]] 0 junk]].
Lemma mrg_ex : merging 9 /\ tame e_dflt 0 2 h_mrg /\ tame e_dflt cfg_dflt 2 h_mrg /\ once_each [] h_mrg /\ length h_mrg = 14%nat.
Proof.
  split; [vm_compute; repeat (split; [congruence|]); congruence|]. split; [tame_coords|]. split; [tame_dflt|]. split; [|reflexivity].
  cbn. intuition discriminate.
Qed.

(** The same dataset written twice by one process. *)
Definition h_mtwice : list op :=
  [ OCreate sq; OWrite 0 0 [B [0;0] [1;2]] [1;2]; OWrite 0 0 [B [3;0] [1;2]] [3;4]; ORead 100 rd_sq ].
Lemma twice_history : merging 9 /\ tame e_dflt 0 1 h_mtwice /\ tame e_dflt 8 1 h_mtwice /\
  exists s s' outs outs', mrun e_dflt (minit 9 1 f_zero) h_mtwice = Ok (s, outs) /\ run e_dflt (init 8 1 f_zero) h_mtwice = Ok (s', outs') /\ outs <> outs'.
Proof.
  split; [vm_compute; repeat (split; [congruence|]); congruence|]. split; [tame_coords|]. split; [tame_dflt|].
  eexists. eexists. eexists. eexists. split; [vm_compute; reflexivity|]. split; [vm_compute; reflexivity|]. discriminate.
Qed.
