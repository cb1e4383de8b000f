(** Claims about deleting datasets. *)
From Coq Require Import ZifyNat.
From Verif Require Import Base BaseProofs Spec MetaModel QueueModel FlushModel IndexModel ReadModel SysModel SysSpec History SysCheck Examples DefSpec TameSpec AnyClaims SyncSpec SyncProofs SyncClaims DelModel DelSpec DelProofs.

Lemma answers_len : forall cs outs, length outs = length (kept cs) -> length (answers cs outs) = length cs.
Proof.
  induction cs as [|[o|d] cs IH]; intros outs H; cbn in *; [reflexivity| |].
  - destruct outs; [discriminate|]. cbn. f_equal. auto.
  - f_equal. auto.
Qed.
Lemma answers_nth : forall cs outs i o, length outs = length (kept cs) -> nth_error cs i = Some (DOp o) ->
  nth_error (answers cs outs) i = nth_error outs (length (kept (firstn i cs))) /\
  nth_error (kept cs) (length (kept (firstn i cs))) = Some o /\
  firstn (length (kept (firstn i cs))) (kept cs) = kept (firstn i cs).
Proof.
  induction cs as [|[x|d] cs IH]; intros outs [|i] o H Hi; cbn in *; try discriminate.
  - injection Hi as <-. destruct outs; [discriminate|]. repeat split.
  - destruct outs as [|y outs]; [discriminate|]. destruct (IH outs i o) as (A & B & C); auto.
    cbn. rewrite A, B. repeat split. f_equal. exact C.
  - destruct (IH outs i o H Hi) as (A & B & C). auto.
Qed.

Lemma deleted_values : forall e cfg np f0 cs, has cfg CFG_METADATA_SHARE = false -> uses_live 0 [] cs ->
  tame e cfg np (kept cs) -> synchronised (kept cs) ->
  exists s outs, drun e (dinit cfg np f0) cs = Ok (s, outs) /\ length outs = length cs /\
    forall i doff calls, nth_error cs i = Some (DOp (ORead doff calls)) ->
      exists bufs, nth_error outs i = Some bufs /\
        Forall2 (fun c buf => exists d,
          nth_error (t_sets (trace_of true np (kept (firstn i cs)))) (Z.to_nat (rc_did c)) = Some d /\
          length (elems (di_esize d) buf) = length (sel_coords (rc_sels c)) /\
          forall k x, nth_error (sel_coords (rc_sels c)) k = Some x ->
            nth_error (elems (di_esize d) buf) k
              = Some (expected (program_order [] (kept (firstn i cs))) d c k x)) calls bufs.
Proof.
  intros e cfg np f0 cs HS HL T Y. destruct (sync_reads e cfg np f0 _ T Y) as (s & outs & R & L & V).
  destruct (others_kept _ _ _ _ _ _ _ HS HL R) as (s' & R'). exists s', (answers cs outs).
  split; [exact R'|]. split; [apply answers_len; exact L|]. intros i doff calls Hi.
  destruct (answers_nth cs outs i _ L Hi) as (A & B & C). destruct (V _ _ _ B) as (bufs & V1 & V2).
  exists bufs. rewrite A. split; [exact V1|]. rewrite C in V2. exact V2.
Qed.

Lemma unlink_nil : forall infos k, unlink [] k infos = infos.
Proof. induction infos as [|x infos IH]; intros k; cbn; [reflexivity|]. f_equal. apply IH. Qed.

Lemma open_same : forall e cs s gone s' outs, not_reopened (match gone with [] => false | _ => true end) cs ->
  uses_live (Zlen (g_infos (s_g s))) gone cs -> Forall (fun o => o <> None) (g_infos (s_g s)) ->
  run e s (kept cs) = Ok (s', outs) ->
  exists g', drun e (mkdsys s gone) cs = Ok (mkdsys s' g', answers cs outs) /\ forall d, In d g' <-> In d gone \/ In (DDelete d) cs.
Proof.
  intros e. induction cs as [|c cs IH]; intros s gone s' outs N U F H.
  { cbn in H. injection H as <- <-. exists gone. split; [reflexivity|]. cbn. tauto. }
  destruct c as [o|d].
  - cbn [kept run] in H. destruct (step e s o) as [[s1 out]| |] eqn:E1; try discriminate. cbn [bind fst snd] in H.
    destruct (run e s1 (kept cs)) as [[s2 outs']| |] eqn:E2; try discriminate. cbn [bind fst snd] in H. injection H as <- <-.
    destruct (step_infos _ _ _ _ _ E1 F) as [F' L].
    assert (U' : uses_live (Zlen (g_infos (s_g s1))) gone cs).
    { rewrite L. destruct o; cbn [uses_live] in U; try (rewrite Z.add_0_r; apply U). exact U. }
    assert (N' : not_reopened (match gone with [] => false | _ => true end) cs) by (destruct o; cbn [not_reopened] in N; try exact N; apply N).
    assert (ED : dstep e (mkdsys s gone) (DOp o) = Ok (mkdsys s1 gone, out)).
    { destruct o; cbn [dstep d_sys d_gone]; try (rewrite E1; reflexivity).
      cbn [not_reopened] in N. destruct N as [N _]. destruct gone; [|discriminate]. rewrite unlink_nil.
      destruct s as [g i]. cbn [s_g s_idx]. replace (set_infos g (g_infos g)) with g by (destruct g; reflexivity). rewrite E1. reflexivity. }
    cbn [drun answers]. rewrite ED. cbn [bind fst snd]. destruct (IH _ _ _ _ N' U' F' E2) as (g' & D & D2). rewrite D. cbn [bind fst snd]. exists g'. split; [reflexivity|]. intros x. rewrite D2. cbn [In]. intuition congruence.
  - cbn [kept] in H. cbn [uses_live] in U. destruct U as (B & NI & U). cbn [not_reopened] in N. cbn [drun answers].
    destruct (in_range_info _ _ F B) as [i Hi]. cbn [dstep d_sys d_gone]. rewrite Hi, (gone_not _ _ NI). cbn [bind fst snd].
    destruct (IH s (d :: gone) s' outs N U F H) as (g' & D & D2). rewrite D. cbn [bind fst snd]. exists g'. split; [reflexivity|]. intros x. rewrite D2. cbn [In]. intuition congruence.
Qed.
Lemma until_closed : forall e cfg np f0 cs s outs, not_reopened false cs -> uses_live 0 [] cs ->
  run e (init cfg np f0) (kept cs) = Ok (s, outs) ->
  exists s', drun e (dinit cfg np f0) cs = Ok (s', answers cs outs) /\ d_sys s' = s.
Proof.
  intros e cfg np f0 cs s outs N U H. destruct (open_same e cs (init cfg np f0) [] s outs N U (Forall_nil _) H) as (g' & D & _).
  exists (mkdsys s g'). split; [exact D|reflexivity].
Qed.

(** * Cases *)

(** Three processes; the first dataset is deleted, the file is closed and opened with another number of processes, a
    dataset is created in its place (with number 2), and the others are written and read. *)
Definition del_prog : list dcall :=
  map DOp h_par ++
  [DOp (ORead 6000 rd_par); DDelete 0; DOp (OWrite 1 1 [B [0;0] [1;4]] (by_ 40 4)); DOp (OReopen 7000 2);
   DOp (OCreate dA); DOp (OWrite 1 2 [B [3;0] [1;2]] (by_ 90 4)); DOp (ORead 8000 [mkrcall 1 [B [0;0] [1;4]] 0 junk; mkrcall 2 [B [3;0] [1;3]] 0 junk])].
Lemma del_prog_ok : has 2 CFG_METADATA_SHARE = false /\ uses_live 0 [] del_prog /\ tame e_dflt 2 3 (kept del_prog) /\ synchronised (kept del_prog) /\
  exists s outs, drun e_dflt (dinit 2 3 f_zero) del_prog = Ok (s, outs) /\ last outs [] = [[40;41;42;43]; [90;91;92;93;9;9]].
Proof.
  split; [reflexivity|]. split; [cbn; intuition lia|]. split; [tame_dflt|]. split; [apply sync_b_ok; vm_compute; reflexivity|].
  eexists. eexists. split; [vm_compute; reflexivity|reflexivity].
Qed.
(** The default settings, without closing the file. *)
Definition del_open : list dcall :=
  map DOp h_par ++ [DDelete 0; DOp (OCreate dA); DOp (OWrite 1 2 [B [3;0] [1;2]] (by_ 90 4)); DOp (ORead 8000 [mkrcall 1 [B [1;0] [1;4]] 0 junk; mkrcall 2 [B [3;0] [1;3]] 0 junk])].
Lemma del_open_ok : not_reopened false del_open /\ uses_live 0 [] del_open /\
  exists s outs, run e_dflt (init cfg_dflt 3 f_zero) (kept del_open) = Ok (s, outs) /\ last outs [] = [[60;61;62;63]; [90;91;92;93;9;9]].
Proof.
  split; [cbn; auto|]. split; [cbn; intuition lia|]. eexists. eexists. split; [vm_compute; reflexivity|reflexivity].
Qed.

(** The default settings: two datasets, each with the same elements written; the first is deleted and the file is opened again. *)
Definition del_shared (did : Z) : list dcall :=
  [DOp (OCreate dA); DOp (OCreate dA); DOp (OCreate dA); DOp (OWrite 0 0 [B [0;0] [1;2]] (by_ 1 4)); DOp (OWrite 0 1 [B [0;0] [1;2]] (by_ 5 4));
   DOp (OWrite 0 2 [B [2;0] [1;2]] (by_ 20 4));
   DDelete 0; DOp (OReopen 100 1); DOp (ORead 1000 [mkrcall did [B [0;0] [1;2]] 0 junk])].
Lemma del_shared_bad :
  tame e_dflt cfg_dflt 1 (kept (del_shared 1)) /\ Forall one_process (kept (del_shared 1)) /\ uses_live 0 [] (del_shared 1) /\ uses_live 0 [] (del_shared 2) /\
  (exists s outs, run e_dflt (init cfg_dflt 1 f_zero) (kept (del_shared 1)) = Ok (s, outs) /\ last outs [] = [[5;6;7;8]]) /\
  drun e_dflt (dinit cfg_dflt 1 f_zero) (del_shared 1) = UB /\ drun e_arr (dinit cfg_dflt 1 f_zero) (del_shared 1) = UB /\
  drun e_arr (dinit cfg_dflt 1 f_zero) (del_shared 2) = UB.
Proof.
  split; [tame_dflt|]. split; [repeat constructor|]. split; [cbn; intuition lia|]. split; [cbn; intuition lia|].
  split; [eexists; eexists; (split; [vm_compute; reflexivity|reflexivity])|]. repeat split; vm_compute; reflexivity.
Qed.
