(** Lemmas behind P_Real, continued. *)
From Verif Require Import Base BaseProofs Spec MetaModel QueueModel FlushModel IndexModel ReadModel SysModel
  SysSpec History SysCheck Examples DefSpec AnySpec AnyProofs TameSpec AnyClaims RealModel RealSpec RealClaims.
From Coq Require Import ZifyNat ZifyN.
From Verif Require ApiProofs.

Lemma legal_with_data : forall coll ops t hi, Forall (fun d => 0 < di_esize d) (t_sets t) -> legal_run coll t hi ops -> Forall with_data ops.
Proof.
  intros coll. induction ops as [|o ops IH]; intros t hi E L; constructor; cbn [legal_run] in L; destruct L as (L & Lr).
  - destruct o as [d|did dims|rk did sels data|doff|doff calls|doff np]; cbn; auto. destruct L as (_ & d & (D1 & D2) & B & Z0). intros Ns ->.
    assert (Ed : 0 < di_esize d) by (rewrite Forall_forall in E; eauto using nth_error_In).
    destruct sels as [|b sels]; [congruence|]. apply Ns. apply (ApiProofs.coords_nil d); auto. unfold Zlen in Z0. cbn [length] in Z0. destruct (sel_coords (b :: sels)); auto. cbn [length] in Z0. nia.
  - apply (IH _ _) in Lr; auto. destruct o as [d|did dims|rk did sels data|doff|doff calls|doff np]; cbn [tstep t_sets]; auto.
    + apply Forall_app. split; auto. constructor; auto. apply L.
    + destruct L as (d & (D1 & D2) & _). rewrite D2. apply Forall_upd_nth; auto. cbn. rewrite Forall_forall in E. eauto using nth_error_In.
    + destruct coll; auto.
Qed.
Lemma tame_with_data : forall e cfg np ops, tame e cfg np ops -> Forall with_data ops.
Proof. intros e cfg np ops (_ & _ & _ & _ & (_ & _ & _ & L) & _). eapply legal_with_data; [|exact L]. cbn. constructor. Qed.

Lemma one_settled : forall ops pend, Forall one_process ops -> settled 1 pend ops = true.
Proof.
  induction ops as [|o ops IH]; intros pend F; auto. inversion F; subst. destruct o; cbn [settled]; auto.
  - rewrite Nat.eqb_refl. apply IH; auto.
  - cbn in H1. subst. auto.
Qed.

Lemma real_reads : forall e cfg np f0 ops, tame (with_coll e true) cfg np ops -> settled np false ops = true ->
  exists s outs, run_real e (init cfg np f0) ops = Ok (s, outs) /\ length outs = length ops /\
    forall i doff calls, nth_error ops i = Some (ORead doff calls) ->
      exists bufs, nth_error outs i = Some bufs /\
        let t := trace_of true np (firstn i ops) in
        Forall2 (correct_read (mktr (t_sets t) (t_pub t ++ concat (t_pend t)) [])) calls bufs.
Proof. intros e cfg np f0 ops T S. rewrite real_settled; eauto using tame_with_data, tame_reads. Qed.
Lemma real_one : forall e cfg f0 ops, tame (with_coll e true) cfg 1 ops -> Forall one_process ops ->
  exists s outs, run_real e (init cfg 1 f0) ops = Ok (s, outs) /\ length outs = length ops /\
    forall i doff calls, nth_error ops i = Some (ORead doff calls) ->
      exists bufs, nth_error outs i = Some bufs /\
        Forall2 (fun c buf => exists d,
          nth_error (t_sets (trace_of true 1 (firstn i ops))) (Z.to_nat (rc_did c)) = Some d /\
          length (elems (di_esize d) buf) = length (sel_coords (rc_sels c)) /\
          forall k x, nth_error (sel_coords (rc_sels c)) k = Some x ->
            nth_error (elems (di_esize d) buf) k
              = Some (expected (program_order [] (firstn i ops)) d c k x)) calls bufs.
Proof. intros e cfg f0 ops T O. rewrite real_settled; eauto using tame_with_data, tame_one, one_settled. Qed.
Lemma real_alone : forall e cfg f0 ops, Forall with_data ops -> Forall one_process ops ->
  run_real e (init cfg 1 f0) ops = run (with_coll e true) (init cfg 1 f0) ops.
Proof. intros. apply real_settled; auto using one_settled. Qed.

Lemma settled_app : forall xs ys np pend, settled np pend (xs ++ ys) = true -> settled np pend xs = true.
Proof.
  induction xs as [|x xs IH]; intros ys np pend H; auto. destruct x; cbn [app settled] in *; eauto. apply andb_prop in H. destruct H as (-> & H). cbn. eauto.
Qed.
Lemma settled_end : forall xs np pend doff np' o, settled np pend xs = true -> (match o with ORead _ _ => True | _ => False end) ->
  settled np pend (xs ++ [OReopen doff np'; o]) = true.
Proof.
  induction xs as [|x xs IH]; intros np pend doff np' o H Q.
  - destruct o; try contradiction. cbn. rewrite orb_true_r. reflexivity.
  - destruct x; cbn [app settled] in *; eauto. apply andb_prop in H. destruct H as (-> & H). cbn. eauto.
Qed.
Lemma real_reopen : forall e cfg np np' f0 ops doff doff2 calls, Forall with_data ops -> settled np false (ops ++ [ORead doff calls]) = true ->
  last_read (run_real e (init cfg np f0) (ops ++ [OReopen doff np'; ORead doff2 calls])) =
  last_read (run_real e (init cfg np f0) (ops ++ [ORead doff calls])).
Proof.
  intros e cfg np np' f0 ops doff doff2 calls W S. rewrite !real_settled; auto.
  - apply reopen_any; auto.
  - apply Forall_app. split; auto. repeat constructor.
  - apply Forall_app. split; auto. repeat constructor.
  - apply settled_end; [|exact Logic.I]. eapply settled_app; eauto.
Qed.

(** ** Examples *)
Definition h_settled : list op :=
  h_pre ++ [OFlush 500; ORead 1000 h_read; OWrite 1 0 [B [0;0] [1;2]] [3;3;4;4]; OReopen 5000 3;
            OWrite 2 0 [B [0;1] [1;1]] [5;6]; OFlush 7000; ORead 9000 [mkrcall 0 [B [0;0] [4;6]] 0 junk]].
Definition e_ind : env := with_coll e_dflt false.
Lemma real_settled_ex : Forall with_data h_settled /\ settled 2 false h_settled = true /\ settled 2 false h_full = false /\
  exists s outs, run_real e_ind (init cfg_dflt 2 f_zero) h_settled = Ok (s, outs) /\ nth 11 outs [] <> nth 16 outs [].
Proof.
  split; [repeat constructor; discriminate|]. split; [reflexivity|]. split; [reflexivity|].
  eexists. eexists. split; [vm_compute; reflexivity|]. vm_compute. discriminate.
Qed.
Lemma real_tame_ex : tame (with_coll e_ind true) cfg_dflt 2 h_settled /\ settled 2 false h_settled = true /\
  tame (with_coll e_ind true) cfg_dflt 1 h_one /\ Forall one_process h_one.
Proof. split; [tame_dflt|]. split; [reflexivity|]. split; [tame_dflt|repeat constructor]. Qed.

(** The second process's write is not flushed by the read; two processes. *)
Definition w_unseen : list op := [OCreate dA; OWrite 0 0 [B [0;0] [1;2]] [1;2;3;4]; OFlush 100; ORead 1000 [mkrcall 0 [B [0;0] [1;2]] 0 junk]].
Lemma real_unseen_ex : let w := OWrite 1 0 [B [0;0] [1;2]] [5;6;7;8] in let rd := ORead 2000 [mkrcall 0 [B [0;0] [1;2]] 0 junk] in
  at_rest w_unseen /\ opened_by 2 w_unseen <> 1%nat /\
  (exists s outs, run_real e_ind (init cfg_dflt 2 f_zero) (w_unseen ++ [w] ++ [rd]) = Ok (s, outs) /\ last outs [] = [[1;2;3;4]]) /\
  (exists s outs, run_real e_ind (init cfg_dflt 2 f_zero) (w_unseen ++ [w] ++ [OFlush 1500; rd]) = Ok (s, outs) /\ last outs [] = [[5;6;7;8]]) /\
  (exists s outs, run_real e_ind (init cfg_dflt 1 f_zero) (w_unseen ++ [OWrite 0 0 [B [0;0] [1;2]] [5;6;7;8]] ++ [rd]) = Ok (s, outs) /\ last outs [] = [[5;6;7;8]]).
Proof.
  cbv zeta. split; [right; eexists (firstn 3 w_unseen); eexists; split; [reflexivity|exact Logic.I]|]. split; [discriminate|].
  repeat split; eexists; eexists; (split; [vm_compute; reflexivity|reflexivity]).
Qed.
(** Flushed data, one more write, a read: the write is lost although the file is flushed and closed afterwards. *)
Lemma real_lost_ex : let pre := [OCreate dA; OWrite 0 0 [B [0;0] [1;2]] [1;2;3;4]; OFlush 100] in
  let rd d := ORead d [mkrcall 0 [B [0;0] [1;2]] 0 junk] in let w v := OWrite 1 0 [B [0;0] [1;2]] v in
  legal_history false 2 (pre ++ [w [5;6;7;8]; rd 1000; OFlush 2000; OReopen 3000 1; rd 4000]) /\
  (exists s outs, run_real e_ind (init cfg_dflt 2 f_zero) (pre ++ [w [5;6;7;8]; rd 1000; OFlush 2000; OReopen 3000 1; rd 4000]) = Ok (s, outs) /\
     last outs [] <> [[5;6;7;8]] /\
     exists s', run_real e_ind (init cfg_dflt 2 f_zero) (pre ++ [w [9;9;9;9]; rd 1000; OFlush 2000; OReopen 3000 1; rd 4000]) = Ok (s', outs)).
Proof.
  cbv zeta. split; [|eexists; eexists; split; [vm_compute; reflexivity|]; split; [vm_compute; discriminate|]; eexists; vm_compute; reflexivity].
  legal.
Qed.
