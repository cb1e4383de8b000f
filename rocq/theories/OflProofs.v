From Verif Require Import Base Spec MetaModel QueueModel FlushModel IndexModel ReadModel SysModel
  SysSpec History SysCheck Examples DefSpec AnySpec TameSpec RealModel RealSpec AnyClaims RealClaims RealClaims2 OflModel OflSpec.
From Coq Require Import ZifyNat.

Lemma frun_without : forall cs e s, frun e s cs = do p <- run_real e s (without cs); Ok (fst p, spread cs (snd p)).
Proof.
  induction cs as [|[o|] cs IH]; intros e s; [reflexivity| |].
  - cbn [frun fstep without run_real]. destruct (step_real e s o) as [[s1 out]| |]; [|reflexivity|reflexivity].
    cbn [bind fst snd]. rewrite IH. destruct (run_real e s1 (without cs)) as [[s2 outs]| |]; reflexivity.
  - cbn [frun fstep without]. cbn [bind fst snd]. rewrite IH. destruct (run_real e s (without cs)) as [[s2 outs]| |]; reflexivity.
Qed.
Lemma run_real_len : forall ops e s s' outs, run_real e s ops = Ok (s', outs) -> length outs = length ops.
Proof.
  induction ops as [|o ops IH]; intros e s s' outs H; cbn in H; [injection H as <- <-; reflexivity|].
  destruct (step_real e s o) as [[s1 out]| |]; try discriminate. cbn [bind fst snd] in H.
  destruct (run_real e s1 ops) as [[s2 l]| |] eqn:E; try discriminate. cbn [bind fst snd] in H. injection H as <- <-.
  cbn. f_equal. eauto.
Qed.
Lemma without_app : forall a b, without (a ++ b) = without a ++ without b.
Proof. induction a as [|[o|] a IH]; intros b; cbn; rewrite ?IH; reflexivity. Qed.
Lemma without_map : forall l, without (map FOp l) = l.
Proof. induction l; cbn; congruence. Qed.
Lemma spread_map : forall l outs, length outs = length l -> spread (map FOp l) outs = outs.
Proof. induction l as [|o l IH]; intros [|x outs] H; try discriminate; [reflexivity|]. cbn. f_equal. apply IH. auto. Qed.
Lemma spread_app : forall a b outs, length outs = length (without (a ++ b)) ->
  spread (a ++ b) outs = spread a (firstn (length (without a)) outs) ++ spread b (skipn (length (without a)) outs).
Proof.
  induction a as [|[o|] a IH]; intros b outs H; cbn in *.
  - reflexivity.
  - destruct outs as [|x outs]; [discriminate|]. cbn. f_equal. apply IH. auto.
  - f_equal. apply IH. auto.
Qed.
Lemma spread_len : forall cs outs, length outs = length (without cs) -> length (spread cs outs) = length cs.
Proof.
  induction cs as [|[o|] cs IH]; intros outs H; cbn in *; [reflexivity| |].
  - destruct outs; [discriminate|]. cbn. f_equal. auto.
  - f_equal. auto.
Qed.
Lemma spread_nth : forall cs outs i o, length outs = length (without cs) -> nth_error cs i = Some (FOp o) ->
  nth_error (spread cs outs) i = nth_error outs (length (without (firstn i cs))) /\
  nth_error (without cs) (length (without (firstn i cs))) = Some o /\
  firstn (length (without (firstn i cs))) (without cs) = without (firstn i cs).
Proof.
  induction cs as [|[x|] cs IH]; intros outs [|i] o H Hi; cbn in *; try discriminate.
  - injection Hi as <-. destruct outs; [discriminate|]. repeat split.
  - destruct outs as [|y outs]; [discriminate|]. destruct (IH outs i o) as (A & B & C); auto.
    cbn. rewrite A, B. repeat split. f_equal. exact C.
  - destruct (IH outs i o H Hi) as (A & B & C). auto.
Qed.

Lemma nothing_written : forall e s cs s' outs, frun e s cs = Ok (s', outs) ->
  exists l, run_real e s (without cs) = Ok (s', l) /\ outs = spread cs l.
Proof.
  intros e s cs s' outs H. rewrite frun_without in H. destruct (run_real e s (without cs)) as [[s2 l]| |]; try discriminate.
  cbn [bind fst snd] in H. injection H as <- <-. exists l. auto.
Qed.

Lemma unseen : forall e cfg np f0 pre ws doff calls s outs, at_rest pre -> Forall write_or_flush ws -> opened_by np pre <> 1%nat ->
  frun e (init cfg np f0) (map FOp pre ++ ws ++ [FOp (ORead doff calls)]) = Ok (s, outs) ->
  exists s', frun e (init cfg np f0) (map FOp (pre ++ [ORead doff calls])) = Ok (s', firstn (length pre) outs ++ [last outs []]).
Proof.
  intros e cfg np f0 pre ws doff calls s outs HR HW HN H.
  destruct (nothing_written _ _ _ _ _ H) as (l & R & ->).
  assert (L := run_real_len _ _ _ _ _ R).
  rewrite !without_app, without_map in R, L. cbn [without] in R, L.
  assert (HWs : Forall is_write (without ws)).
  { clear -HW. induction HW as [|[o|] ws Ho _ IH]; cbn in *; auto. }
  destruct (read_unseen e cfg np f0 pre (without ws) doff calls s l HR HWs HN R) as [s' R'].
  exists s'. rewrite frun_without, without_map, R'. cbn [bind fst snd].
  rewrite !app_length in L. cbn [length] in L.
  rewrite spread_map by (rewrite !app_length, firstn_length; cbn; lia).
  do 2 f_equal.
  assert (E : l = firstn (length pre) l ++ firstn (length (without ws)) (skipn (length pre) l) ++ [last l []]).
  { destruct (@exists_last _ l) as (l0 & x & ->); [intros ->; cbn in L; lia|]. rewrite app_length in L. cbn [length] in L. rewrite last_last.
    rewrite <- (firstn_skipn (length pre) (l0 ++ [x])) at 1. f_equal.
    rewrite !skipn_app. replace (length pre - length l0)%nat with 0%nat by lia. cbn [skipn].
    rewrite firstn_app. rewrite skipn_length. replace (length (without ws) - (length l0 - length pre))%nat with 0%nat by lia. cbn [firstn]. rewrite app_nil_r.
    rewrite firstn_all2 by (rewrite skipn_length; lia). reflexivity. }
  rewrite E at 3 4. rewrite spread_app.
  2:{ rewrite !without_app, without_map, !app_length. cbn [length without]. rewrite !firstn_length, skipn_length. lia. }
  rewrite without_map.
  assert (F1 : firstn (length pre) (firstn (length pre) l ++ firstn (length (without ws)) (skipn (length pre) l) ++ [last l []]) = firstn (length pre) l).
  { rewrite firstn_app, firstn_firstn, Nat.min_id, firstn_length. replace (length pre - Nat.min (length pre) (length l))%nat with 0%nat by lia. cbn. apply app_nil_r. }
  rewrite F1. rewrite spread_map by (rewrite firstn_length; lia).
  assert (F2 : skipn (length pre) (firstn (length pre) l ++ firstn (length (without ws)) (skipn (length pre) l) ++ [last l []])
               = firstn (length (without ws)) (skipn (length pre) l) ++ [last l []]).
  { rewrite skipn_app, firstn_length. replace (length pre - Nat.min (length pre) (length l))%nat with 0%nat by lia.
    rewrite skipn_all2 by (rewrite firstn_length; lia). reflexivity. }
  rewrite F2. rewrite spread_app.
  2:{ rewrite without_app, !app_length, firstn_length, skipn_length. cbn. lia. }
  set (m := firstn (length (without ws)) (skipn (length pre) l)).
  assert (Lm : length m = length (without ws)) by (unfold m; rewrite firstn_length, skipn_length; lia).
  rewrite skipn_app, Lm, Nat.sub_diag, skipn_all2 by lia. cbn [app skipn spread].
  rewrite firstn_app, firstn_firstn, Nat.min_id, firstn_length.
  replace (length pre - Nat.min (length pre) (length l))%nat with 0%nat by lia. cbn [firstn]. rewrite app_nil_r. f_equal.
  rewrite app_assoc, last_last. reflexivity.
Qed.

Lemma one_flushes : forall e cfg f0 cs, tame (with_coll e true) cfg 1 (without cs) -> Forall one_process (without cs) ->
  exists s outs, frun e (init cfg 1 f0) cs = Ok (s, outs) /\ length outs = length cs /\
    forall i doff calls, nth_error cs i = Some (FOp (ORead doff calls)) ->
      exists bufs, nth_error outs i = Some bufs /\
        Forall2 (fun c buf => exists d,
          nth_error (t_sets (trace_of true 1 (without (firstn i cs)))) (Z.to_nat (rc_did c)) = Some d /\
          length (elems (di_esize d) buf) = length (sel_coords (rc_sels c)) /\
          forall k x, nth_error (sel_coords (rc_sels c)) k = Some x ->
            nth_error (elems (di_esize d) buf) k
              = Some (expected (program_order [] (without (firstn i cs))) d c k x)) calls bufs.
Proof.
  intros e cfg f0 cs T O. destruct (real_one e cfg f0 _ T O) as (s & outs & R & L & Q).
  exists s, (spread cs outs). rewrite frun_without, R. split; [reflexivity|]. split; [apply spread_len; exact L|].
  intros i doff calls Hi. destruct (spread_nth cs outs i _ L Hi) as (A & B & C).
  destruct (Q _ _ _ B) as (bufs & N & F). exists bufs. split; [congruence|]. rewrite C in F. exact F.
Qed.

(** A dataset of two processes, flushed as a whole file and by itself. *)
Definition ofl_w : op := OWrite 1 0 [B [0;0] [1;2]] [5;6;7;8].
Definition ofl_rd : op := ORead 2000 [mkrcall 0 [B [0;0] [1;2]] 0 junk].
Lemma ofl_ex : at_rest w_unseen /\ opened_by 2 w_unseen <> 1%nat /\
  (exists s outs, frun e_ind (init cfg_dflt 2 f_zero) (map FOp w_unseen ++ [FOp ofl_w; FObj] ++ [FOp ofl_rd]) = Ok (s, outs) /\ last outs [] = [[1;2;3;4]]) /\
  (exists s outs, run_real e_ind (init cfg_dflt 2 f_zero) (map (file_flush 1500) (map FOp w_unseen ++ [FOp ofl_w; FObj] ++ [FOp ofl_rd])) = Ok (s, outs) /\ last outs [] = [[5;6;7;8]]).
Proof.
  destruct real_unseen_ex as (A & N & _).
  split; [exact A|]. split; [exact N|]. split; eexists; eexists; (split; [vm_compute; reflexivity|reflexivity]).
Qed.
(** One process: written, flushed by itself, read. *)
Definition ofl_one : list fcall := [FOp (OCreate dA); FOp (OWrite 0 0 [B [0;0] [1;2]] [5;6;7;8]); FObj; FOp (ORead 1000 [mkrcall 0 [B [0;0] [1;2]] 0 junk])].
Lemma ofl_one_ok : tame (with_coll e_ind true) cfg_dflt 1 (without ofl_one) /\ Forall one_process (without ofl_one) /\
  exists s outs, frun e_ind (init cfg_dflt 1 f_zero) ofl_one = Ok (s, outs) /\ last outs [] = [[5;6;7;8]].
Proof.
  split; [tame_dflt|]. split; [repeat constructor|]. eexists; eexists; (split; [vm_compute; reflexivity|reflexivity]).
Qed.
