(** Claims about types with parts of variable length. *)
From Coq Require Import ZifyNat.
From Verif Require Import Base BaseProofs Spec MetaModel QueueModel FlushModel IndexModel ReadModel SysModel SysSpec History TameSpec AnyClaims Examples SyncSpec SyncClaims TyModel TySpec.

Lemma fixed_any_heap : forall t h h' b, fixed t -> value t h b = value t h' b.
Proof.
  induction t as [n| |t IH|n t IH|a IHa c IHc]; intros h h' b F; cbn in *; auto; try contradiction.
  - f_equal. apply map_ext. intros; auto.
  - destruct F. f_equal; auto.
Qed.

Lemma fixed_accepted : forall t, fixed t -> accepts t.
Proof. intros t F e s dims mdims fill. destruct t; try contradiction; reflexivity. Qed.

Lemma trun_run : forall cs e s r, fixed_types cs -> run e s (map bytes_of cs) = Ok r ->
  trun e s cs = Ok (fst r, map Some (snd r)).
Proof.
  induction cs as [|c cs IH]; intros e s r F R; cbn in *.
  - inversion R; reflexivity.
  - inversion F as [|? ? F1 F2]; subst.
    assert (E : tstep e s c = step e s (bytes_of c)).
    { destruct c; try reflexivity. apply fixed_accepted; auto. }
    rewrite E. destruct (step e s (bytes_of c)) as [[s' out]| |]; try discriminate. cbn in R.
    destruct (run e s' (map bytes_of cs)) as [[s2 outs]| |] eqn:R2; try discriminate. cbn in R. inversion R; subst.
    rewrite (IH _ _ _ F2 R2). reflexivity.
Qed.

Lemma F2_weaken : forall A B (P Q : A -> B -> Prop) l l', (forall a b, P a b -> Q a b) -> Forall2 P l l' -> Forall2 Q l l'.
Proof. intros A B P Q l l' H F. induction F; constructor; auto. Qed.

Lemma fixed_values : forall e cfg np f0 cs,
  fixed_types cs -> tame e cfg np (map bytes_of cs) -> synchronised (map bytes_of cs) ->
  exists s outs, trun e (init cfg np f0) cs = Ok (s, outs) /\ length outs = length cs /\
    forall i doff calls, nth_error cs i = Some (TOp (ORead doff calls)) ->
      exists bufs, nth_error outs i = Some (Some bufs) /\
        Forall2 (fun c buf => exists d,
          nth_error (t_sets (trace_of true np (firstn i (map bytes_of cs)))) (Z.to_nat (rc_did c)) = Some d /\
          forall k x, nth_error (sel_coords (rc_sels c)) k = Some x ->
            exists b, nth_error (elems (di_esize d) buf) k = Some b /\
              forall t h h', fixed t ->
                value t h b = value t h' (expected (program_order [] (firstn i (map bytes_of cs))) d c k x)) calls bufs.
Proof.
  intros e cfg np f0 cs F T O.
  destruct (sync_reads e cfg np f0 _ T O) as (s & outs & R & L & Q).
  exists s, (map Some outs). rewrite (trun_run _ _ _ _ F R). split; [reflexivity|].
  rewrite map_length, L, map_length. split; [reflexivity|].
  intros i doff calls N. destruct (Q i doff calls) as (bufs & NB & FB).
  { rewrite nth_error_map, N. reflexivity. }
  exists bufs. split; [rewrite nth_error_map, NB; reflexivity|].
  eapply F2_weaken; [|exact FB]. intros c buf (d & D1 & _ & D2). exists d. split; auto.
  intros k x K. eexists. split; [apply D2; eauto|]. intros t h h' Ft. apply fixed_any_heap; auto.
Qed.

(** * Types with variable parts *)

Lemma word_app : forall b c, (8 <= length b)%nat -> word (b ++ c) = word b.
Proof. intros b c H. unfold word. rewrite firstn_app. replace (8 - length b)%nat with 0%nat by lia. cbn [firstn]. rewrite app_nil_r. reflexivity. Qed.

Lemma value_app : forall t h b c, (tsize t <= length b)%nat -> value t h (b ++ c) = value t h b.
Proof.
  induction t as [n| |t IH|n t IH|a IHa d IHd]; intros h b c L; cbn [value tsize] in *.
  - rewrite firstn_app. replace (n - length b)%nat with 0%nat by lia. cbn. rewrite app_nil_r. reflexivity.
  - rewrite word_app; auto.
  - rewrite word_app by lia. rewrite skipn_app. replace (8 - length b)%nat with 0%nat by lia. change (skipn 0 c) with c.
    rewrite word_app by (rewrite skipn_length; lia). reflexivity.
  - f_equal. apply map_ext_in. intros i I. apply in_seq in I. rewrite skipn_app.
    assert (G : (i * tsize t + tsize t <= n * tsize t)%nat) by (clear -I; nia).
    replace (i * tsize t - length b)%nat with 0%nat by lia. change (skipn 0 c) with c. apply IH. rewrite skipn_length. lia.
  - rewrite IHa by lia. rewrite skipn_app. replace (tsize a - length b)%nat with 0%nat by lia. change (skipn 0 c) with c.
    rewrite IHd by (rewrite skipn_length; lia). reflexivity.
Qed.

(** Two heaps that have [[0]] and [[1]] at the addresses 0 and 1. *)
Definition plain (h : heap) : Prop := h 0 = [0] /\ h 1 = [1].

Definition zero8 : list Z := [0;0;0;0;0;0;0;0].
Definition one8 : list Z := [1;0;0;0;0;0;0;0].
Definition seven8 : list Z := [7;0;0;0;0;0;0;0].

Lemma two_values : forall t, proper t -> exists p q, length p = tsize t /\ length q = tsize t /\
  forall g1 g2, plain g1 -> plain g2 -> value t g1 p <> value t g2 q.
Proof.
  induction t as [n| |t IH|n t IH|a IHa d IHd]; intros P; cbn in P.
  - exists (repeat 0 n), (repeat 1 n). rewrite !repeat_length. split; [auto|]. split; [auto|]. intros g1 g2 _ _ E.
    cbn in E. injection E as E. destruct n; [lia|]. cbn in E. discriminate.
  - exists zero8, one8. split; [auto|]. split; [auto|]. intros g1 g2 (A & _) (_ & B) E. cbn in E. 
    change (word zero8) with 0 in E. change (word one8) with 1 in E. rewrite A, B in E. discriminate.
  - exists (zero8 ++ zero8), (one8 ++ zero8). split; [auto|]. split; [auto|]. intros g1 g2 _ _ E.
    cbn [value] in E. change (word (zero8 ++ zero8)) with 0 in E. change (word (one8 ++ zero8)) with 1 in E. cbn in E. discriminate.
  - destruct P as [P1 P2]. destruct (IH P2) as (p & q & Lp & Lq & D).
    destruct n as [|n]; [lia|].
    exists (p ++ repeat 0 (n * tsize t)), (q ++ repeat 0 (n * tsize t)). rewrite !app_length, !repeat_length, Lp, Lq.
    split; [reflexivity|]. split; [reflexivity|]. intros g1 g2 G1 G2 E. cbn [value seq map] in E. injection E as E _.
    cbn [Nat.mul skipn] in E. rewrite !value_app in E by lia. exact (D g1 g2 G1 G2 E).
  - destruct P as [P1 P2]. destruct (IHa P1) as (p & q & Lp & Lq & D).
    exists (p ++ repeat 0 (tsize d)), (q ++ repeat 0 (tsize d)). cbn [tsize]. rewrite !app_length, !repeat_length, Lp, Lq.
    split; [reflexivity|]. split; [reflexivity|]. intros g1 g2 G1 G2 E. cbn [value] in E. injection E as E _.
    rewrite !value_app in E by lia. exact (D g1 g2 G1 G2 E).
Qed.

Lemma heap_matters : forall t, proper t -> ~ fixed t -> exists b h1 h2, length b = tsize t /\ value t h1 b <> value t h2 b.
Proof.
  induction t as [n| |t IH|n t IH|a IHa d IHd]; intros P NF; cbn in P, NF.
  - tauto.
  - exists zero8, (fun _ => [1]), (fun _ => [2]). split; [auto|]. discriminate.
  - destruct (two_values t P) as (p & q & Lp & Lq & D).
    set (hp := fun x => if x =? 7 then p else [x]). set (hq := fun x => if x =? 7 then q else [x]).
    exists (one8 ++ seven8), hp, hq. split; [auto|]. cbn [value].
    change (word (one8 ++ seven8)) with 1. change (word (skipn 8 (one8 ++ seven8))) with 7. cbn [Z.to_nat Pos.to_nat Pos.iter_op seq map].
    cbn. intros E. injection E as E. apply (D hp hq); [split; reflexivity|split; reflexivity|exact E].
  - destruct P as [P1 P2]. destruct (IH P2 NF) as (b & h1 & h2 & L & D).
    destruct n as [|n]; [lia|]. exists (b ++ repeat 0 (n * tsize t)), h1, h2. cbn [tsize]. rewrite app_length, repeat_length, L.
    split; [reflexivity|]. intros E. cbn [value seq map] in E. injection E as E _. cbn [Nat.mul skipn] in E.
    rewrite !value_app in E by lia. auto.
  - destruct P as [P1 P2].
    assert (DEC : forall t, fixed t \/ ~ fixed t).
    { induction t as [| | |m t0 IH0|x IHx y IHy]; cbn; auto. destruct IHx, IHy; tauto. }
    destruct (DEC a) as [Fa|Fa].
    + assert (Fd : ~ fixed d) by tauto. destruct (IHd P2 Fd) as (b & h1 & h2 & L & D).
      exists (repeat 0 (tsize a) ++ b), h1, h2. cbn [tsize]. rewrite app_length, repeat_length, L. split; [reflexivity|].
      intros E. cbn [value] in E. injection E as _ E. rewrite !skipn_app, !repeat_length, Nat.sub_diag in E.
      rewrite !skipn_all2 in E by (rewrite repeat_length; lia). cbn in E. auto.
    + destruct (IHa P1 Fa) as (b & h1 & h2 & L & D).
      exists (b ++ repeat 0 (tsize d)), h1, h2. cbn [tsize]. rewrite app_length, repeat_length, L. split; [reflexivity|].
      intros E. cbn [value] in E. injection E as E _. rewrite !value_app in E by lia. auto.
Qed.

Lemma same_file : forall e s pre post rk did sels buf h1 h2,
  trun e s (pre ++ TWrite rk did sels buf h1 :: post) = trun e s (pre ++ TWrite rk did sels buf h2 :: post).
Proof.
  intros e s pre. revert s. induction pre as [|c pre IH]; intros s post rk did sels buf h1 h2; [reflexivity|].
  cbn. destruct (tstep e s c) as [[s' out]| |]; [rewrite (IH s' post rk did sels buf h1 h2); reflexivity| |reflexivity].
  rewrite (IH s post rk did sels buf h1 h2); reflexivity.
Qed.

Lemma contents_lost : forall t, proper t -> ~ fixed t -> t <> TVstr ->
  accepts t /\ exists b h1 h2, length b = tsize t /\ value t h1 b <> value t h2 b /\
    forall e s pre post rk did sels before after,
      trun e s (pre ++ TWrite rk did sels (before ++ b ++ after) h1 :: post) =
      trun e s (pre ++ TWrite rk did sels (before ++ b ++ after) h2 :: post).
Proof.
  intros t P NF NS. split.
  - intros e s dims mdims fill. destruct t; try reflexivity. contradiction.
  - destruct (heap_matters t P NF) as (b & h1 & h2 & L & D). exists b, h1, h2. split; [auto|]. split; [auto|].
    intros. apply same_file.
Qed.

Lemma vstr_refused : refuses TVstr.
Proof. intros e s dims mdims fill; reflexivity. Qed.

(** * Cases *)

(** A sequence [5; 6] of single bytes is written; a program with another heap reads it. *)
Definition ty_prog (h : heap) : list tcall :=
  [TCreate TVstr [2] [2] None; TCreate (TVlen (TFix 1)) [2] [2] None;
   TWrite 0 0 [mkblock [1] [1]] ([2;0;0;0;0;0;0;0] ++ seven8) h; TOp (OReopen 100 1);
   TOp (ORead 1000 [mkrcall 0 [mkblock [1] [1]] 0 junk])].
Definition h_before : heap := fun a => if a =? 7 then [5; 6] else [].
Definition h_after : heap := fun a => if a =? 7 then [99; 98] else [].
Lemma ty_prog_run : exists s, trun e_dflt (init cfg_dflt 1 f_zero) (ty_prog h_before) =
    Ok (s, [None; Some []; Some []; Some []; Some [[2;0;0;0;0;0;0;0] ++ seven8]]) /\
  value (TVlen (TFix 1)) h_before ([2;0;0;0;0;0;0;0] ++ seven8) = VSeq [VBytes [5]; VBytes [6]] /\
  value (TVlen (TFix 1)) h_after ([2;0;0;0;0;0;0;0] ++ seven8) = VSeq [VBytes [99]; VBytes [98]].
Proof. eexists. split; [vm_compute; reflexivity|]. split; vm_compute; reflexivity. Qed.

(** The history [h_par] with elements that are pairs of bytes and single bytes. *)
Definition ty_par : list tcall :=
  TCreate (TPair (TFix 1) (TArr 1 (TFix 1))) [4; 6] [4; 6] (Some [9; 9]) :: TCreate (TFix 1) [3; 4] [UNLIMITED; 4] None ::
  map TOp (skipn 2 (h_par ++ [ORead 9000 rd_par])).
Lemma ty_par_ok : fixed_types ty_par /\ tame e_dflt cfg_dflt 3 (map bytes_of ty_par) /\ synchronised (map bytes_of ty_par).
Proof.
  split; [repeat constructor|]. change (map bytes_of ty_par) with (h_par ++ [ORead 9000 rd_par]).
  destruct sync_ex as (A & B & _). split; assumption.
Qed.

(** A refused creation changes nothing. *)
Lemma vstr_no_effect : forall e pre s dims mdims fill post,
  trun e s (pre ++ TCreate TVstr dims mdims fill :: post) =
  do q <- trun e s (pre ++ post); Ok (fst q, firstn (length pre) (snd q) ++ None :: skipn (length pre) (snd q)).
Proof.
  intros e. induction pre as [|c pre IH]; intros s dims mdims fill post; cbn [app trun length].
  - cbn [tstep is_variable_str]. destruct (trun e s post) as [[s' o]| |]; reflexivity.
  - destruct (tstep e s c) as [[s' o]| |]; [| |reflexivity].
    + rewrite IH. destruct (trun e s' (pre ++ post)) as [[s2 o2]| |]; reflexivity.
    + rewrite IH. destruct (trun e s (pre ++ post)) as [[s2 o2]| |]; reflexivity.
Qed.
