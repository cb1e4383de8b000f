(** Bounded metadata buffers: histories that write before they read. *)
From Verif Require Import Base BaseProofs Spec MetaModel QueueModel FlushModel IndexModel ReadModel SysModel
  SysSpec History SysProofs HistoryProofs ClaimProofs SizedProofs TameSpec.
From Coq Require Import ZifyNat ZifyN.

(** Pending writes have data, and something is pending or flushed. *)
Definition has_some (w : bool) (s : sstate) (h : hstate) : Prop :=
  0 <= hs_hi h /\ length (hs_seen h) = length (ss_pend s) /\
  Forall (fun d => 0 < di_esize d) (ss_sets s) /\
  Forall (fun p => 0 < Zlen (pw_data p)) (concat (ss_pend s)) /\
  (w = true -> 0 < hs_hi h \/ concat (ss_pend s) <> []).

Lemma pos_sum : forall A (f : A -> Z) l, Forall (fun x => 0 < f x) l -> l <> [] -> 0 < Zsum (map f l).
Proof.
  intros A f l H Hn. destruct H as [|x l H1 H2]; [congruence|]. cbn [map]. change (Zsum (f x :: map f l)) with (f x + Zsum (map f l)).
  enough (0 <= Zsum (map f l)) by lia. clear - H2. induction H2; [cbn; lia|]. cbn [map]. change (Zsum (f x :: map f l)) with (f x + Zsum (map f l)). lia.
Qed.
Lemma concat_nils : forall A B (l : list A), concat (map (fun _ => @nil B) l) = [].
Proof. induction l; auto. Qed.
Lemma concat_rep : forall B n, concat (repeat (@nil B) n) = [].
Proof. induction n; auto. Qed.

Lemma some_flush : forall w s h doff, has_some w s h -> ok_flush s h doff ->
  0 <= hs_hi (hflush s h doff) /\ hs_seen (hflush s h doff) = hs_seen h /\ (w = true -> 0 < hs_hi (hflush s h doff)).
Proof.
  intros w s h doff (H1 & H2 & H3 & H4 & H5) K. unfold ok_flush in K. unfold hflush.
  assert (P : concat (ss_pend s) <> [] -> 0 < pend_bytes s) by (intros N; apply pos_sum; auto).
  assert (P0 : concat (ss_pend s) = [] -> pend_bytes s = 0) by (intros N; unfold pend_bytes; rewrite N; reflexivity).
  destruct (concat (ss_pend s)) as [|p l] eqn:E.
  - rewrite (P0 eq_refl). cbn [Z.eqb]. split; auto. split; auto. intros W. destruct (H5 W) as [Q|Q]; [auto|congruence].
  - assert (Q : 0 < pend_bytes s) by (apply P; discriminate). destruct (Z.eqb_spec (pend_bytes s) 0); [lia|]. cbn [hs_hi hs_seen]. destruct (K ltac:(lia)). split; [lia|]. split; auto. lia.
Qed.

Lemma sel_size_pos : forall nd sels, Forall (blk_fits nd) sels -> sels <> [] -> 0 < sel_size sels.
Proof.
  intros nd sels H N. destruct H as [|b l H1 H2]; [congruence|]. rewrite HitProofs.sel_size_cons. pose proof (sel_size_fits _ _ H2).
  destruct H1 as (_ & _ & _ & H1). assert (0 < block_size b); [|lia]. unfold block_size. apply Zprod_pos. eapply Forall_impl; [|exact H1]. cbn. lia.
Qed.

Lemma in_concat_upd' : forall A (P : A -> Prop) (l : list (list A)) k y, Forall P (concat l) -> Forall P y -> Forall P (concat (upd_nth k (nth k l [] ++ y) l)).
Proof. intros A P l k y H1 H2. rewrite Forall_forall in *. intros a Ha. apply in_concat_upd in Ha. destruct Ha; auto. Qed.
Lemma concat_upd_some : forall A (l : list (list A)) k y, (k < length l)%nat -> y <> [] -> concat (upd_nth k (nth k l [] ++ y) l) <> [].
Proof.
  induction l as [|x l IH]; intros [|k] y H Hy; cbn in *; try lia.
  - destruct x; cbn; [|discriminate]. destruct y; [congruence|discriminate].
  - destruct x; cbn; [apply IH; auto; lia|discriminate].
Qed.

Lemma limit_run : forall e cfg cv lim ops w s h, has_some w s h -> written_first w ops = true -> e_limit e = None ->
  ok_run e cfg cv s h ops -> ok_run (with_limit e lim) cfg cv s h ops.
Proof.
  intros e cfg cv lim. induction ops as [|o ops IH]; intros w s h HS HW Hl H; [exact I|]. destruct H as [H1 H2].
  assert (HH : hstep (with_limit e lim) s h o = hstep e s h o) by reflexivity.
  pose proof HS as (S1 & S2 & S3 & S4 & S5). cbn [ok_run]. rewrite HH. change (e_coll (with_limit e lim)) with (e_coll e).
  destruct o as [d|did dims|rk did sels data|doff|doff calls|doff np]; cbn [ok_op written_first] in *.
  - split; [exact H1|]. apply (IH w); auto. destruct H1 as (A & _). repeat split; cbn [hstep sstep fst ss_sets ss_pend]; auto. apply Forall_app. auto.
  - split; [exact H1|]. apply (IH w); auto. destruct H1 as (d & A & _). unfold has_some. cbn [hstep sstep fst]. rewrite A. cbn [ss_sets ss_pend]. repeat split; auto.
    apply Forall_upd_nth'; auto. cbn [resize di_esize]. unfold set_of in A. rewrite Forall_forall in S3. apply S3.
    destruct (did <? 0); try discriminate. eapply nth_error_In. exact A.
  - split; [exact H1|]. destruct H1 as (seen & N & A). eapply IH; [|exact HW| |]; auto. unfold has_some. cbn [hstep sstep fst hs_hi hs_seen].
    destruct sels as [|b l] eqn:E.
    + rewrite orb_false_r. rewrite upd_nth_length'. auto.
    + rewrite <- E in *. destruct (A ltac:(congruence)) as (d & D1 & _ & D3 & D4 & _). cbn [ss_sets ss_pend]. rewrite !upd_nth_length'. split; auto. split; auto. split; auto.
      assert (K : (rk < length (ss_pend s))%nat) by (rewrite <- S2; apply nth_error_Some; congruence). split.
      * apply in_concat_upd'; auto. constructor; auto. cbn [pw_data]. rewrite D4. pose proof (sel_size_pos _ _ D3 ltac:(congruence)).
        assert (0 < di_esize d); [|nia]. rewrite Forall_forall in S3. apply S3. unfold set_of in D1. destruct (did <? 0); try discriminate. eapply nth_error_In. exact D1.
      * intros _. right. apply concat_upd_some; auto. discriminate.
  - split; [exact H1|]. eapply IH; [|exact HW| |]; auto. destruct (some_flush _ _ _ _ HS H1) as (F1 & F2 & F3). unfold has_some. cbn [hstep sstep fst sflush ss_sets ss_pend].
    rewrite concat_nils, map_length, F2. auto 10.
  - apply andb_prop in HW. destruct HW as [-> HW]. destruct H1 as (A1 & A2 & A3 & A4). split.
    + unfold ok_read. change (e_coll (with_limit e lim)) with (e_coll e). split; auto. split; auto. intros _. destruct (S5 eq_refl) as [Q|Q]; [left; lia|right; auto].
    + eapply IH; [|exact HW| |]; auto. unfold has_some. cbn [hstep sstep fst]. destruct (e_coll e).
      * destruct (some_flush _ _ _ _ HS A1) as (F1 & F2 & F3). cbn [sflush ss_sets ss_pend]. rewrite concat_nils, map_length, F2. auto 10.
      * exact HS.
  - split; [exact H1|]. destruct H1 as (_ & _ & A). eapply IH; [|exact HW| |]; auto. destruct (some_flush _ _ _ _ HS A) as (F1 & F2 & F3). unfold has_some.
    cbn [hstep sstep fst sflush ss_sets ss_pend hs_hi hs_seen]. rewrite concat_rep, !repeat_length. auto 10.
Qed.

Lemma limit_ok : forall e cfg cv lim np ops, written_first false ops = true -> e_limit e = None ->
  ok_history e cfg cv np ops -> ok_history (with_limit e lim) cfg cv np ops.
Proof.
  intros e cfg cv lim np ops W L (H1 & H2 & H3 & H4 & H5 & H6). repeat (split; auto). 
  apply (limit_run e cfg cv lim ops false); auto. unfold has_some. cbn [hs_hi hs_seen sinit ss_pend ss_sets]. rewrite concat_rep, !repeat_length. repeat split; auto; try lia; try discriminate.
Qed.
