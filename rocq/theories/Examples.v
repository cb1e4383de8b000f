(** Concrete histories used to show that the hypotheses of the property theorems are satisfiable,
    and as witnesses of refutations. *)
From Verif Require Import Base Spec MetaModel QueueModel FlushModel IndexModel ReadModel SysModel
  SysSpec History HistoryProofs SysCheck.

Definition B := mkblock.
Definition by_ (n k : Z) : list Z := map (fun i => (n + i) mod 256) (zseq k).
(** A compressor that always fails, and one that claims success. *)
Definition z0 : zlib := mkzlib (fun l _ => (true, l)) (fun l _ => l).
Definition junk : bytemap := fun _ => 77.
Definition f_zero : bytemap := fun _ => 0.

(** Default settings of the connector: compact index, unlimited metadata buffer. *)
Definition e_dflt : env := mkenv z0 KCompact None isort true.
Definition e_arr : env := mkenv z0 KArray None isort true.
Definition e_small : env := mkenv z0 KCompact (Some 400) isort true.
Definition e_indep : env := mkenv z0 KCompact None isort false.
(** Default configuration: selection encoding and metadata sharing. *)
Definition cfg_dflt : Z := 10.

Definition dA : dinfo := mkdinfo 2 [4; 6] [4; 6] [] (Some [9; 9]).
Definition dR : dinfo := mkdinfo 1 [3; 4] [UNLIMITED; 4] [] None.

(** Two processes, two datasets (one extensible), shared multi-block selections, overwriting,
    extension, reading, closing and reopening by three processes. *)
Definition h_pre : list op :=
  [ OCreate dA; OCreate dR;
    OWrite 0 0 [B [0;0] [2;3]; B [1;1] [2;2]] (by_ 10 20);
    OWrite 1 0 [B [1;2] [1;3]] (by_ 50 6);
    OWrite 1 1 [B [2;0] [1;4]] (by_ 60 4);
    OWrite 0 0 [B [0;0] [2;3]; B [1;1] [2;2]] (by_ 100 20);
    OFlush 100;
    OWrite 0 0 [B [3;5] [1;1]] [1;2];
    OSetExtent 1 [9;4];
    OWrite 1 1 [B [7;1] [1;2]] [7;8] ].
Definition h_read : list rcall :=
  [mkrcall 0 [B [0;0] [2;6]; B [3;4] [1;2]] 0 junk; mkrcall 1 [B [0;0] [9;4]] 0 junk].
Definition h_full : list op :=
  h_pre ++ [ORead 1000 h_read;
    OWrite 1 0 [B [0;0] [1;2]] [3;3;4;4];
    OReopen 5000 3;
    OWrite 2 0 [B [0;1] [1;1]] [5;6];
    ORead 9000 [mkrcall 0 [B [0;0] [4;6]] 0 junk]].

Ltac hist := apply history_b_ok; [exact isort_is_sort | vm_compute; reflexivity].

Lemma h_full_ok : ok_history e_dflt cfg_dflt (mkconv (fun _ _ => false) (fun _ => 2)) 2 h_full.
Proof. hist. Qed.
Lemma h_pre_read_ok : ok_history e_dflt cfg_dflt (mkconv (fun _ _ => false) (fun _ => 2)) 2 (h_pre ++ [ORead 1000 h_read]).
Proof. hist. Qed.

(** One process. *)
Definition h_one : list op :=
  [ OCreate dA; OCreate dR;
    OWrite 0 0 [B [0;0] [2;3]; B [1;1] [2;2]] (by_ 10 20);
    OWrite 0 1 [B [2;0] [1;4]] (by_ 60 4);
    OFlush 100;
    OWrite 0 0 [B [0;0] [2;3]; B [1;1] [2;2]] (by_ 100 20);
    OSetExtent 1 [9;4];
    OWrite 0 1 [B [7;1] [1;2]] [7;8];
    ORead 1000 h_read;
    OReopen 5000 1;
    OWrite 0 0 [B [0;1] [1;1]] [5;6];
    ORead 9000 [mkrcall 0 [B [0;0] [4;6]] 0 junk]].
Lemma h_one_ok : ok_history e_dflt cfg_dflt (mkconv (fun _ _ => false) (fun _ => 2)) 1 h_one.
Proof. hist. Qed.

(** A checker of legal histories. *)
Fixpoint fits_in_b (dims s n : list Z) : bool :=
  match dims, s, n with
  | d :: dims', s0 :: s', n0 :: n' => (0 <=? s0) && (0 <? n0) && (s0 + n0 <=? d) && fits_in_b dims' s' n'
  | [], [], [] => true
  | _, _, _ => false
  end.
Definition block_in_b (d : dinfo) (b : block) : bool := fits_in_b (di_dims d) (b_start b) (b_count b).
Fixpoint extent_ok_b (dims mdims : list Z) : bool :=
  match dims, mdims with
  | n :: a, m :: b => (0 <=? n) && ((m =? UNLIMITED) || (n <=? m)) && extent_ok_b a b
  | [], [] => true
  | _, _ => false
  end.
Definition with_set (t : trace) (did : Z) (f : dinfo -> bool) : bool :=
  (0 <=? did) && match nth_error (t_sets t) (Z.to_nat did) with Some d => f d | None => false end.
Definition placed_b (t : trace) (hi doff : Z) : bool := (hi <=? doff) && (doff + pending_bytes t <? 2 ^ 63).
Definition legal_op_b (t : trace) (hi : Z) (o : op) : bool :=
  match o with
  | OCreate d => (0 <? di_esize d) && extent_ok_b (di_dims d) (di_mdims d) &&
      match di_fill d with Some f => Zlen f =? di_esize d | None => true end
  | OSetExtent did dims => with_set t did (fun d => extent_ok_b dims (di_mdims d))
  | OWrite rk did sels data =>
      (rk <? length (t_pend t))%nat &&
      with_set t did (fun d => forallb (block_in_b d) sels && (Zlen data =? di_esize d * Zlen (sel_coords sels)))
  | OFlush doff => placed_b t hi doff
  | ORead doff calls => placed_b t hi doff && negb (length calls =? 0)%nat &&
      forallb (fun c => negb (length (rc_sels c) =? 0)%nat && with_set t (rc_did c) (fun d => forallb (block_in_b d) (rc_sels c))) calls
  | OReopen doff np => (0 <? np)%nat && (Z.of_nat np <? 2 ^ 31) && placed_b t hi doff
  end.
Fixpoint legal_run_b (coll : bool) (t : trace) (hi : Z) (ops : list op) : bool :=
  match ops with
  | [] => true
  | o :: rest => legal_op_b t hi o && legal_run_b coll (tstep coll t o) (log_end t hi o) rest
  end.
Definition legal_b (coll : bool) (np : nat) (ops : list op) : bool :=
  (0 <? np)%nat && (Z.of_nat np <? 2 ^ 31) && (Z.of_nat (length ops) <? 2 ^ 30) &&
  legal_run_b coll (mktr [] [] (repeat [] np)) 0 ops.

Lemma fits_in_b_ok : forall dims s n, fits_in_b dims s n = true -> fits_in dims s n.
Proof.
  induction dims as [|d dims IH]; intros [|s0 s] [|n0 n] H; cbn in *; try discriminate; auto.
  rewrite !andb_true_iff in H. destruct H as [[[H1 H2] H3] H4]. apply Z.leb_le in H1, H3. apply Z.ltb_lt in H2. auto.
Qed.
Lemma extent_ok_b_ok : forall a d, extent_ok_b a (di_mdims d) = true -> extent_ok d a.
Proof.
  intros a d. unfold extent_ok. generalize (di_mdims d) as b. induction a as [|n a IH]; intros [|m b] H; cbn [extent_ok_b] in H; try discriminate; constructor.
  - rewrite !andb_true_iff, orb_true_iff in H. destruct H as [[H1 H2] _]. apply Z.leb_le in H1. split; auto.
    destruct H2 as [H2|H2]; [left; apply Z.eqb_eq; exact H2|right; apply Z.leb_le; exact H2].
  - apply IH. apply andb_true_iff in H. tauto.
Qed.
Lemma with_set_ok : forall t did f, with_set t did f = true -> exists d, dataset_of t did d /\ f d = true.
Proof.
  intros t did f H. unfold with_set in H. apply andb_true_iff in H. destruct H as [H1 H2]. apply Z.leb_le in H1.
  destruct (nth_error (t_sets t) (Z.to_nat did)) as [d|] eqn:E; [|discriminate]. exists d. split; auto. split; auto.
Qed.
Lemma placed_b_ok : forall t hi doff, placed_b t hi doff = true -> placed_after t hi doff.
Proof. intros t hi doff H. apply andb_true_iff in H. destruct H as [H1 H2]. apply Z.leb_le in H1. apply Z.ltb_lt in H2. split; auto. Qed.
Lemma blocks_in_ok : forall d l, forallb (block_in_b d) l = true -> Forall (block_in d) l.
Proof. intros d l. apply forallb_Forall. intros b. apply fits_in_b_ok. Qed.

Lemma legal_op_b_ok : forall t hi o, legal_op_b t hi o = true -> legal_op t hi o.
Proof.
  intros t hi [d|did dims|rk did sels data|doff|doff calls|doff np] H; cbn [legal_op_b legal_op] in *.
  - rewrite !andb_true_iff in H. destruct H as [[H1 H2] H3]. apply Z.ltb_lt in H1. split; auto. split; [apply extent_ok_b_ok; auto|].
    destruct (di_fill d); auto. apply Z.eqb_eq. exact H3.
  - apply with_set_ok in H. destruct H as (d & D1 & D2). exists d. split; auto. apply extent_ok_b_ok. exact D2.
  - apply andb_true_iff in H. destruct H as [H1 H2]. apply Nat.ltb_lt in H1. split; auto. apply with_set_ok in H2. destruct H2 as (d & D1 & D2).
    apply andb_true_iff in D2. destruct D2 as [D2 D3]. exists d. split; auto. split; [apply blocks_in_ok; auto|apply Z.eqb_eq; auto].
  - apply placed_b_ok. exact H.
  - rewrite !andb_true_iff in H. destruct H as [[H1 H2] H3]. split; [apply placed_b_ok; auto|]. split; [intros Q; rewrite Q in H2; discriminate|].
    revert H3. apply forallb_Forall. intros c Hc. apply andb_true_iff in Hc. destruct Hc as [C1 C2].
    split; [intros Q; rewrite Q in C1; discriminate|]. apply with_set_ok in C2. destruct C2 as (d & D1 & D2). exists d. split; auto. apply blocks_in_ok. exact D2.
  - rewrite !andb_true_iff in H. destruct H as [[H1 H2] H3]. apply Nat.ltb_lt in H1. apply Z.ltb_lt in H2. split; auto. split; auto. apply placed_b_ok. auto.
Qed.
Lemma legal_b_ok : forall coll np ops, legal_b coll np ops = true -> legal_history coll np ops.
Proof.
  intros coll np ops H. unfold legal_b in H. rewrite !andb_true_iff in H. destruct H as [[[H1 H2] H3] H4].
  apply Nat.ltb_lt in H1. apply Z.ltb_lt in H2, H3. split; auto. split; auto. split; auto.
  revert H4. generalize (mktr [] [] (repeat [] np)) as t. generalize 0 as hi. clear. induction ops as [|o ops IH]; intros hi t H; [exact I|].
  cbn [legal_run_b] in H. apply andb_true_iff in H. destruct H as [H1 H2]. split; [apply legal_op_b_ok; exact H1|]. apply IH. exact H2.
Qed.
Ltac legal := apply legal_b_ok; vm_compute; reflexivity.

(** ** Witnesses of refutations *)
Definition sq : dinfo := mkdinfo 1 [4; 4] [4; 4] [] (Some [9]).
Definition rd_sq : list rcall := [mkrcall 0 [B [0;0] [4;4]] 0 junk].
(** A two-block write whose first block spans all columns. *)
Definition w_wide : list op :=
  [OCreate sq; OWrite 0 0 [B [0;0] [2;4]; B [3;0] [1;2]] (by_ 10 10)].
(** The same record written twice. *)
Definition dR9 : dinfo := mkdinfo 1 [3; 4] [UNLIMITED; 4] [] (Some [9]).
Definition w_rec2 : list op :=
  [OCreate dR9; OWrite 0 0 [B [2;0] [1;4]] (by_ 10 4); OWrite 0 0 [B [2;0] [1;4]] (by_ 20 4);
   ORead 100 [mkrcall 0 [B [0;0] [3;4]] 0 junk]].
(** The same selection written to two datasets of different element size. *)
Definition ds1 : dinfo := mkdinfo 1 [4; 8] [4; 8] [] (Some [9]).
Definition ds2 : dinfo := mkdinfo 2 [4; 8] [4; 8] [] (Some [9; 9]).
Definition w_esize : list op :=
  [OCreate ds1; OCreate ds2;
   OWrite 0 0 [B [0;0] [1;2]; B [1;1] [1;2]] (by_ 10 4);
   OWrite 0 1 [B [0;0] [1;2]; B [1;1] [1;2]] (by_ 20 8);
   ORead 100 [mkrcall 1 [B [0;0] [2;8]] 0 junk]].
(** Shrink, then grow again. *)
Definition w_shrink : list op :=
  [OCreate dR9; OWrite 0 0 [B [1;0] [1;4]] (by_ 10 4); OFlush 100; OSetExtent 0 [1;4]; OSetExtent 0 [3;4]].
(** An independent read between a write and its flush. *)
Definition w_indep : list op :=
  [OCreate sq; OWrite 0 0 [B [0;0] [1;4]] (by_ 10 4); OFlush 100;
   OWrite 1 0 [B [1;0] [1;4]] (by_ 20 4); ORead 1000 rd_sq; OFlush 5000].
Definition scalar : dinfo := mkdinfo 1 [] [] [] (Some [9]).
Definition rd_scalar : list rcall := [mkrcall 0 [B [] []] 0 junk].
