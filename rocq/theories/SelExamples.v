(** Examples and witnesses for selections. *)
From Verif Require Import Base BaseProofs Spec MetaModel QueueModel FlushModel IndexModel ReadModel SysModel SysSpec HistoryProofs SelModel SelSpec SelProofs SelProofs2 SelProofs3 SelClaims SelClaims2 RegProofs.
From Coq Require Import ZifyNat Permutation.

(** A sort: insertion by the total lexicographic order. *)
Fixpoint ins_at (keys : list (list Z)) (i : nat) (l : list nat) : list nat :=
  match l with
  | [] => [i]
  | j :: t => if lex_ltb (nth j keys []) (nth i keys []) then j :: ins_at keys i t else i :: l
  end.
Definition iorder (keys : list (list Z)) : list nat := fold_right (ins_at keys) [] (seq 0 (length keys)).

Definition kbef (keys : list (list Z)) (i j : nat) : Prop := lex_ltb (nth j keys []) (nth i keys []) = false.
Lemma kbef_trans : forall keys i j k, kbef keys i j -> kbef keys j k -> kbef keys i k.
Proof.
  unfold kbef. intros keys i j k H1 H2. destruct (lex_ltb (nth k keys []) (nth i keys [])) eqn:E; auto. exfalso.
  destruct (lex_ltb (nth i keys []) (nth j keys [])) eqn:E2.
  - rewrite (lex_ltb_trans _ _ _ E E2) in H2. discriminate.
  - rewrite (lex_ltb_total _ _ E2 H1) in E. congruence.
Qed.
Lemma lex_ltb_asym : forall a b, lex_ltb a b = true -> lex_ltb b a = false.
Proof.
  intros a b H. destruct (lex_ltb b a) eqn:E; auto. rewrite <- (lex_ltb_irrefl a). symmetry. eapply lex_ltb_trans; eauto.
Qed.
Lemma ins_at_ok : forall keys x l, StronglySorted (kbef keys) l -> StronglySorted (kbef keys) (ins_at keys x l) /\ Permutation (x :: l) (ins_at keys x l).
Proof.
  induction l as [|y l IH]; intros H; cbn [ins_at].
  - split; auto. constructor; constructor.
  - inversion H as [|? ? H1 H2]; subst. destruct (IH H1) as [I1 I2]. destruct (lex_ltb (nth y keys []) (nth x keys [])) eqn:E.
    + split; [|rewrite perm_swap; constructor; exact I2]. constructor; auto.
      apply Forall_forall. intros z Hz. apply (Permutation_in _ (Permutation_sym I2)) in Hz. destruct Hz as [<-|Hz].
      * apply lex_ltb_asym. exact E.
      * rewrite Forall_forall in H2. auto.
    + split; auto. constructor; auto. constructor; [exact E|].
      eapply Forall_impl; [|exact H2]. intros z Hz. eapply kbef_trans; eauto.
Qed.
Lemma lessthan_ltb : forall a b, lessthan a b = true -> lex_ltb a b = true.
Proof.
  induction a as [|x a IH]; intros [|y b]; cbn; try discriminate; auto.
  destruct (x <? y); auto. destruct (y <? x); auto.
Qed.
Lemma iorder_is_order : is_order iorder.
Proof.
  intros keys. unfold iorder. set (l := seq 0 (length keys)). clearbody l.
  assert (H : StronglySorted (kbef keys) (fold_right (ins_at keys) [] l) /\ Permutation l (fold_right (ins_at keys) [] l)).
  { induction l as [|x l [I1 I2]]; [split; constructor|]. cbn [fold_right]. destruct (ins_at_ok keys x _ I1) as [J1 J2].
    split; auto. eapply Permutation_trans; [|exact J2]. constructor. exact I2. }
  destruct H as [H1 H2]. split; auto. clear H2. induction H1 as [|a l' Hs IH Hf]; constructor; auto.
  eapply Forall_impl; [|exact Hf]. intros b Hb. unfold kbef in Hb.
  destruct (lessthan (nth b keys []) (nth a keys [])) eqn:E; auto. apply lessthan_ltb in E. congruence.
Qed.

(** Rows 0-1: columns 0-1 and 3; row 2: columns 1-3; rows 3-4: columns 1-3. *)
Definition t_ex : spans :=
  SCons 0 1 (SCons 0 1 SNil (SCons 3 3 SNil SNil)) (SCons 2 2 (SCons 1 3 SNil SNil) (SCons 3 4 (SCons 1 3 SNil SNil) SNil)).
Definition s_irr : h5sel := HHyper None (span_blocks 2 t_ex).
(** Two by two blocks of two rows and one column, three rows and two columns apart. *)
Definition r_ex : regular := mkreg [1; 0] [3; 2] [2; 2] [2; 1].
Definition s_reg : h5sel := HHyper (Some r_ex) (reg_blocks r_ex).

Lemma s_irr_lib : library_selection [6; 4] s_irr.
Proof.
  cbn [library_selection s_irr]. split; [discriminate|]. exists t_ex, 0. split; [discriminate|]. split; [|reflexivity].
  cbn. repeat (split; try discriminate; try lia; auto); try (exists 0; repeat (split; try lia; auto)); try (exists 1; repeat (split; try lia; auto)).
Qed.
Lemma s_reg_lib : library_selection [6; 4] s_reg.
Proof. cbn [library_selection s_reg]. split; [discriminate|]. split; [reflexivity|]. split; [|reflexivity]. cbn. lia. Qed.

Definition before_b := lessthan.
Lemma before_b_ok : forall a b, before_b a b = true -> before a b.
Proof.
  induction a as [|x a IH]; intros [|y b]; cbn; try discriminate. destruct (Z.ltb_spec x y); [auto|].
  destruct (Z.ltb_spec y x); [discriminate|]. intros. right. split; [lia|auto].
Qed.
Fixpoint sorted_b (l : list (list Z)) : bool :=
  match l with [] => true | x :: t => forallb (before_b x) t && sorted_b t end.
Lemma sorted_b_ok : forall l, sorted_b l = true -> row_major l.
Proof.
  induction l as [|x l IH]; cbn; intros H; [constructor|]. apply andb_true_iff in H. destruct H as [H1 H2]. constructor; [apply IH; exact H2|].
  apply Forall_forall. intros y Hy. rewrite forallb_forall in H1. apply before_b_ok. auto.
Qed.
Definition same_b (a b : list (list Z)) : bool :=
  forallb (fun c => existsb (coord_eqb c) b) a && forallb (fun c => existsb (coord_eqb c) a) b.
Lemma same_b_ok : forall a b, same_b a b = true -> forall c, In c a <-> In c b.
Proof.
  intros a b H c. apply andb_true_iff in H. destruct H as [H1 H2]. rewrite forallb_forall in H1, H2.
  split; intros Hc; [specialize (H1 c Hc)|specialize (H2 c Hc)]; [apply existsb_exists in H1; destruct H1 as (y & Hy & E)|apply existsb_exists in H2; destruct H2 as (y & Hy & E)];
  apply StoreProofs.coord_eqb_eq in E; subst; auto.
Qed.

Definition irr_cs : list (list Z) :=
  [[0;0];[0;1];[0;3];[1;0];[1;1];[1;3];[2;1];[2;2];[2;3];[3;1];[3;2];[3;3];[4;1];[4;2];[4;3]].
Lemma irr_cs_enum : enumerates [6; 4] s_irr irr_cs.
Proof.
  cbn [enumerates s_irr selected]. split; [apply sorted_b_ok; vm_compute; reflexivity|]. intros c.
  rewrite <- (In_cbs_to_count 2).
  - apply same_b_ok. vm_compute. reflexivity.
  - destruct (library_sel_ok _ _ s_irr_lib) as [(_ & H & _) _]. exact H.
Qed.
Definition pts_ex : list (list Z) := [[0;1];[0;2];[0;2];[3;1];[4;0]].
Lemma pts_lib : library_selection [5; 3] (HPoints pts_ex).
Proof. split; [discriminate|]. repeat constructor. Qed.
Lemma pts_sorted : sel_in_order (HPoints pts_ex).
Proof.
  cbn [sel_in_order pts_ex].
  repeat (apply SSorted_cons; [|repeat (apply Forall_cons; [first [left; reflexivity|right; apply before_b_ok; vm_compute; reflexivity]|]); apply Forall_nil]). constructor.
Qed.

(** The file selection of fifteen elements above, written from fifteen points of an array. *)
Definition mem_pts : list (list Z) := map (fun i => [i]) (map (fun i => 2 * i) (zseq 15)).
Lemma mem_pts_lib : library_selection [30] (HPoints mem_pts).
Proof. split; [discriminate|]. vm_compute. repeat constructor. Qed.
Lemma mem_pts_sorted : sel_in_order (HPoints mem_pts).
Proof.
  cbn [sel_in_order]. apply (SS_impl_In _ before). 2: { apply sorted_b_ok. vm_compute. reflexivity. }
  intros; right; auto.
Qed.
From Verif Require Import SelClaims3.
Lemma irr_usable : usable [6; 4] s_irr irr_cs.
Proof.
  split; [exact s_irr_lib|]. split; [exact irr_cs_enum|]. split; [|exact I]. intros c H. unfold irr_cs in H.
  repeat (destruct H as [<-|H]; [repeat constructor; lia|]). destruct H.
Qed.
Lemma mem_usable : usable [30] (HPoints mem_pts) mem_pts.
Proof.
  split; [exact mem_pts_lib|]. split; [reflexivity|]. split; [|exact mem_pts_sorted]. intros c H.
  unfold mem_pts in H. apply in_map_iff in H. destruct H as (i & <- & H). apply in_map_iff in H. destruct H as (j & <- & H).
  apply zseq_In in H. repeat constructor; lia.
Qed.
Lemma mem_nodup : NoDup mem_pts.
Proof.
  assert (forall l, row_major l -> NoDup l).
  { induction 1; constructor; auto. intros Hi. rewrite Forall_forall in H0. specialize (H0 _ Hi). clear - H0.
    induction a; cbn in H0; [tauto|]. destruct H0 as [H|[_ H]]; [lia|auto]. }
  apply H. apply sorted_b_ok. vm_compute. reflexivity.
Qed.

(** Blocks in an order the library never produces. *)
Definition odd_blocks : list entry := [([0;0],[9;0]); ([1;5],[1;5]); ([3;5],[3;5])].
Lemma odd_blocks_ok : hyper_ok 2 None odd_blocks.
Proof.
  split; [discriminate|]. split; [|split; [|discriminate]].
  - unfold odd_blocks. repeat (apply Forall_cons; [split; [reflexivity|]; split; [reflexivity|]; repeat constructor; cbn; lia|]). constructor.
  - unfold odd_blocks. repeat (apply FOP_cons; [repeat (apply Forall_cons; [intros c C1 C2; apply within_cons in C1, C2;
      destruct C1 as (x & c1 & -> & Hx & C1), C2 as (y & c2 & E & Hy & C2); injection E as -> ->; apply within_cons in C1, C2;
      destruct C1 as (x' & c1' & -> & Hx' & C1), C2 as (y' & c2' & E & Hy' & C2); injection E as -> ->; lia|]); apply Forall_nil|]). apply FOP_nil.
Qed.
Lemma odd_not_row_major : exists sels, normalize iorder [10; 10] (HHyper None odd_blocks) = Ok sels /\ ~ row_major (sel_coords sels).
Proof.
  eexists. split; [vm_compute; reflexivity|]. vm_compute sel_coords. intros H. unfold row_major in H.
  repeat (let H1 := fresh in let H2 := fresh in inversion H as [|? ? H1 H2]; subst; clear H; rename H1 into H;
    try (repeat (let G := fresh in inversion H2 as [|? ? G H2']; subst; clear H2; rename H2' into H2; cbn in G; lia))).
Qed.
Lemma reversed_points : library_selection [4] (HPoints [[1];[0]]) /\
  exists sels, normalize iorder [4] (HPoints [[1];[0]]) = Ok sels /\ sel_coords sels <> [[1];[0]].
Proof. split; [split; [discriminate|repeat constructor]|]. eexists. split; [vm_compute; reflexivity|]. vm_compute. discriminate. Qed.
(** Writing the elements 1, 0 of memory to the elements 0, 1 of a dataset stores them the wrong
    way round. *)
Definition two_bytes : bytemap := put (fun _ => 0) 0 [10; 20].
Lemma reversed_write : exists fsels data, normalize iorder [2] HAll = Ok fsels /\
  pack_write iorder 1 2 (MSel [2] (HPoints [[1];[0]])) two_bytes 0 = Ok data /\
  combine (sel_coords fsels) (elems 1 data) = [([0], [10]); ([1], [20])] /\
  combine [[0];[1]] (map (elem_value two_bytes 0 1 [2]) [[1];[0]]) = [([0], [20]); ([1], [10])].
Proof. eexists. eexists. split; [vm_compute; reflexivity|]. split; [vm_compute; reflexivity|]. split; vm_compute; reflexivity. Qed.
(** A read of one element into an empty memory selection changes memory. *)
Lemma empty_memory_selection : exists mem', unpack_read iorder 1 1 (MSel [2] HNone) two_bytes 0 [99] = Ok mem' /\ mem' 0 <> two_bytes 0.
Proof. eexists. split; [reflexivity|]. vm_compute. discriminate. Qed.
