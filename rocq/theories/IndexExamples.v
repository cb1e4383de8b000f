(** Concrete indexes: satisfiable hypotheses and witnesses of refutations. *)
From Verif Require Import Base Spec MetaModel IndexModel ReadModel LocalSpec SearchSpec FlushProofs IndexClaims.
From Verif Require GeomProofs.
From Coq Require Import Lia.

Definition x_d : dinfo := mkdinfo 2 [8;9] [8;9] (dsteps_of [8;9]) None.
Definition x_idx : list mentry :=
  [ mkmentry (mkhdr 60 1 1 1000 44) [mkmsel [0;0] [2;5] 0; mkmsel [4;2] [3;4] 20] 44
  ; mkmentry (mkhdr 60 0 0 2000 8) [mkmsel [1;1] [2;2] 0] 8
  ; mkmentry (mkhdr 60 1 0 3000 12) [mkmsel [1;3] [3;2] 0] 12 ].
Definition x_r : rreq := mkrreq 1 [mkblock [1;2] [5;3]; mkblock [7;8] [1;1]] 500 2.

(** Extendible dataset: entries of records. *)
Definition x_dr : dinfo := mkdinfo 1 [6;4] [UNLIMITED;4] (dsteps_of [6;4]) None.
Definition x_ir : list mentry :=
  [ mkmentry (mkhdr 60 2 33 100 3) [mkmsel [3;0] [1;2] 0; mkmsel [3;3] [1;1] 2] 3
  ; mkmentry (mkhdr 60 2 0 200 8) [mkmsel [1;0] [2;4] 0] 8 ].
Definition x_rr : rreq := mkrreq 2 [mkblock [2;1] [3;3]] 0 1.

Ltac idx_tac := repeat (apply conj || apply Forall_nil || apply Forall_cons || apply Forall2_nil || apply Forall2_cons || (match goal with |- _ = _ -> _ => intros _ end));
  try (vm_compute; congruence); try (vm_compute; intuition congruence); try reflexivity.

Lemma x_ok : Forall (int_block (di_ndim x_d)) (rq_sels x_r) /\
  Forall (fun e => h_did (me_hdr e) = rq_did x_r -> Forall (int_block (di_ndim x_d)) (entry_blocks e)) x_idx /\
  0 < di_esize x_d /\ rq_esize x_r = di_esize x_d /\ length (search_array x_idx x_d x_r) = 3%nat.
Proof. unfold int_block. idx_tac. Qed.

Lemma x_rok : Forall (fun e => h_did (me_hdr e) = rq_did x_rr -> decoded x_dr e) x_ir /\
  Forall (int_block (di_ndim x_dr)) (rq_sels x_rr) /\ Forall int_first (rq_sels x_rr) /\
  length (search_array x_ir x_dr x_rr) = 3%nat.
Proof.
  split; [|split; [unfold int_block; idx_tac|split; [idx_tac|reflexivity]]].
  apply Forall_cons; [|apply Forall_cons; [|apply Forall_nil]]; intros _.
  - split; [unfold well_shaped, coordinate; idx_tac|]. split; [unfold describes; idx_tac|].
    intros _. exists 3. unfold in_record. idx_tac.
  - split; [unfold well_shaped, coordinate; idx_tac|]. split; [unfold describes; idx_tac|].
    intros H; vm_compute in H; discriminate.
Qed.

(** Record 2^32: the compact index takes it for record 0. *)
Definition x_far : list mentry := [mkmentry (mkhdr 60 2 32 100 4) [mkmsel [2 ^ 32; 0] [1;4] 0] 4].
Definition x_near : rreq := mkrreq 2 [mkblock [0;0] [1;4]] 0 1.
Definition x_dfar : dinfo := mkdinfo 1 [2 ^ 32 + 1;4] [UNLIMITED;4] (dsteps_of [2 ^ 32 + 1;4]) None.

Lemma far_refuted : exists idx dip r ps,
  Forall (fun e => Forall (well_shaped (di_ndim dip)) (entry_blocks e) /\
                   Forall (int_block (di_ndim dip)) (entry_blocks e) /\
                   exists rec, in_record rec (entry_blocks e)) idx /\
  Forall (int_block (di_ndim dip)) (rq_sels r) /\
  search_compact (map compact_of idx) dip r = Some ps /\ ps <> [] /\
  search_array idx dip r = [] /\
  forall c x, In c (candidates idx r) -> ~ shared (ca_log c) (ca_req c) x.
Proof.
  exists x_far, x_dfar, x_near. eexists. split; [|split; [unfold int_block; idx_tac|split; [vm_compute; reflexivity|split; [discriminate|split]]]].
  - constructor; [|constructor]. unfold well_shaped, int_block, coordinate. split; [idx_tac|]. split; [idx_tac|].
    exists (2 ^ 32). unfold in_record. idx_tac.
  - vm_compute. reflexivity.
  - intros c x Hc. vm_compute in Hc. destruct Hc as [<-|[]]. unfold shared, in_block. cbn.
    destruct x as [|a [|b [|]]]; cbn; try tauto. lia.
Qed.

(** One block of 2^31 elements. *)
Definition x_big : list mentry := [mkmentry (mkhdr 60 0 0 100 (2 ^ 31)) [mkmsel [0] [2 ^ 31] 0] (2 ^ 31)].
Definition x_rbig : rreq := mkrreq 0 [mkblock [0] [2 ^ 31]] 0 1.
Definition x_dbig : dinfo := mkdinfo 1 [2 ^ 31] [2 ^ 31] (dsteps_of [2 ^ 31]) None.

Lemma big_refuted : exists idx dip r c p x,
  Forall (fun e => Forall (well_shaped (di_ndim dip)) (entry_blocks e) /\
                   Forall (in_array (di_dims dip)) (entry_blocks e)) idx /\
  Forall (in_array (di_dims dip)) (rq_sels r) /\
  candidates idx r = [c] /\ search_array idx dip r = [p] /\
  search_compact (map compact_of idx) dip r = Some [p] /\
  shared (ca_log c) (ca_req c) x /\ ~ covers_shared c p.
Proof.
  exists x_big, x_dbig, x_rbig. do 2 eexists. exists [5].
  split; [unfold well_shaped, in_array, coordinate; idx_tac|].
  split; [unfold in_array; idx_tac|].
  split; [vm_compute; reflexivity|]. split; [vm_compute; reflexivity|]. split; [vm_compute; reflexivity|].
  split; [unfold shared, in_block; cbn; lia|].
  intros [H _]. cbn in H. specialize (H [5]). unfold shared, in_block in H. cbn in H. lia.
Qed.

(** Coordinates beyond 2^31 with shorter blocks. *)
Definition x_dlong : dinfo := mkdinfo 1 [2 ^ 40] [2 ^ 40] (dsteps_of [2 ^ 40]) None.
Definition x_along : mentry := mkmentry (mkhdr 60 0 0 100 1000) [mkmsel [2 ^ 39] [1000] 0] 1000.
Definition x_rlong : rreq := mkrreq 0 [mkblock [2 ^ 39 + 5] [2 ^ 31 - 1]] 0 1.
Lemma x_long_ok : 0 < di_esize x_dlong /\ h_did (me_hdr x_along) = rq_did x_rlong /\
  Forall (in_array (di_dims x_dlong)) (rq_sels x_rlong) /\
  Forall (in_array (di_dims x_dlong)) (entry_blocks x_along) /\
  length (search_array [x_along] x_dlong x_rlong) = 1%nat.
Proof. unfold in_array. idx_tac. Qed.

Lemma search_exact' : forall idx dip r, Forall (int_block (di_ndim dip)) (rq_sels r) ->
  Forall (fun e => h_did (me_hdr e) = rq_did r -> Forall (int_block (di_ndim dip)) (entry_blocks e)) idx ->
  exists pss, search_array idx dip r = concat pss /\ Forall2 exact_answer (candidates idx r) pss.
Proof.
  intros idx dip r H1 H2. apply search_exact; auto. unfold idx_ok. revert H2. apply Forall_impl. intros e H E.
  specialize (H E). unfold entry_blocks in H. rewrite Forall_map in H. exact H.
Qed.
Lemma search_moves' : forall idx dip r, Forall (int_block (di_ndim dip)) (rq_sels r) ->
  Forall (fun e => h_did (me_hdr e) = rq_did r -> Forall (int_block (di_ndim dip)) (entry_blocks e)) idx ->
  0 < di_esize dip ->
  exists pss, search_array idx dip r = concat pss /\
    Forall2 (fun c ps => exact_answer c ps /\ forall p, In p ps -> moves_shared (di_esize dip) c p) (candidates idx r) pss.
Proof.
  intros idx dip r H1 H2. intros He. apply search_moves; auto. unfold idx_ok. revert H2. apply Forall_impl. intros e H E.
  specialize (H E). unfold entry_blocks in H. rewrite Forall_map in H. exact H.
Qed.
Lemma compact_exact : forall idx dip r, Forall (int_block (di_ndim dip)) (rq_sels r) -> Forall int_first (rq_sels r) ->
  Forall (fun e => h_did (me_hdr e) = rq_did r -> decoded dip e /\ Forall (int_block (di_ndim dip)) (entry_blocks e)) idx ->
  exists pss, search_compact (map compact_of idx) dip r = Some (concat pss) /\ Forall2 exact_answer (candidates idx r) pss.
Proof.
  intros idx dip r H1 H3 H2.
  assert (H4 : Forall (fun e => h_did (me_hdr e) = rq_did r -> decoded dip e) idx)
    by (revert H2; apply Forall_impl; intros; tauto).
  rewrite (compact_same idx dip r H4 H1 H3).
  destruct (search_exact' idx dip r) as (pss & E & F); auto.
  { revert H2; apply Forall_impl; intros; tauto. }
  exists pss. rewrite E. auto.
Qed.
Lemma x_rok2 : Forall (int_block (di_ndim x_dr)) (rq_sels x_rr) /\ Forall int_first (rq_sels x_rr) /\
  Forall (fun e => h_did (me_hdr e) = rq_did x_rr -> decoded x_dr e /\ Forall (int_block (di_ndim x_dr)) (entry_blocks e)) x_ir.
Proof.
  destruct x_rok as (A & B & C & _). split; auto. split; auto.
  inversion A as [|? ? A1 A2]. inversion A2 as [|? ? A3 A4].
  apply Forall_cons; [|apply Forall_cons; [|apply Forall_nil]]; intros E; (split; [auto|unfold int_block; idx_tac]).
Qed.

Lemma in_array_int : forall dims b, in_array dims b -> Forall (fun n => n < 2 ^ 31) (b_count b) -> int_block (length dims) b.
Proof.
  intros dims b (A1 & A2 & _) H. pose proof (Forall2_length _ _ _ _ _ A1). pose proof (Forall2_length _ _ _ _ _ A2).
  split; auto. split; auto. clear - A2 H.
  revert H. induction A2 as [|x y l l' HA A2 IH]; intros HF; constructor; inversion HF; subst; auto; lia.
Qed.
Lemma long_positions : forall e dip r m b,
  0 < di_esize dip -> h_did (me_hdr e) = rq_did r ->
  rq_sels r = [b] -> entry_blocks e = [m] ->
  in_array (di_dims dip) b -> in_array (di_dims dip) m ->
  Forall (fun n => n < 2 ^ 31) (b_count b) -> Forall (fun n => n < 2 ^ 31) (b_count m) ->
  let c := mkcand b (rq_xbuf r) m (h_foff (me_hdr e) + ms_doff (hd (mkmsel [] [] 0) (me_sels e))) in
  exact_answer c (search_array [e] dip r) /\
  forall p, In p (search_array [e] dip r) -> moves_shared (di_esize dip) c p.
Proof.
  intros e dip r m b He Hd Hr Hm Hb1 Hm1 Hb2 Hm2 c.
  destruct (search_moves' [e] dip r) as (pss & E & F); auto.
  - rewrite Hr. constructor; [|constructor]. apply in_array_int; auto.
  - constructor; [|constructor]. intros _. rewrite Hm. constructor; [|constructor]. apply in_array_int; auto.
  - assert (Hc : candidates [e] r = [c]).
    { unfold candidates. rewrite Hr. cbn [length seq flat_map nth_error app].
      rewrite (proj2 (Z.eqb_eq _ _) Hd). unfold entry_blocks in Hm.
      destruct (me_sels e) as [|m0 [|]]; cbn in Hm; try discriminate. injection Hm as <-.
      cbn. unfold c. f_equal. f_equal. unfold count_elems. cbn. lia. }
    rewrite Hc in F. inversion F as [|? ps ? pss' F1 F2]; subst. inversion F2; subst.
    rewrite E. cbn [concat]. rewrite app_nil_r. exact F1.
Qed.

(** No byte of that block is transferred. *)
Lemma no_pairs : forall esize c p x, single_pairs p = [] -> 0 < esize -> In x (coords (ca_log c)) -> In x (coords (ca_req c)) -> ~ moves_shared esize c p.
Proof.
  intros esize c p x H He H1 H2 M. apply In_nth_error in H1. apply In_nth_error in H2. destruct H1 as [k K], H2 as [k' K'].
  assert (Q : In (ca_file c + esize * Z.of_nat k + 0, ca_mem c + esize * Z.of_nat k' + 0) (single_pairs p)).
  { apply M. exists x, k, k', 0. repeat split; auto; lia. }
  rewrite H in Q. destruct Q.
Qed.
Definition c_big : candidate := mkcand (mkblock [0] [2 ^ 31]) 0 (mkblock [0] [2 ^ 31]) 100.
Definition p_big : sret := mksret 1 1 100 (2 ^ 31) 0 (2 ^ 31) 0 [- 2 ^ 31] [0] [- 2 ^ 31] [0] [- 2 ^ 31].
Lemma in_big : In [5] (coords (mkblock [0] [2 ^ 31])).
Proof. refine (proj2 (GeomProofs.In_coords_of [0] [2 ^ 31] [5] eq_refl) _). cbn [inside]. lia. Qed.
Lemma big_bytes : exists idx dip r c p,
  Forall (fun e => Forall (well_shaped (di_ndim dip)) (entry_blocks e) /\
                   Forall (in_array (di_dims dip)) (entry_blocks e)) idx /\
  Forall (in_array (di_dims dip)) (rq_sels r) /\
  candidates idx r = [c] /\ search_array idx dip r = [p] /\ ~ moves_shared (di_esize dip) c p.
Proof.
  exists x_big, x_dbig, x_rbig, c_big, p_big.
  split; [unfold well_shaped, in_array, coordinate; idx_tac|].
  split; [unfold in_array; idx_tac|].
  split; [vm_compute; reflexivity|]. split; [vm_compute; reflexivity|].
  apply (no_pairs _ _ _ [5]); [vm_compute; reflexivity|reflexivity|exact in_big|exact in_big].
Qed.
