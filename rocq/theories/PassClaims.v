(** Statements about pass-through reads in the form used by P_Pass. *)
From Verif Require Import Base BaseProofs Spec MetaModel QueueModel FlushModel IndexModel ReadModel PendSpec
  PassModel PassSpec GeomProofs ReadProofs ViewProofs PassProofs.

Lemma select_partial : forall base esize starts sizes counts,
  0 < esize -> counts <> [] -> length starts = length counts ->
  Forall2 (fun n p => 0 <= fst p /\ 0 < snd p /\ fst p + snd p <= n) sizes (combine starts counts) ->
  thin counts ->
  exists h, sel_space base esize starts sizes counts = Ok h /\
    hs_bytes h = box_bytes base esize starts sizes counts.
Proof.
  intros b es st sz ct He Hne L HB HT.
  destruct (sel_space_thin_bytes b es st sz ct HB L He Hne HT) as (h & H1 & H2 & _).
  exists h. rewrite box_bytes_sub. auto.
Qed.

Lemma select_only_thin : forall base esize starts sizes counts h,
  0 < esize -> counts <> [] -> length starts = length counts ->
  Forall2 (fun n p => 0 <= fst p /\ 0 < snd p /\ fst p + snd p <= n) sizes (combine starts counts) ->
  sel_space base esize starts sizes counts = Ok h ->
  ~ thin counts ->
  exists z, In z (box_bytes base esize starts sizes counts) /\ ~ In z (hs_bytes h).
Proof.
  intros b es st sz ct h He Hne L HB Hh HT. rewrite box_bytes_sub. eapply sel_space_not_thin; eauto.
Qed.

Lemma select_refuted : exists h,
  sel_space 0 1 [0; 0; 0] [2; 2; 2] [2; 2; 1] = Ok h /\
  box_bytes 0 1 [0; 0; 0] [2; 2; 2] [2; 2; 1] = [0; 2; 4; 6] /\ hs_bytes h = [0; 4; 8; 12].
Proof. eexists. split; [reflexivity|]. split; reflexivity. Qed.

Lemma log_dataset_partial : forall lds d x, laid_out lds -> In d lds -> fst d <= x < fst d + snd d ->
  foff2logidx x lds = Some d.
Proof. exact foff_inside. Qed.

Lemma log_dataset_refuted : exists lds d x, In d lds /\ fst d <= x < fst d + snd d /\
  (forall d', In d' lds -> d' <> d -> fst d' + snd d' <= fst d \/ fst d + snd d <= fst d') /\
  exists d', foff2logidx x lds = Some d' /\ fst d' + snd d' <= x.
Proof.
  exists [(100, 10); (50, 10)], (100, 10), 103. split; [left; reflexivity|]. split; [cbn; lia|]. split.
  - intros d' [<-|[<-|[]]] H; [congruence|]. cbn. lia.
  - exists (50, 10). split; [reflexivity|]. cbn. lia.
Qed.

Definition pt_s1 : sret := mksret 2 2 100 48 8 0 1000 [3; 4] [0; 1] [2; 2] [0; 0] [2; 2].
Definition pt_s2 : sret := mksret 2 2 100 48 8 0 2000 [3; 4] [1; 0] [1; 4] [0; 0] [1; 4].
Definition pt_s3 : sret := mksret 2 2 300 48 0 0 3000 [3; 4] [1; 1] [2; 3] [0; 0] [2; 3].
Definition pt_lds : list ldset := [(80, 90); (200, 50); (290, 60)].

Lemma pt_applies : laid_out pt_lds /\ Forall piece_ok [pt_s1; pt_s2; pt_s3] /\ Forall fits_buffer [pt_s1; pt_s2; pt_s3] /\
  Forall (fun s => thin (sr_count s)) [pt_s1; pt_s2; pt_s3] /\ Forall (stored_in pt_lds) [pt_s1; pt_s2; pt_s3] /\
  map (@length sret) (groups (isort [pt_s1; pt_s2; pt_s3])) = [2; 1]%nat.
Proof.
  assert (HB : forall n m a b c d, 0 <= a -> 0 < c -> a + c <= n -> 0 <= b -> 0 < d -> b + d <= m ->
    Forall2 (fun n p => 0 <= fst p /\ 0 < snd p /\ fst p + snd p <= n) [n; m] [(a, c); (b, d)]).
  { intros. repeat constructor; cbn; lia. }
  split; [|split; [|split; [|split; [|split; [|reflexivity]]]]].
  - cbn. repeat split; auto; repeat constructor; cbn; lia.
  - repeat (apply Forall_cons || apply Forall_nil); unfold piece_ok; cbn [sr_esize sr_count sr_msize sr_mstart sr_dsize sr_dstart combine length last pt_s1 pt_s2 pt_s3];
      (split; [lia|]); (split; [discriminate|]); (split; [reflexivity|]); (split; [reflexivity|]); (split; [reflexivity|]);
      (split; [apply HB; lia|]); (split; [reflexivity|]); lia.
  - repeat (apply Forall_cons || apply Forall_nil); unfold fits_buffer; cbn [sr_count sr_msize sr_mstart combine pt_s1 pt_s2 pt_s3]; apply HB; lia.
  - repeat constructor.
  - repeat (apply Forall_cons || apply Forall_nil).
    + exists (80, 90). split; [left; reflexivity|]. vm_compute. split; discriminate.
    + exists (80, 90). split; [left; reflexivity|]. vm_compute. split; discriminate.
    + exists (290, 60). split; [right; right; left; reflexivity|]. vm_compute. split; discriminate.
Qed.

(** A scalar is read from the right place when the entry is as large as the element. *)
Lemma scalar_ok : forall lds file mem s, laid_out lds -> stored_in lds s -> sr_count s = [] -> sr_dsize s = [] ->
  0 < sr_esize s ->
  (sr_fsize s = sr_esize s -> pt_single lds file mem s =
     Ok (mpi_read file mem (combine (byte_range (block_from s) (sr_esize s)) (byte_range (sr_xbuf s) (sr_esize s))))) /\
  (sr_fsize s <> sr_esize s -> 0 <= sr_fsize s -> pt_single lds file mem s = Err).
Proof.
  intros lds file mem s HL ([doff len] & D1 & D2 & D3) Hc Hd He. cbn [fst snd] in *.
  assert (HT : block_to s = block_from s + sr_esize s).
  { unfold block_to. rewrite Hd. change (Zprod []) with 1. lia. }
  assert (HB : forall k, 0 <= k -> pt_single lds file mem s =
    under_read file doff (sr_xbuf s) (byte_range (block_from s - doff) (sr_esize s)) (zseq (sr_fsize s)) mem).
  { intros _ _. unfold pt_single. change (sr_key s) with (block_from s).
    rewrite (foff_inside lds (doff, len)) by (cbn [fst snd]; auto; lia). rewrite Hc.
    unfold hsel, sel_space0. cbn [h_count h_block h_start h_stride]. rewrite Z.mul_1_r.
    change (1 =? 0) with false. change (1 <? 1) with false.
    destruct (Z.eqb_spec (sr_esize s) 0); [lia|]. cbn [orb andb].
    destruct (Z.ltb_spec (block_from s - doff) 0); [lia|]. cbn [orb].
    destruct (Z.ltb_spec len (block_from s - doff + (1 - 1) * 1 + sr_esize s)); [lia|]. cbn [bind].
    unfold hs_bytes. cbn [h_count h_block h_start h_stride]. change (zseq 1) with [0]. cbn [flat_map]. rewrite app_nil_r.
    do 2 f_equal. lia. }
  rewrite (HB 0) by lia. unfold under_read. rewrite byte_range_length, zseq_length. split.
  - intros ->. rewrite Nat.eqb_refl. unfold byte_range. rewrite map_map. do 3 f_equal. apply map_ext. intros. lia.
  - intros H1 H2. destruct (Nat.eqb_spec (Z.to_nat (sr_esize s)) (Z.to_nat (sr_fsize s))); [lia|reflexivity].
Qed.
