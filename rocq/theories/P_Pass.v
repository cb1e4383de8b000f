(** Properties of pass-through reads. *)
From Verif Require Import Base Spec MetaModel IndexModel ReadModel PendSpec PassModel PassSpec PassProofs PassClaims.

(** ** C38 Pass-through reads select the right log elements

    For a box inside an array (starts and counts within the sizes), the hyperslab selected is the
    set of bytes of the box, in row-major order, when at most the first and the last dimension of
    the box are larger than one. *)
Theorem C38_selection_partial : forall base esize starts sizes counts,
  0 < esize -> counts <> [] -> length starts = length counts ->
  Forall2 (fun n p => 0 <= fst p /\ 0 < snd p /\ fst p + snd p <= n) sizes (combine starts counts) ->
  thin counts ->
  exists h, sel_space base esize starts sizes counts = Ok h /\
    hs_bytes h = box_bytes base esize starts sizes counts.
Proof. exact select_partial. Qed.
Print Assumptions C38_selection_partial.
Example C38_selection_applies :
  Forall2 (fun n p => 0 <= fst p /\ 0 < snd p /\ fst p + snd p <= n) [5; 4; 6] (combine [1; 2; 3] [3; 1; 2]) /\
  thin [3; 1; 2] /\
  box_bytes 10 2 [1; 2; 3] [5; 4; 6] [3; 1; 2] =
    [88; 89; 90; 91; 136; 137; 138; 139; 184; 185; 186; 187].
Proof. split; [|split; [|reflexivity]]; repeat constructor; cbn; lia. Qed.

(** For every other box some byte of it is not selected. *)
Theorem C38_selection_only_thin : forall base esize starts sizes counts h,
  0 < esize -> counts <> [] -> length starts = length counts ->
  Forall2 (fun n p => 0 <= fst p /\ 0 < snd p /\ fst p + snd p <= n) sizes (combine starts counts) ->
  sel_space base esize starts sizes counts = Ok h ->
  ~ thin counts ->
  exists z, In z (box_bytes base esize starts sizes counts) /\ ~ In z (hs_bytes h).
Proof. exact select_only_thin. Qed.
Print Assumptions C38_selection_only_thin.
Theorem C38_selection_refuted : exists h,
  sel_space 0 1 [0; 0; 0] [2; 2; 2] [2; 2; 1] = Ok h /\
  box_bytes 0 1 [0; 0; 0] [2; 2; 2] [2; 2; 1] = [0; 2; 4; 6] /\ hs_bytes h = [0; 4; 8; 12].
Proof. exact select_refuted. Qed.
Print Assumptions C38_selection_refuted.

(** The log dataset chosen is the one containing the byte, when the log datasets were placed in
    the file in the order of their numbers; otherwise it may be another one. *)
Theorem C38_log_dataset_partial : forall lds d x, laid_out lds -> In d lds -> fst d <= x < fst d + snd d ->
  foff2logidx x lds = Some d.
Proof. exact log_dataset_partial. Qed.
Print Assumptions C38_log_dataset_partial.
Theorem C38_log_dataset_refuted : exists lds d x, In d lds /\ fst d <= x < fst d + snd d /\
  (forall d', In d' lds -> d' <> d -> fst d' + snd d' <= fst d \/ fst d + snd d <= fst d') /\
  exists d', foff2logidx x lds = Some d' /\ fst d' + snd d' <= x.
Proof. exact log_dataset_refuted. Qed.
Print Assumptions C38_log_dataset_refuted.

(** For such pieces the whole pass-through read, with its grouping, splitting into rows and trimming,
    gives the memory the MPI read gives. *)
Theorem C38_read_partial : forall sort lds file mem blocks, is_sort sort -> laid_out lds ->
  Forall piece_ok blocks -> Forall fits_buffer blocks -> Forall (fun s => thin (sr_count s)) blocks ->
  Forall (stored_in lds) blocks ->
  pt_read sort lds file mem blocks = Ok (perform_read sort file mem blocks).
Proof. exact pt_read_ok. Qed.
Print Assumptions C38_read_partial.
Example C38_read_applies : laid_out pt_lds /\ Forall piece_ok [pt_s1; pt_s2; pt_s3] /\ Forall fits_buffer [pt_s1; pt_s2; pt_s3] /\
  Forall (fun s => thin (sr_count s)) [pt_s1; pt_s2; pt_s3] /\ Forall (stored_in pt_lds) [pt_s1; pt_s2; pt_s3] /\
  map (@length sret) (groups (isort [pt_s1; pt_s2; pt_s3])) = [2; 1]%nat.
Proof. exact pt_applies. Qed.

(** A scalar is read when its entry is as large as the element, and refused otherwise. *)
Theorem C38_scalar : forall lds file mem s, laid_out lds -> stored_in lds s -> sr_count s = [] -> sr_dsize s = [] ->
  0 < sr_esize s ->
  (sr_fsize s = sr_esize s -> pt_single lds file mem s =
     Ok (mpi_read file mem (combine (byte_range (block_from s) (sr_esize s)) (byte_range (sr_xbuf s) (sr_esize s))))) /\
  (sr_fsize s <> sr_esize s -> 0 <= sr_fsize s -> pt_single lds file mem s = Err).
Proof. exact scalar_ok. Qed.
Print Assumptions C38_scalar.
