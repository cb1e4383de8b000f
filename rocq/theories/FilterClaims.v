(** Statements about filtered datasets in the form used by P_Filter. *)
From Verif Require Import Base BaseProofs Spec MetaModel IndexModel ReadModel PassModel FilterModel FilterSpec FilterProofs.
From Coq Require Import ZifyNat.

Lemma stored_decodes : forall comp dec ids x, lossless comp dec -> Forall (eq DEFLATE) ids ->
  exists y, stored_data comp ids x = Ok y /\ decode_times dec (length ids) y = Some x.
Proof.
  intros comp dec ids x HL HF. exists (times (length ids) comp x). split.
  - unfold stored_data. destruct ids as [|id ids]; [reflexivity|].
    rewrite filter_times; [reflexivity|congruence|auto].
  - apply decode_times_ok. auto.
Qed.

Lemma unsupported : forall comp ids x, ~ Forall (eq DEFLATE) ids -> stored_data comp ids x = Err.
Proof.
  intros comp ids x H. unfold stored_data. destruct ids; [exfalso; apply H; constructor|].
  rewrite filter_bad; auto.
Qed.

Lemma never_undone : forall comp ids x, (forall y, zlib_header (comp y)) -> ids <> [] ->
  Forall (eq DEFLATE) ids -> ~ zlib_header x ->
  exists y u, stored_data comp ids x = Ok y /\ unfilter comp ids y = Ok (Some u) /\ u <> x.
Proof.
  intros comp ids x Hz Hne HF Hx. exists (times (length ids) comp x). eexists.
  split; [|split; [apply unfilter_times; auto|]].
  - unfold stored_data. destruct ids; [congruence|]. rewrite filter_times; auto.
  - intros E. apply Hx. destruct ids as [|id ids]; [congruence|]. cbn [length] in E.
    rewrite times_last in E. rewrite <- E. apply Hz.
Qed.

Lemma block_fails : forall comp ids file s, ids <> [] -> 0 < sr_fsize s ->
  1 < sr_esize s * Zprod (sr_count s) ->
  forall bytes, filtered_block comp ids file s <> Ok bytes.
Proof.
  intros comp ids file s Hne Hf H1 bytes. unfold filtered_block.
  replace (1 <? sr_esize s * Zprod (sr_count s)) with true by (symmetry; apply Z.ltb_lt; auto).
  destruct (if 0 <? sr_fsize s then _ else _) as [o| |]; cbn [bind]; try congruence.
  destruct o as [u|]; cbn [or_ub bind]; try congruence. destruct (_ <? _); congruence.
Qed.

Lemma zseq_length' : forall n, length (zseq n) = Z.to_nat n.
Proof. intros. unfold zseq. rewrite map_length, seq_length. reflexivity. Qed.

Lemma pass_fails : forall lds file mem zbuf s doff len,
  foff2logidx (sr_foff s) lds = Some (doff, len) -> 0 <= len -> 0 < sr_fsize s -> sr_fsize s <> len ->
  pt_filtered lds file mem zbuf s = Err.
Proof.
  intros lds file mem zbuf s doff len E Hl Hf Hne. unfold pt_filtered. rewrite E. unfold under_read.
  rewrite !zseq_length'.
  replace (Z.to_nat len =? Z.to_nat (sr_fsize s))%nat with false; [reflexivity|].
  symmetry. apply Nat.eqb_neq. lia.
Qed.

(** A lossless compressor with the zlib header. *)
Definition toy (x : list Z) : list Z := 120 :: 156 :: x.
Definition untoy (x : list Z) : option (list Z) :=
  match x with a :: b :: r => if (a =? 120) && (b =? 156) then Some r else None | _ => None end.
Lemma toy_lossless : lossless toy untoy.
Proof. intros x. reflexivity. Qed.
Lemma toy_header : forall y, zlib_header (toy y).
Proof. intros y. exists y. reflexivity. Qed.

(** Recompression overflows the buffer when it makes the data longer. *)
Lemma overflow : forall comp id file s, id = DEFLATE -> 0 < sr_fsize s -> sr_xsize s <= sr_fsize s ->
  sr_fsize s < Zlen (comp (get file (sr_foff s) (Z.to_nat (sr_fsize s)))) ->
  filtered_block comp [id] file s = UB.
Proof.
  intros comp id file s -> Hf Hx Hl. unfold filtered_block.
  replace (0 <? sr_fsize s) with true by (symmetry; apply Z.ltb_lt; auto).
  rewrite unfilter_times; [|congruence|repeat constructor]. cbn [bind or_ub length times].
  replace (_ <? _) with true; [reflexivity|]. symmetry. apply Z.ltb_lt. lia.
Qed.
Lemma toy_overflow : let s := mksret 1 1 100 3 0 1 5000 [1] [0] [1] [0] [1] in
  0 < sr_fsize s /\ sr_xsize s <= sr_fsize s /\
  sr_fsize s < Zlen (toy (get (put (fun _ => 0) 100 (toy [7])) (sr_foff s) (Z.to_nat (sr_fsize s)))).
Proof. vm_compute. repeat split; congruence. Qed.
