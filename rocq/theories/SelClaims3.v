(** Pairing of file elements with memory elements. *)
From Verif Require Import Base BaseProofs Spec HistoryProofs SelModel SelSpec SelProofs SelProofs2 SelProofs3 SelClaims SelClaims2 RegProofs.
From Coq Require Import ZifyNat Permutation.

Lemma library_in_order : forall dims s, library_selection dims s -> (forall pts, s = HPoints pts -> sel_in_order s) -> sel_in_order s.
Proof. intros dims s H HP. destruct s; cbn; auto; [exact (HP _ eq_refl)|]. exact (proj2 (library_sel_ok _ _ H) _ _ eq_refl). Qed.

Lemma keeps_elements : forall order dims s, is_order order -> library_selection dims s ->
  exists sels, normalize order dims s = Ok sels /\
    (forall c, In c (sel_coords sels) <-> selected dims s c) /\
    match s with HPoints pts => Permutation (sel_coords sels) pts | _ => NoDup (sel_coords sels) end.
Proof. intros order dims s HO H. destruct (normalize_ok order dims s HO (proj1 (library_sel_ok _ _ H))) as (sels & N1 & N2 & N3 & _). eauto. Qed.

Lemma keeps_any_blocks : forall order dims reg blocks, is_order order -> hyper_ok (length dims) reg blocks ->
  exists sels, normalize order dims (HHyper reg blocks) = Ok sels /\
    (forall c, In c (sel_coords sels) <-> selected dims (HHyper reg blocks) c) /\ NoDup (sel_coords sels).
Proof. intros order dims reg blocks HO H. destruct (normalize_ok order dims (HHyper reg blocks) HO H) as (sels & N1 & N2 & N3 & _). eauto. Qed.

Lemma keeps_regular : forall order dims r, is_order order -> dims <> [] -> length (r_start r) = length dims ->
  reg_ok4 (r_start r) (r_stride r) (r_count r) (r_block r) ->
  exists sels, normalize order dims (HHyper (Some r) (reg_blocks r)) = Ok sels /\
    (forall c, In c (sel_coords sels) <-> in_regular r c) /\ row_major (sel_coords sels).
Proof.
  intros order dims r HO HD HL HR. assert (H : library_selection dims (HHyper (Some r) (reg_blocks r))) by (cbn; auto).
  destruct (library_sel_ok _ _ H) as [HS HI]. destruct (normalize_ok order dims _ HO HS) as (sels & N1 & N2 & N3 & N4 & _).
  exists sels. split; auto. split; [|apply N4; eapply HI; reflexivity]. intros c. rewrite N2. cbn [selected].
  destruct HS as (_ & _ & _ & HC). symmetry. apply (HC r eq_refl).
Qed.

Lemma keeps_order : forall order dims s, is_order order -> library_selection dims s -> (forall pts, s <> HPoints pts) ->
  exists sels, normalize order dims s = Ok sels /\ row_major (sel_coords sels) /\
    (forall c, In c (sel_coords sels) <-> selected dims s c).
Proof.
  intros order dims s HO H HP. assert (HI : sel_in_order s) by (apply (library_in_order dims); auto; intros pts E; exfalso; eapply HP; eauto).
  destruct (normalize_ok order dims s HO (proj1 (library_sel_ok _ _ H))) as (sels & N1 & N2 & _ & N4 & _). exists sels. split; auto. split; auto.
  specialize (N4 HI). destruct s; auto. exfalso. eapply HP; eauto.
Qed.

Lemma points_sorted_kept : forall order dims pts, is_order order -> library_selection dims (HPoints pts) ->
  StronglySorted (fun a b => a = b \/ before a b) pts ->
  exists sels, normalize order dims (HPoints pts) = Ok sels /\ sel_coords sels = pts.
Proof.
  intros order dims pts HO H HI. destruct (normalize_ok order dims _ HO (proj1 (library_sel_ok _ _ H))) as (sels & N1 & N2 & _ & N4 & _).
  exists sels. split; auto. 
Qed.

Lemma usable_ok : forall dims s cs, usable dims s cs -> sel_ok dims s /\ sel_in_order s /\ enumerates dims s cs /\ (forall c, In c cs -> in_extent dims c).
Proof.
  intros dims s cs (H1 & H2 & H3 & H4). split; [apply (library_sel_ok _ _ H1)|]. split; auto. apply (library_in_order dims); auto. intros pts ->. exact H4.
Qed.

Lemma write_pairing : forall order esize fdims fs fcs mdims ms mcs mem ubuf, is_order order -> 0 < esize ->
  Forall (fun d => 0 <= d < 2 ^ 31) mdims -> usable fdims fs fcs -> usable mdims ms mcs -> length fcs = length mcs -> fcs <> [] ->
  exists fsels data, normalize order fdims fs = Ok fsels /\
    pack_write order esize (Zlen fcs) (MSel mdims ms) mem ubuf = Ok data /\
    combine (sel_coords fsels) (elems esize data) = combine fcs (map (elem_value mem ubuf esize mdims) mcs).
Proof.
  intros order esize fdims fs fcs mdims ms mcs mem ubuf HO He HD HF HM HL HN.
  apply usable_ok in HF, HM. destruct HF as (F1 & F2 & F3 & F4), HM as (M1 & M2 & M3 & M4).
  destruct (normalize_enumerates order fdims fs fcs HO F1 F2 F3) as (fsels & N1 & N2 & _).
  destruct (pack_ok order esize mdims ms mcs mem ubuf) as (data & P1 & P2); auto.
  { intros ->. destruct fcs; [congruence|discriminate]. }
  exists fsels, data. split; auto. unfold Zlen in *. rewrite HL. split; auto. rewrite N2, P2. reflexivity.
Qed.

Lemma read_pairing : forall order esize fdims fs fcs mdims ms mcs mem ubuf bytes, is_order order -> 0 < esize ->
  Forall (fun d => 0 <= d < 2 ^ 31) mdims -> usable fdims fs fcs -> usable mdims ms mcs -> length fcs = length mcs -> fcs <> [] ->
  NoDup mcs -> Zlen bytes = Zlen fcs * esize ->
  exists fsels mem', normalize order fdims fs = Ok fsels /\
    unpack_read order esize (Zlen fcs) (MSel mdims ms) mem ubuf bytes = Ok mem' /\
    combine fcs (map (elem_value mem' ubuf esize mdims) mcs) = combine (sel_coords fsels) (elems esize bytes) /\
    (forall a, (forall c, In c mcs -> ~ (elem_addr ubuf esize mdims c <= a < elem_addr ubuf esize mdims c + esize)) -> mem' a = mem a).
Proof.
  intros order esize fdims fs fcs mdims ms mcs mem ubuf bytes HO He HD HF HM HL HN HU HB.
  apply usable_ok in HF, HM. destruct HF as (F1 & F2 & F3 & F4), HM as (M1 & M2 & M3 & M4).
  destruct (normalize_enumerates order fdims fs fcs HO F1 F2 F3) as (fsels & N1 & N2 & _).
  assert (EL : Zlen fcs = Zlen mcs) by (unfold Zlen; lia). rewrite EL in *.
  destruct (unpack_ok order esize mdims ms mcs mem ubuf bytes) as (mem' & P1 & P2 & P3); auto.
  { intros ->. destruct fcs; [congruence|discriminate]. }
  exists fsels, mem'. split; auto. split; auto. rewrite N2, P2. split; auto.
Qed.
