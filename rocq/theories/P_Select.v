(** Properties of selections: C14, C15 (hyperslabs), C16 (points), C36 (memory selections). *)
From Verif Require Import Base Spec SelModel SelSpec SelClaims3 SelExamples.
From Coq Require Import Permutation.

(** ** C14 Normalization keeps the selected elements

    For every selection the HDF5 library can hold and every result std::sort may return: the blocks
    contain exactly the selected elements, each once (a point as often as it was given). *)
Theorem C14_keeps_elements : forall order dims s, is_order order -> library_selection dims s ->
  exists sels, normalize order dims s = Ok sels /\
    (forall c, In c (sel_coords sels) <-> selected dims s c) /\
    match s with HPoints pts => Permutation (sel_coords sels) pts | _ => NoDup (sel_coords sels) end.
Proof. exact keeps_elements. Qed.
Print Assumptions C14_keeps_elements.
Example C14_applies : is_order iorder /\ library_selection [6; 4] s_irr /\ library_selection [6; 4] s_reg /\ library_selection [5; 3] (HPoints pts_ex).
Proof. exact (conj iorder_is_order (conj s_irr_lib (conj s_reg_lib pts_lib))). Qed.

(** The same for an arbitrary list of disjoint blocks, in any order. *)
Theorem C14_any_blocks : forall order dims reg blocks, is_order order -> hyper_ok (length dims) reg blocks ->
  exists sels, normalize order dims (HHyper reg blocks) = Ok sels /\
    (forall c, In c (sel_coords sels) <-> selected dims (HHyper reg blocks) c) /\ NoDup (sel_coords sels).
Proof. exact keeps_any_blocks. Qed.
Print Assumptions C14_any_blocks.
Example C14_any_applies : hyper_ok 2 None odd_blocks.
Proof. exact odd_blocks_ok. Qed.

(** ** C15 Normalization keeps row-major order *)
Theorem C15_row_major : forall order dims s, is_order order -> library_selection dims s -> (forall pts, s <> HPoints pts) ->
  exists sels, normalize order dims s = Ok sels /\ row_major (sel_coords sels) /\
    (forall c, In c (sel_coords sels) <-> selected dims s c).
Proof. exact keeps_order. Qed.
Print Assumptions C15_row_major.
Example C15_applies : library_selection [6; 4] s_irr /\ exists sels, normalize iorder [6; 4] s_irr = Ok sels /\ sel_coords sels = irr_cs.
Proof. exact (conj s_irr_lib (ex_intro _ _ (conj eq_refl eq_refl))). Qed.

(** Regular hyperslabs, in terms of start, stride, count and block. *)
Theorem C15_regular : forall order dims r, is_order order -> dims <> [] -> length (r_start r) = length dims ->
  reg_ok4 (r_start r) (r_stride r) (r_count r) (r_block r) ->
  exists sels, normalize order dims (HHyper (Some r) (reg_blocks r)) = Ok sels /\
    (forall c, In c (sel_coords sels) <-> in_regular r c) /\ row_major (sel_coords sels).
Proof. exact keeps_regular. Qed.
Print Assumptions C15_regular.

(** The order is lost for blocks listed in an order that the library does not produce. *)
Theorem C15_any_blocks_refuted : hyper_ok 2 None odd_blocks /\
  exists sels, normalize iorder [10; 10] (HHyper None odd_blocks) = Ok sels /\ ~ row_major (sel_coords sels).
Proof. exact (conj odd_blocks_ok odd_not_row_major). Qed.
Print Assumptions C15_any_blocks_refuted.

(** ** C16 Order of the points

    Kept when the points are given in row-major order (with repetitions). *)
Theorem C16_points_partial : forall order dims pts, is_order order -> library_selection dims (HPoints pts) ->
  StronglySorted (fun a b => a = b \/ before a b) pts ->
  exists sels, normalize order dims (HPoints pts) = Ok sels /\ sel_coords sels = pts.
Proof. exact points_sorted_kept. Qed.
Print Assumptions C16_points_partial.
Example C16_applies : library_selection [5; 3] (HPoints pts_ex) /\ sel_in_order (HPoints pts_ex).
Proof. exact (conj pts_lib pts_sorted). Qed.

Theorem C16_points_refuted : library_selection [4] (HPoints [[1];[0]]) /\
  exists sels, normalize iorder [4] (HPoints [[1];[0]]) = Ok sels /\ sel_coords sels <> [[1];[0]].
Proof. exact reversed_points. Qed.
Print Assumptions C16_points_refuted.

(** ** C36 Memory selections

    [fcs] and [mcs] are the elements of the file and of the memory selection in the order of the
    library.  Assumed: the sizes of the memory array fit a C int and points are in increasing
    order. *)
Theorem C36_write_partial : forall order esize fdims fs fcs mdims ms mcs mem ubuf, is_order order -> 0 < esize ->
  Forall (fun d => 0 <= d < 2 ^ 31) mdims -> usable fdims fs fcs -> usable mdims ms mcs -> length fcs = length mcs -> fcs <> [] ->
  exists fsels data, normalize order fdims fs = Ok fsels /\
    pack_write order esize (Zlen fcs) (MSel mdims ms) mem ubuf = Ok data /\
    combine (sel_coords fsels) (elems esize data) = combine fcs (map (elem_value mem ubuf esize mdims) mcs).
Proof. exact write_pairing. Qed.
Print Assumptions C36_write_partial.

Theorem C36_read_partial : forall order esize fdims fs fcs mdims ms mcs mem ubuf bytes, is_order order -> 0 < esize ->
  Forall (fun d => 0 <= d < 2 ^ 31) mdims -> usable fdims fs fcs -> usable mdims ms mcs -> length fcs = length mcs -> fcs <> [] ->
  NoDup mcs -> Zlen bytes = Zlen fcs * esize ->
  exists fsels mem', normalize order fdims fs = Ok fsels /\
    unpack_read order esize (Zlen fcs) (MSel mdims ms) mem ubuf bytes = Ok mem' /\
    combine fcs (map (elem_value mem' ubuf esize mdims) mcs) = combine (sel_coords fsels) (elems esize bytes) /\
    (forall a, (forall c, In c mcs -> ~ (elem_addr ubuf esize mdims c <= a < elem_addr ubuf esize mdims c + esize)) -> mem' a = mem a).
Proof. exact read_pairing. Qed.
Print Assumptions C36_read_partial.
Example C36_applies : usable [6; 4] s_irr irr_cs /\ usable [30] (HPoints mem_pts) mem_pts /\ length irr_cs = length mem_pts /\ NoDup mem_pts.
Proof. exact (conj irr_usable (conj mem_usable (conj eq_refl mem_nodup))). Qed.

(** False for points in another order, and for an empty memory selection. *)
Theorem C36_points_refuted : exists fsels data, normalize iorder [2] HAll = Ok fsels /\
  pack_write iorder 1 2 (MSel [2] (HPoints [[1];[0]])) two_bytes 0 = Ok data /\
  combine (sel_coords fsels) (elems 1 data) = [([0], [10]); ([1], [20])] /\
  combine [[0];[1]] (map (elem_value two_bytes 0 1 [2]) [[1];[0]]) = [([0], [20]); ([1], [10])].
Proof. exact reversed_write. Qed.
Print Assumptions C36_points_refuted.
Theorem C36_empty_refuted : exists mem', unpack_read iorder 1 1 (MSel [2] HNone) two_bytes 0 [99] = Ok mem' /\ mem' 0 <> two_bytes 0.
Proof. exact empty_memory_selection. Qed.
Print Assumptions C36_empty_refuted.
