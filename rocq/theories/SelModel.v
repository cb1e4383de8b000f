(** Model of src/H5VL_logi_dataspace.cpp: conversion of an HDF5 dataspace selection to the list of
    blocks used by the connector, and of the packing of memory selections
    (src/H5VL_log_dataseti.cpp:907-935, src/H5VL_logi_nb.cpp:498-516).

    Coordinates are exact integers: the sums of the C code wrap only beyond 2^64.  Numbers of
    blocks are exact: the C code stores them in [int]. *)
From Verif Require Import Base Spec ReadModel.

(** lessthan (dataspace.cpp:27-42). *)
Fixpoint lessthan (a b : list Z) : bool :=
  match a, b with
  | x :: a', y :: b' => if x <? y then true else if y <? x then false else lessthan a' b'
  | _, _ => false
  end.

(** An entry of the two arrays [starts], [counts]; in the instances <true> the second array holds
    the last coordinates (inclusive) instead of the counts.  src/H5VL_logi_dataspace.cpp:88-135. *)
Definition entry := (list Z * list Z)%type.

(** Test of merge_blocks (dataspace.cpp:95-118), dimensions [k], [k+1], ...: block [j] then [i]. *)
Fixpoint can_merge (use_end : bool) (d k : nat) (sj cj si ci : list Z) : bool :=
  match sj, cj, si, ci with
  | a :: sj', x :: cj', b :: si', y :: ci' =>
      (if Nat.eqb k d then (if use_end then x + 1 =? b else a + x =? b)
       else (b =? a) && (y =? x))
      && can_merge use_end d (S k) sj' cj' si' ci'
  | _, _, _, _ => true
  end.

(** dataspace.cpp:119-125. *)
Definition do_merge (use_end : bool) (d : nat) (j i : entry) : entry :=
  (fst j, upd_nth d (if use_end then nth d (snd i) 0 else nth d (snd j) 0 + nth d (snd i) 0) (snd j)).

(** One iteration of the loop over dimensions (dataspace.cpp:93-133); [cur] is block j.  Blocks are
    moved by copying pointers, and a block moved down is never visited again. *)
Fixpoint merge_pass (use_end : bool) (d : nat) (cur : entry) (rest : list entry) : list entry :=
  match rest with
  | [] => [cur]
  | i :: r =>
      if can_merge use_end d 0 (fst cur) (snd cur) (fst i) (snd i)
      then merge_pass use_end d (do_merge use_end d cur i) r
      else cur :: merge_pass use_end d i r
  end.
(** One dimension (src/H5VL_logi_dataspace.cpp:93-133). *)
Definition merge_dim (use_end : bool) (l : list entry) (d : nat) : list entry :=
  match l with [] => [] | x :: r => merge_pass use_end d x r end.
(** merge_blocks (dataspace.cpp:88-135), for a list that is not empty. *)
Definition merge_blocks (use_end : bool) (ndim : nat) (l : list entry) : list entry :=
  fold_left (merge_dim use_end) (rev (seq 0 ndim)) l.

(** std::sort called with [lessthan] (dataspace.cpp:61, :392).  [order keys] lists the positions of
    [keys] in the order chosen by the sort. *)
Definition is_order (order : list (list Z) -> list nat) : Prop :=
  forall keys, Permutation (seq 0 (length keys)) (order keys) /\
    StronglySorted (fun i j => lessthan (nth j keys []) (nth i keys []) = false) (order keys).

(** The reordering loop of sortblocks (dataspace.cpp:63-85). *)
Fixpoint cycle {A} (dflt : A) (fuel i j k : nat) (idx : list nat) (v : list A) : list nat * nat * list A :=
  match fuel with
  | O => (idx, j, v)
  | S f =>
      if Nat.eqb k i then (idx, j, v)
      else let v' := upd_nth j (nth k v dflt) v in
           let idx' := upd_nth j j idx in
           cycle dflt f i k (nth k idx' O) idx' v'
  end.
(** One position (src/H5VL_logi_dataspace.cpp:63-85). *)
Definition reorder_at {A} (dflt : A) (st : list nat * list A) (i : nat) : list nat * list A :=
  let (idx, v) := st in
  if Nat.eqb (nth i idx O) i then st
  else let tmp := nth i v dflt in
       let '(idx1, j, v1) := cycle dflt (length v) i i (nth i idx O) idx v in
       (upd_nth j j idx1, upd_nth j tmp v1).
(** All positions (src/H5VL_logi_dataspace.cpp:63-85). *)
Definition reorder {A} (dflt : A) (idx : list nat) (v : list A) : list A :=
  snd (fold_left (reorder_at dflt) (seq 0 (length v)) (idx, v)).
(** src/H5VL_logi_dataspace.cpp:54-86. *)
Definition sortblocks (order : list (list Z) -> list nat) (l : list entry) : list entry :=
  reorder ([], []) (order (map fst l)) l.

(** Grouping (dataspace.cpp:258-272): a new group starts where the end of a block is less than the
    start of the next one.  The arrays [group] and the loops over it are replaced by the list of
    groups. *)
Fixpoint sel_groups_from (cur : entry) (rest : list entry) : list (list entry) :=
  match rest with
  | [] => [[cur]]
  | i :: r =>
      if lessthan (snd cur) (fst i) then [cur] :: sel_groups_from i r
      else match sel_groups_from i r with
           | g :: gs => (cur :: g) :: gs
           | [] => [[cur]]
           end
  end.
(** src/H5VL_logi_dataspace.cpp:258-272. *)
Definition sel_groups (l : list entry) : list (list entry) :=
  match l with [] => [] | x :: r => sel_groups_from x r end.

(** Odometer (dataspace.cpp:343-351) over the dimensions before the last one, given from the last
    of them to the first. *)
Fixpoint carry (s hs he : list Z) : list Z :=
  match s, hs, he with
  | x :: ((y :: s') as t), a :: hs', b :: he' =>
      if b <? x then a :: carry (y + 1 :: s') hs' he' else x :: t
  | _, _, _ => s
  end.
(** src/H5VL_logi_dataspace.cpp:343-351. *)
Definition next_row (s hs he : list Z) : list Z :=
  match rev s with
  | x :: t => rev (carry (x + 1 :: t) (rev hs) (rev he))
  | [] => []
  end.
(** "The lowest dimension that we haven't reach the end" is before the last one (:330-334,:353-357). *)
Definition more_rows (s he : list Z) : bool := existsb (fun p => fst p <? snd p) (combine s he).
(** Breakdown of a block in rows (dataspace.cpp:322-359); [fuel] bounds the number of rows. *)
Fixpoint break_from (fuel : nat) (s hs he : list Z) : list (list Z) :=
  match fuel with
  | O => []
  | S f => s :: (if more_rows s he then break_from f (next_row s hs he) hs he else [])
  end.
(** All coordinates but the last (src/H5VL_logi_dataspace.cpp:322-359). *)
Definition outer (l : list Z) : list Z := removelast l.
(** The number of rows of a block (src/H5VL_logi_dataspace.cpp:275-296). *)
Definition n_rows (b : entry) : Z :=
  Zprod (map (fun p => snd p - fst p + 1) (combine (outer (fst b)) (outer (snd b)))).
(** src/H5VL_logi_dataspace.cpp:322-359. *)
Definition break_block (b : entry) : list entry :=
  let hs := outer (fst b) in let he := outer (snd b) in
  map (fun p => (p ++ [last (fst b) 0], map (fun _ => 1) p ++ [last (snd b) 0 - last (fst b) 0 + 1]))
      (break_from (Z.to_nat (n_rows b)) hs hs he).

(** dataspace.cpp:309-370. *)
Definition to_count (b : entry) : entry := (fst b, map (fun p => snd p - fst p + 1) (combine (fst b) (snd b))).
(** src/H5VL_logi_dataspace.cpp:309-370. *)
Definition group_sel (order : list (list Z) -> list nat) (ndim : nat) (g : list entry) : list entry :=
  match g with
  | [b] => [to_count b]
  | _ => merge_blocks false ndim (sortblocks order (flat_map break_block g))
  end.

(** The selection at an index (src/H5VL_logi_dataspace.hpp:17-50). *)
Definition to_block (e : entry) : block := mkblock (fst e) (snd e).

(** What the HDF5 library tells about a selection: H5Sget_select_type, and
    H5Sis_regular_hyperslab / H5Sget_regular_hyperslab (start, stride, count, block) and
    H5Sget_select_hyper_blocklist (starts and ends), or H5Sget_select_elem_pointlist.
    Called at src/H5VL_logi_dataspace.cpp:186-250. *)
Record regular := mkreg { r_start : list Z; r_stride : list Z; r_count : list Z; r_block : list Z }.
(** src/H5VL_logi_dataspace.cpp:165-437 distinguishes them. *)
Inductive h5sel :=
| HNone
| HAll
| HPoints (pts : list (list Z))
| HHyper (reg : option regular) (blocks : list entry).

(** src/H5VL_logi_dataspace.cpp:195-220. *)
Definition all_ones (l : list Z) : bool := forallb (fun x => x =? 1) l.
(** src/H5VL_logi_dataspace.cpp:195-220. *)
Definition as_one_block (r : regular) : option block :=
  if (all_ones (r_stride r) && all_ones (r_block r)) || all_ones (r_count r)
  then Some (mkblock (r_start r) (if all_ones (r_block r) then r_count r else r_block r))
  else None.

(** src/H5VL_logi_dataspace.cpp:222-367. *)
Definition norm_hyper (order : list (list Z) -> list nat) (ndim : nat) (l : list entry) : list entry :=
  flat_map (group_sel order ndim)
    (sel_groups (merge_blocks true ndim (sortblocks order (merge_blocks true ndim l)))).

(** src/H5VL_logi_dataspace.cpp:369-397. *)
Definition norm_points (order : list (list Z) -> list nat) (ndim : nat) (pts : list (list Z)) : list entry :=
  merge_blocks false ndim (map (fun p => (p, map (fun _ => 1) p))
    (map (fun i => nth i pts []) (order pts))).

(** H5VL_log_selections::H5VL_log_selections (hid_t) (dataspace.cpp:165-437) on an extent [dims].
    A hyperslab selection without any block makes merge_blocks return a block taken from memory
    that was never allocated. *)
Definition normalize (order : list (list Z) -> list nat) (dims : list Z) (s : h5sel) : res (list block) :=
  let ndim := length dims in
  match s with
  | HNone => Ok []
  | HAll => if Zprod dims =? 0 then Ok [] else Ok [mkblock (map (fun _ => 0) dims) dims]
  | HPoints pts => match pts with [] => Ok [] | _ => Ok (map to_block (norm_points order ndim pts)) end
  | HHyper reg blocks =>
      match match reg with Some r => as_one_block r | None => None end with
      | Some b => Ok [b]
      | None =>
          match blocks with
          | [] => UB
          | [b] => Ok [to_block (to_count b)]
          | _ => Ok (map to_block (norm_hyper order ndim blocks))
          end
      end
  end.

(** ** Packing and unpacking *)

(** H5VL_log_selections::get_mpi_type (dataspace.cpp:551-622): the byte displacements of the
    datatype, in type map order.  Sizes and coordinates are converted to [int]. *)
Definition sel_typemap (esize : Z) (dims : list Z) (sels : list block) : list Z :=
  flat_map (fun b => subarray 0 esize (map i32 dims) (map i32 (b_count b)) (map i32 (b_start b))) sels.

(** A memory dataspace: everything (H5S_ALL, H5S_BLOCK or an extent without selection), or a
    selection in an extent.  src/H5VL_log_dataseti.cpp:907-935. *)
Inductive mspace := MAll | MSel (dims : list Z) (s : h5sel).

(** The bytes handed to the write queue (src/H5VL_log_dataseti.cpp:907-952) for [n] elements of
    [esize] bytes, without datatype conversion.  MPI_Pack fails on a datatype larger than the
    buffer or on no datatype; a smaller one trips the assertion. *)
Definition pack_write (order : list (list Z) -> list nat) (esize n : Z) (ms : mspace) (mem : bytemap) (ubuf : Z) : res (list Z) :=
  match ms with
  | MAll => Ok (get mem ubuf (Z.to_nat (n * esize)))
  | MSel dims s =>
      do sels <- normalize order dims s;
      match sels with
      | [] => Err
      | _ => let tm := sel_typemap esize dims sels in
             if Zlen tm =? n * esize then Ok (map (fun a => mem (ubuf + a)) tm) else Err
      end
  end.

(** MPI_Unpack: bytes go to the displacements in type map order.
    Called at src/H5VL_logi_nb.cpp:498-516. *)
Definition scatter (mem : bytemap) (ubuf : Z) (tm bytes : list Z) : bytemap :=
  fold_left (fun m p => put m (ubuf + fst p) [snd p]) (combine tm bytes) mem.

(** Delivery of a completed read to the user's buffer (src/H5VL_logi_nb.cpp:498-516, and
    src/H5VL_log_dataseti.cpp:1098-1103 where the user's buffer is used directly), without
    datatype conversion.  The memory datatype is checked against the amount of data; an
    empty memory selection has no datatype and is treated as a contiguous buffer. *)
Definition unpack_read (order : list (list Z) -> list nat) (esize n : Z) (ms : mspace) (mem : bytemap) (ubuf : Z) (bytes : list Z) : res bytemap :=
  match ms with
  | MAll => Ok (put mem ubuf bytes)
  | MSel dims s =>
      do sels <- normalize order dims s;
      match sels with
      | [] => Ok (put mem ubuf bytes)
      | _ => let tm := sel_typemap esize dims sels in
             if Zlen tm <=? n * esize then Ok (scatter mem ubuf tm bytes) else Err
      end
  end.
