(** Reading the intersections found by the index: construction of the MPI datatypes
    (src/H5VL_log_dataseti.cpp:30-91 and :444-677), the MPI read, and the fill
    (src/H5VL_logi_nb.cpp:341-590). *)
From Verif Require Import Base Spec MetaModel QueueModel FlushModel IndexModel.

(** ** Order of intersections *)

(** Lexicographic part of operator< (src/H5VL_logi_idx.cpp:24-30). *)
Fixpoint lex_lt (a b : list Z) : bool :=
  match a, b with
  | x :: a', y :: b' => if x <? y then true else if y <? x then false else lex_lt a' b'
  | _, _ => false
  end.

(** foff + doff (src/H5VL_logi_idx.cpp:17-55). *)
Definition sr_key (s : sret) : Z := sr_foff s + sr_doff s.

(** H5VL_log_idx_search_ret_t::operator< (src/H5VL_logi_idx.cpp:17-33). *)
Definition sr_lt (a b : sret) : bool :=
  if sr_key a <? sr_key b then true
  else if sr_key b <? sr_key a then false
  else lex_lt (sr_dstart a) (sr_dstart b).

(** H5VL_log_idx_search_ret_t::operator> (src/H5VL_logi_idx.cpp:36-55); both branches of the C
    code test the same condition, so a smaller leading coordinate does not stop the loop. *)
Fixpoint ends_gt (sa ca sb cb : list Z) : bool :=
  match sa, ca, sb, cb with
  | a :: sa', x :: ca', b :: sb', y :: cb' =>
      if b + y <? a + x then true else ends_gt sa' ca' sb' cb'
  | _, _, _, _ => false
  end.
(** src/H5VL_logi_idx.cpp:36-55. *)
Definition sr_gt (a b : sret) : bool :=
  ends_gt (sr_dstart a) (sr_count a) (sr_dstart b) (sr_count b).

(** std::sort (blocks.begin (), blocks.end ()) of src/H5VL_log_dataseti.cpp:495 is any function
    [sort] returning a permutation in which no element is less than a preceding one. *)
Definition is_sort (sort : list sret -> list sret) : Prop :=
  forall l, Permutation l (sort l) /\ StronglySorted (fun a b => sr_lt b a = false) (sort l).

(** A concrete instance, used to run examples: insertion sort by a total order that extends
    operator< to coordinates of different lengths.  Called for at src/H5VL_log_dataseti.cpp:495. *)
Fixpoint lex_ltb (a b : list Z) : bool :=
  match a, b with
  | x :: a', y :: b' => if x <? y then true else if y <? x then false else lex_ltb a' b'
  | [], _ :: _ => true
  | _, [] => false
  end.
(** See [lex_ltb] (src/H5VL_logi_idx.cpp:17-33). *)
Definition sr_before (a b : sret) : bool :=
  if sr_key a <? sr_key b then true
  else if sr_key b <? sr_key a then false
  else lex_ltb (sr_dstart a) (sr_dstart b).
(** See [lex_ltb] (src/H5VL_log_dataseti.cpp:495). *)
Fixpoint insert_sr (x : sret) (l : list sret) : list sret :=
  match l with
  | [] => [x]
  | y :: t => if sr_before y x then y :: insert_sr x t else x :: y :: t
  end.
(** See [lex_ltb] (src/H5VL_log_dataseti.cpp:495). *)
Definition isort (l : list sret) : list sret := fold_right insert_sr [] l.

(** ** Grouping of interleaving intersections *)

(** interleve (src/H5VL_log_dataseti.cpp:30-42). *)
Fixpoint interleve (sa ca sb : list Z) : bool :=
  match sa, ca, sb with
  | a :: sa', x :: ca', b :: sb' =>
      if a + x - 1 <? b then false
      else if b <? a + x - 1 then true
      else interleve sa' ca' sb'
  | _, _, _ => true
  end.

(** Loop of :497-512, restructured to return the groups instead of the newgroup marks: [cur] is
    the current group in reverse, [j] the block the next one is compared with. *)
Fixpoint groups_from (cur : list sret) (j : sret) (rest : list sret) : list (list sret) :=
  match rest with
  | [] => [rev cur]
  | b :: rest' =>
      if (sr_foff j =? sr_foff b) && (sr_doff j =? sr_doff b) &&
         interleve (sr_dstart j) (sr_count j) (sr_dstart b)
      then groups_from (b :: cur) (if sr_gt b j then b else j) rest'
      else rev cur :: groups_from [b] b rest'
  end.
(** src/H5VL_log_dataseti.cpp:497-512. *)
Definition groups (l : list sret) : list (list sret) :=
  match l with [] => [] | b :: rest => groups_from [b] b rest end.

(** ** Rows of an interleaving block *)

(** Successor of the row counter (src/H5VL_log_dataseti.cpp:625-631).  Both lists are reversed:
    dimension ndim-2 first.  [rn] are the counts. *)
Fixpoint carry (rc rn : list Z) : list Z :=
  match rc, rn with
  | c :: ((c' :: t) as rest), n :: rn' =>
      if n <=? c then 0 :: carry (c' + 1 :: t) rn' else c :: carry rest rn'
  | _, _ => rc
  end.
(** src/H5VL_log_dataseti.cpp:625-631. *)
Definition ctr_next (rc rn : list Z) : list Z :=
  match rc with [] => [] | c :: t => carry (c + 1 :: t) rn end.

(** The counters visited by the loop, as coordinates of the leading ndim-1 dimensions.
    src/H5VL_log_dataseti.cpp:585-631. *)
Fixpoint ctr_loop (fuel : nat) (rc rn : list Z) : list (list Z) :=
  match fuel with
  | O => []
  | S f => if last rc 0 <? last rn 0 then rev rc :: ctr_loop f (ctr_next rc rn) rn else []
  end.
(** src/H5VL_log_dataseti.cpp:585-631. *)
Definition ctrs (counts : list Z) : list (list Z) :=
  match counts with
  | [] => [[]]                                   (* ndim == 0: not reached with 2 blocks *)
  | [c] => if 0 <? c then [[]] else []           (* break after the first row, :624 *)
  | _ => let rn := rev (removelast counts) in
         ctr_loop (S (Z.to_nat (Zprod rn))) (map (fun _ => 0) rn) rn
  end.

(** foffs / moffs of a row (:594-618): esize * sum of step * coordinate. *)
Definition lin (esize : Z) (size cord : list Z) : Z := esize * sel_encode (dsteps_of size) cord.
(** Sum of the block's start and the counter (src/H5VL_log_dataseti.cpp:594-618). *)
Fixpoint addv (a b : list Z) : list Z :=
  match a, b with
  | x :: a', y :: b' => x + y :: addv a' b'
  | _, [] => a
  | [], _ => []
  end.

(** A row: file offset, memory address, length (C int).  src/H5VL_log_dataseti.cpp:594-618. *)
Record row := mkrow { ro_f : Z; ro_m : Z; ro_len : Z }.
(** The rows of a block (src/H5VL_log_dataseti.cpp:585-631). *)
Definition rows_of (s : sret) : list row :=
  map (fun c =>
         mkrow (sr_key s + lin (sr_esize s) (sr_dsize s) (addv (sr_dstart s) c))
               (sr_xbuf s + lin (sr_esize s) (sr_msize s) (addv (sr_mstart s) c))
               (i32 (last (sr_count s) 1 * sr_esize s)))
      (ctrs (sr_count s)).

(** ** sortoffsets (src/H5VL_log_dataseti.cpp:56-91) *)

Definition swap {A} (i j : nat) (l : list A) : list A :=
  match nth_error l i, nth_error l j with
  | Some a, Some b => upd_nth j a (upd_nth i b l)
  | _, _ => l
  end.

(** One pass of the inner loop (:64-69): [a] is the element at position i. *)
Fixpoint bubble_from (a : row) (rest : list row) : list row * bool :=
  match rest with
  | [] => ([a], false)
  | b :: t =>
      if ro_f b <? ro_f a
      then (let '(t', _) := bubble_from a t in (b :: t', true))
      else (let '(t', s) := bubble_from b t in (a :: t', s))
  end.
(** src/H5VL_log_dataseti.cpp:62-70. *)
Definition bubble_pass (l : list row) : list row * bool :=
  match l with [] => ([], false) | a :: t => bubble_from a t end.
(** src/H5VL_log_dataseti.cpp:60-72. *)
Fixpoint bubble (fuel : nat) (l : list row) : list row :=
  match fuel with
  | O => l
  | S f => let '(l', s) := bubble_pass l in if s : bool then bubble f l' else l'
  end.

(** Partition loop of :78-84; [p] is the pivot position (last), [i] runs over the list. *)
Fixpoint partition_loop (n i j p : nat) (l : list row) : list row * nat :=
  match n with
  | O => (l, j)
  | S m =>
      match nth_error l i, nth_error l p with
      | Some a, Some b =>
          if ro_f a <? ro_f b
          then partition_loop m (S i) (S j) p (if (i =? j)%nat then l else swap i j l)
          else partition_loop m (S i) j p l
      | _, _ => (l, j)
      end
  end.

(** src/H5VL_log_dataseti.cpp:56-91. *)
Fixpoint sortoffsets (fuel : nat) (l : list row) : list row :=
  match fuel with
  | O => l
  | S f =>
      let len := length l in
      if (len <? 16)%nat then bubble (S len) l
      else
        let l1 := swap (len / 2) (len - 1) l in
        let p := (len - 1)%nat in
        let '(l2, j) := partition_loop len 0 0 p l1 in
        let l3 := swap p j l2 in
        sortoffsets f (firstn j l3) ++ firstn 1 (skipn j l3) ++ sortoffsets f (skipn (S j) l3)
  end.

(** ** Trimming of overlapping rows (src/H5VL_log_dataseti.cpp:637-656) *)
Record copyctx := mkctx { cx_dst : Z; cx_src : Z; cx_size : Z }.

(** The inner loop (src/H5VL_log_dataseti.cpp:637-656). *)
Fixpoint trim_later (k : row) (ls : list row) : list row * list copyctx :=
  match ls with
  | [] => ([], [])
  | l :: rest =>
      if ro_f l <? ro_f k + ro_len k then
        let size := Z.min (ro_len l) (ro_f k - ro_f l + ro_len k) in
        let '(rest', cs) := trim_later k rest in
        (mkrow (ro_f l + size) (ro_m l + size) (ro_len l - size) :: rest',
         mkctx (ro_m l) (ro_m k - size + ro_len k) size :: cs)
      else
        let '(rest', cs) := trim_later k rest in (l :: rest', cs)
  end.
(** src/H5VL_log_dataseti.cpp:637-656. *)
Fixpoint trim (fuel : nat) (rs : list row) : list row * list copyctx :=
  match fuel, rs with
  | S f, k :: rest =>
      let '(rest', cs) := trim_later k rest in
      let '(rest'', cs') := trim f rest' in
      (k :: rest'', cs ++ cs')
  | _, _ => (rs, [])
  end.

(** ** The datatypes *)

(** One member of the struct types ftype / mtype: the two lists of byte addresses of its type
    map, in type map order.  src/H5VL_log_dataseti.cpp:536-677. *)
Definition byte_range (off len : Z) : list Z := map (fun i => off + i) (zseq len).

(** MPI_Type_create_subarray (ndim, sizes, subsizes, starts, MPI_ORDER_C, etype) at [disp].
    src/H5VL_log_dataseti.cpp:536-583. *)
Definition subarray (disp esize : Z) (sizes subsizes starts : list Z) : list Z :=
  flat_map (fun c => byte_range (disp + lin esize sizes c) esize) (coords_of starts subsizes).

(** Type map pairs (file byte, memory byte) of a single block (:536-583) and of a group
    (:585-658). *)
Definition single_pairs (s : sret) : list (Z * Z) :=
  combine (subarray (sr_key s) (sr_esize s) (sr_dsize s) (sr_count s) (sr_dstart s))
          (subarray (sr_xbuf s) (sr_esize s) (sr_msize s) (sr_count s) (sr_mstart s)).
(** src/H5VL_log_dataseti.cpp:585-658. *)
Definition row_pairs (r : row) : list (Z * Z) :=
  combine (byte_range (ro_f r) (ro_len r)) (byte_range (ro_m r) (ro_len r)).

(** src/H5VL_log_dataseti.cpp:520-658. *)
Definition group_rtype (g : list sret) : list (Z * Z) * list copyctx :=
  match g with
  | [s] => (single_pairs s, [])
  | _ => let rs := flat_map rows_of g in
         let '(rs', cs) := trim (length rs) (sortoffsets (S (length rs)) rs) in
         (flat_map row_pairs rs', cs)
  end.

(** H5VL_log_dataset_readi_gen_rtypes (src/H5VL_log_dataseti.cpp:444-677). *)
Definition gen_rtypes (sort : list sret -> list sret) (blocks : list sret)
  : list (Z * Z) * list copyctx :=
  let gs := map group_rtype (groups (sort blocks)) in
  (flat_map fst gs, flat_map snd gs).

(** MPI_File_read_at_all with file view ftype and memory type mtype (nb.cpp:405-412): the
    i-th byte of the file type map is delivered to the i-th byte of the memory type map, in
    type map order.  (Trusted: MPI leaves the order unspecified when entries overlap.) *)
Definition mpi_read (file mem : bytemap) (ps : list (Z * Z)) : bytemap :=
  fold_left (fun m p => put m (snd p) [file (fst p)]) ps mem.

(** memcpy of the overlaps (nb.cpp:421). *)
Definition do_copies (mem : bytemap) (cs : list copyctx) : bytemap :=
  fold_left (fun m c => put m (cx_dst c) (get m (cx_src c) (Z.to_nat (cx_size c)))) cs mem.

(** src/H5VL_logi_nb.cpp:341-425. *)
Definition perform_read (sort : list sret -> list sret) (file mem : bytemap) (blocks : list sret)
  : bytemap :=
  let '(ps, cs) := gen_rtypes sort blocks in
  do_copies (mpi_read file mem ps) cs.

(** Fill of the request buffers (src/H5VL_logi_nb.cpp:533-541). *)
Definition rq_bytes (r : rreq) : Z := sel_size (rq_sels r) * rq_esize r.
(** src/H5VL_logi_nb.cpp:533-541. *)
Definition fill_req (infos : list (option dinfo)) (mem : bytemap) (r : rreq) : bytemap :=
  match info_at infos (rq_did r) with
  | Some (Some dip) =>
      match di_fill dip with
      | Some f =>
          fold_left (fun m i => put m (rq_xbuf r + i * rq_esize r) f)
                    (zseq (sel_size (rq_sels r))) mem
      | None => mem
      end
  | _ => mem
  end.
