(** The stripe-aligned write path: H5VL_log_nb_ost_write and
    H5VL_log_nb_flush_write_reqs_align (src/H5VL_logi_nb.cpp:896-1113).  The creation of the log
    dataset and merged requests are not modelled; offsets are exact integers. *)
From Verif Require Import Base.

(** State of H5VL_log_nb_ost_write: position of the file descriptor, skip_size, the bytes in the
    stripe buffer from bs + skip_size to bp, and the writes done so far (position, bytes).
    src/H5VL_logi_nb.cpp:908-938. *)
Record ost := mkost { o_pos : Z; o_skip : Z; o_fill : list Z; o_out : list (Z * list Z) }.

(** The loop over the bytes of one memory segment (:940-967).  After a stripe is written the
    descriptor is moved forward by [stride] from the end of the stripe (:954).  Each iteration but
    the last flushes at least one byte: [fuel] is the length of the segment plus one. *)
Fixpoint ost_feed (ssize stride : Z) (fuel : nat) (st : ost) (seg : list Z) : ost :=
  match fuel with
  | O => st
  | S f =>
      match seg with
      | [] => st
      | _ =>
          let room := ssize - o_skip st - Zlen (o_fill st) in
          if room <=? Zlen seg then
            let bytes := o_fill st ++ firstn (Z.to_nat room) seg in
            ost_feed ssize stride f
              (mkost (o_pos st + Zlen bytes + stride) 0 [] (o_out st ++ [(o_pos st, bytes)]))
              (skipn (Z.to_nat room) seg)
          else mkost (o_pos st) (o_skip st) (o_fill st ++ seg) (o_out st)
      end
  end.

(** H5VL_log_nb_ost_write (:908-974): the writes of one process whose data [segs] starts at
    logical offset [off] of storage target [target]. *)
Definition ost_start (ssize scount target doff off : Z) : Z :=
  doff + ssize * target + off / ssize * (ssize * scount) + off mod ssize.
(** All segments, then the rest in the stripe buffer (src/H5VL_logi_nb.cpp:908-974). *)
Definition ost_write (ssize scount target doff off : Z) (segs : list (list Z)) : list (Z * list Z) :=
  let st0 := mkost (ost_start ssize scount target doff off) (off mod ssize) [] [] in
  let st := fold_left (fun st seg => ost_feed ssize (ssize * scount) (S (length seg)) st seg) segs st0 in
  match o_fill st with
  | [] => o_out st                                                     (* :970 *)
  | _ => o_out st ++ [(o_pos st, o_fill st)]
  end.

(** File offsets recorded for the requests of one process (:1012-1013, :1094): the offset among the
    requests of the process plus the logical offset of the process. *)
Fixpoint align_recorded (off : Z) (segs : list (list Z)) : list Z :=
  match segs with
  | [] => []
  | s :: r => off :: align_recorded (off + Zlen s) r
  end.

(** Logical offsets of the processes writing to one storage target (:1065-1091): [nodes] are the
    groups sharing it, in the order of the chain prev_rank / next_rank, each with the number of bytes
    of its processes.  The first process of a group receives [fbase]; MPI_Exscan adds it to the later
    ones; the sum sent to the next group (:1085) does not contain it. *)
Fixpoint group_offs (base : Z) (sizes : list Z) : list Z :=
  match sizes with [] => [] | x :: t => base :: group_offs (base + x) t end.
(** The groups one after the other (src/H5VL_logi_nb.cpp:1065-1091). *)
Fixpoint chain_offs (fbase : Z) (nodes : list (list Z)) : list (list Z) :=
  match nodes with
  | [] => []
  | sizes :: rest => group_offs fbase sizes :: chain_offs (Zsum sizes) rest
  end.
