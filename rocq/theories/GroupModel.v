(** Model of the division of processes into groups sharing a subfile:
    H5VL_log_filei_calc_node_rank (src/H5VL_log_filei.cpp:943-1016), and the number of groups it
    starts from when a file is created (:434-469, :230-241, :281-287) and opened (:128-152). *)
From Verif Require Import Base.

(** Colour given to MPI_Comm_split (filei.cpp:962-964), computed in C int. *)
Definition in_int (z : Z) : bool := (- 2 ^ 31 <=? z) && (z <? 2 ^ 31).
(** src/H5VL_log_filei.cpp:962-964. *)
Definition color (np ng : Z) (rank : nat) : res Z :=
  let m := Z.of_nat rank * ng in
  if in_int m then Ok (Z.quot m np) else UB.

(** MPI_Comm_split with the rank as key, and MPI_Comm_split_type with key 0 (filei.cpp:962-968): the
    processes of one colour form a communicator in the order of their ranks.  For the split by
    node the colours are the nodes, an arbitrary function.  MPI_Comm_rank, MPI_Comm_size
    (filei.cpp:971-974). *)
Definition count (f : nat -> bool) (l : list nat) : nat := length (filter f l).
(** Members of the same group (src/H5VL_log_filei.cpp:962-974). *)
Definition same (c : nat -> Z) (r i : nat) : bool := Z.eqb (c i) (c r).
(** fp->group_rank (src/H5VL_log_filei.cpp:971-974). *)
Definition group_rank (c : nat -> Z) (r : nat) : nat := count (same c r) (seq 0 r).
(** fp->group_np (src/H5VL_log_filei.cpp:971-974). *)
Definition group_np (np : nat) (c : nat -> Z) (r : nat) : nat := count (same c r) (seq 0 np).

(** MPI_Allgather of the group ranks (filei.cpp:976). *)
Definition group_ranks (np : nat) (c : nat -> Z) : list nat := map (group_rank c) (seq 0 np).
(** The number of roots in a list of group ranks (src/H5VL_log_filei.cpp:979-987). *)
Definition zeros (l : list nat) : nat := count (Nat.eqb 0) l.
(** The loop counting earlier group roots, and the one counting the others (filei.cpp:979-987). *)
Definition own_id (np : nat) (c : nat -> Z) (r : nat) : nat := zeros (firstn r (group_ranks np c)).
(** src/H5VL_log_filei.cpp:979-987. *)
Definition ngroup (np : nat) (c : nat -> Z) (r : nat) : nat := (own_id np c r + zeros (skipn r (group_ranks np c)))%nat.
(** The member of the group with group rank 0.  src/H5VL_log_filei.cpp:988. *)
Definition root (np : nat) (c : nat -> Z) (r : nat) : nat :=
  match find (fun i => same c r i && (group_rank c i =? 0)%nat) (seq 0 np) with Some i => i | None => r end.
(** MPI_Bcast of the number from the group root (filei.cpp:988). *)
Definition group_id (np : nat) (c : nat -> Z) (r : nat) : nat := own_id np c (root np c r).

(** Aligned layout (filei.cpp:991-1015): the storage target, and the searches for the previous and
    the next process writing to it.  The searches count down from the stripe count. *)
Definition target_ost (np : nat) (c : nat -> Z) (scount r : nat) : nat := Nat.modulo (group_id np c r) scount.
(** The search loops (src/H5VL_log_filei.cpp:991-1015). *)
Fixpoint nth_zero (gr : list nat) (ranks : list nat) (j : nat) : option nat :=
  match ranks with
  | [] => None
  | i :: t => if (nth i gr 1 =? 0)%nat
              then match j with
                   | S O => Some i
                   | O => nth_zero gr t O (* j becomes negative and never reaches 0 *)
                   | S j' => nth_zero gr t j'
                   end
              else nth_zero gr t j
  end%nat.
(** fp->prev_rank (src/H5VL_log_filei.cpp:991-1015). *)
Definition prev_rank (np : nat) (c : nat -> Z) (scount r : nat) : option nat :=
  nth_zero (group_ranks np c) (rev (seq 0 r)) scount.
(** fp->next_rank (src/H5VL_log_filei.cpp:991-1015). *)
Definition next_rank (np : nat) (c : nat -> Z) (scount r : nat) : option nat :=
  nth_zero (group_ranks np c) (seq (S r) (np - S r)) scount.

(** The colours used when the number of groups is positive.  src/H5VL_log_filei.cpp:962-964. *)
Definition colors (np ng : Z) (rank : nat) : Z := match color np ng rank with Ok z => z | _ => 0 end.

(** The number of groups a file is opened with (filei.cpp:133-134): the word of the attribute holding
    the settings.  The attribute written at creation is [ndset; nldset; nmdset; config; ngroup]
    (filei.cpp:281-285). *)
Definition create_att (config : Z) (ng : Z) : list Z := [0; 0; 0; config; ng].
(** src/H5VL_log_filei.cpp:132-134. *)
Definition open_config (att : list Z) : Z := nth 3 att 0.
(** src/H5VL_log_filei.cpp:132-134. *)
Definition open_ngroup (att : list Z) : Z := nth 3 att 0.
