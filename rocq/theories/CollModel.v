(** Which collective operations the processes of a file enter.

    A process is a program that issues collective operations and continues with their results.
    The operations of the API calls are taken from the code in order; what they compute is the
    subject of the other models.  Left out: dataset and group creation and attribute writes by the
    user's calls (passed on unchanged to the underlying VOL by every process), the path of a log
    dataset without a file address (nb.cpp:756-786), the aligned write path, reads with subfiling,
    and the reading of metadata by H5VL_log_filei_metaupdate (independent unless fp->dxplid is
    collective). *)
From Verif Require Import Base.

(** The two communicators of a file: fp->comm and fp->group_comm (src/H5VL_log_file.hpp).  Without
    subfiling they are the same, and every process is in group 0.  src/H5VL_log_file.hpp:39-133. *)
Inductive comm := World | Group.

(** Collective operations: MPI_Allreduce with sum or maximum of [n] values, MPI_Exscan, MPI_Gather
    and MPI_Scatter with root 0, MPI_Barrier, H5VLdataset_create, MPI_File_write_at_all (or a
    collective write of the underlying VOL), H5VLdataset_close, MPI_File_set_view,
    MPI_File_read_at_all, H5VL_logi_put_att, MPI_File_close and H5VLfile_close.
    src/H5VL_logi_nb.cpp:522-894, src/H5VL_log_filei_meta.cpp:49-320 and
    src/H5VL_log_filei.cpp:669-842 enter them. *)
Inductive cop :=
| Sum (n : nat) | Max (n : nat) | Exscan | Gather | Scatter | Barrier
| Create | WriteAll | CloseDset | SetView | ReadAll | PutAttr | CloseFile.

(** A process: finished, or about to enter an operation with its value and what it does with the
    result (model of MPI, no code of /repo). *)
Inductive prog :=
| Ret
| Coll (c : comm) (o : cop) (v : list Z) (k : list Z -> prog).

(** ** Execution *)

(** Members of a communicator among [n] processes; [grp] gives the group of a process.
    The communicators are made at src/H5VL_log_filei.cpp:943-974. *)
Definition comm_id := option nat.
(** The communicator in the sense of [comm] (src/H5VL_log_filei.cpp:943-974). *)
Definition cm (c : comm_id) : comm := match c with None => World | Some _ => Group end.
(** Is process [i] a member (src/H5VL_log_filei.cpp:943-974). *)
Definition inc (grp : nat -> nat) (c : comm_id) (i : nat) : bool :=
  match c with None => true | Some g => (grp i =? g)%nat end.
(** Its members in rank order (src/H5VL_log_filei.cpp:943-974). *)
Definition members (grp : nat -> nat) (n : nat) (c : comm_id) : list nat :=
  filter (inc grp c) (seq 0 n).

(** The value handed to the operation a process is at (MPI, no code of /repo). *)
Definition val (p : prog) : list Z := match p with Coll _ _ v _ => v | Ret => [] end.
(** The process after its operation (MPI, no code of /repo). *)
Definition next (p : prog) (r : list Z) : prog := match p with Coll _ _ _ k => k r | Ret => Ret end.
(** The operation a process is at (MPI, no code of /repo). *)
Definition at_op (p : prog) (c : comm) (o : cop) : Prop := exists v k, p = Coll c o v k.

(** The [j]-th value of every member (MPI, no code of /repo). *)
Definition col (vs : list (list Z)) (j : nat) : list Z := map (fun v => nth j v 0) vs.

(** Result for the member at position [pos] of the communicator, given the values of all members in
    rank order.  MPI and the underlying library, no code of /repo. *)
Definition result (o : cop) (vs : list (list Z)) (pos : nat) : list Z :=
  match o with
  | Sum n => map (fun j => Zsum (col vs j)) (seq 0 n)
  | Max n => map (fun j => fold_right Z.max 0 (col vs j)) (seq 0 n)
  | Exscan => [Zsum (firstn pos (col vs 0))]
  | Gather => if (pos =? 0)%nat then col vs 0 else []
  | Scatter => firstn 2 (skipn (2 * pos) (hd [] vs))
  | _ => []
  end.

(** The values of all members in rank order (MPI, no code of /repo). *)
Definition vals (grp : nat -> nat) (ps : list prog) (c : comm_id) : list (list Z) :=
  map (fun i => val (nth i ps Ret)) (members grp (length ps) c).
(** The rank of a process within the communicator (MPI, no code of /repo). *)
Definition position (grp : nat -> nat) (c : comm_id) (i : nat) : nat :=
  length (members grp i c).

(** All members of [c] are at operation [o] on it.  MPI, no code of /repo. *)
Definition ready (grp : nat -> nat) (c : comm_id) (o : cop) (ps : list prog) : Prop :=
  members grp (length ps) c <> [] /\
  forall i, In i (members grp (length ps) c) -> at_op (nth i ps Ret) (cm c) o.
(** The processes after the operation (MPI, no code of /repo). *)
Definition advance (grp : nat -> nat) (c : comm_id) (o : cop) (ps : list prog) : list prog :=
  map (fun i => let p := nth i ps Ret in
                if inc grp c i then next p (result o (vals grp ps c) (position grp c i)) else p)
      (seq 0 (length ps)).
(** Some operation that all its members have reached takes place; which one is free (MPI, no code of
    /repo). *)
Definition step (grp : nat -> nat) (ps ps' : list prog) : Prop :=
  exists c o, ready grp c o ps /\ ps' = advance grp c o ps.

(** ** The code *)

(** What a process knows of the file: number of requests not yet in the log (queued or merged),
    their data bytes, bytes of metadata entries not yet written, number of queued reads and
    whether one of them meets a logged block, the flag metadirty.  src/H5VL_log_file.hpp:39-133. *)
Record local := mklocal {
  l_pending : Z; l_bytes : Z; l_meta : Z; l_reads : Z; l_hits : bool; l_dirty : bool }.
(** A process that has just opened the file (src/H5VL_log_filei.cpp:1086-1100). *)
Definition local0 : local := mklocal 0 0 0 0 false false.

(** Constants of a run: subfiling, pass-through, and whether blocking reads flush pending writes
    (collective fp->dxplid or one process).
    src/H5VL_log_dataseti.cpp:1124-1133, src/H5VL_logi_nb.cpp:545-548. *)
Record rconf := mkrconf { r_sub : bool; r_pass : bool; r_coll : bool }.

(** H5VL_log_nb_flush_write_reqs (src/H5VL_logi_nb.cpp:592-894): the sizes (:695-716), and if there
    is anything to write in the group, the log dataset (:720-847). *)
Definition flush_writes (cf : rconf) (l : local) (k : local -> prog) : prog :=
  Coll World (Sum 1) [l_bytes l] (fun all =>
  Coll World Exscan [l_bytes l] (fun _ =>
  let rest (fsize_group : Z) :=
    if hd 0 all =? 0 then k l
    else if fsize_group =? 0
    then k (mklocal (l_pending l) (l_bytes l) (l_meta l) (l_reads l) (l_hits l) true)
    else Coll Group Create [] (fun _ =>
         Coll Group WriteAll [] (fun _ =>
         Coll Group CloseDset [] (fun _ =>
         k (mklocal 0 0 (l_meta l) (l_reads l) (l_hits l) true)))) in
  if r_sub cf
  then Coll Group (Sum 1) [l_bytes l] (fun g =>
       Coll Group Exscan [l_bytes l] (fun _ => rest (hd 0 g)))
  else rest (hd 0 all))).

(** H5VL_log_filei_metaflush (src/H5VL_log_filei_meta.cpp:49-320).  [root] is group_rank == 0, [np]
    is group_np: the root adds a table of np + 1 words, gathers the sizes, and scatters the offset
    of each process and the total size. *)
Fixpoint running (acc : Z) (l : list Z) : list Z :=
  match l with [] => [] | x :: t => acc :: running (acc + x) t end.
(** [k] is what the process does afterwards (src/H5VL_log_filei_meta.cpp:49-320). *)
Definition metaflush (np : Z) (root : bool) (l : local) (k : local -> prog) : prog :=
  let table := 8 * (np + 1) in
  let mdsize := (if root then table else 0) + l_meta l in
  Coll Group Gather [mdsize] (fun sizes =>
  let total := Zsum sizes in
  Coll Group Scatter (if root then flat_map (fun o => [o; total]) (running 0 sizes) else []) (fun rbuf =>
  let l' := mklocal 0 0 0 (l_reads l) (l_hits l) false in
  if table <? nth 1 rbuf 0
  then Coll Group Create [] (fun _ =>
       Coll Group WriteAll [] (fun _ =>
       Coll Group CloseDset [] (fun _ =>
       Coll World Barrier [] (fun _ => k l'))))
  else k l')).

(** H5VL_log_nb_perform_read (src/H5VL_logi_nb.cpp:341-425); [hits]: the search finds something. *)
Definition perform_read (cf : rconf) (np : Z) (root hits : bool) (l : local) (k : local -> prog) : prog :=
  let body l :=
    if r_pass cf then k l
    else if hits
    then Coll Group SetView [] (fun _ => Coll Group ReadAll [] (fun _ => Coll Group SetView [] (fun _ => k l)))
    else Coll Group ReadAll [] (fun _ => k l) in
  if l_dirty l then metaflush np root l body else body l.

(** API calls of one process.  A write has a selection of [nsel] blocks, [bytes] of data and
    [meta] bytes of metadata.
    They are the functions cited at [exec], src/H5VL_log_dataseti.cpp:787-1141. *)
Inductive call :=
| CWrite (nsel bytes meta : Z)          (* H5Dwrite *)
| CRead (nsel : Z) (hits : bool)        (* blocking H5Dread *)
| CReadLater (nsel : Z) (hits : bool)   (* buffered H5Dread *)
| CFlush                                (* H5Fflush *)
| CClose (rdonly : bool).               (* H5Fclose *)

(** H5VL_log_dataseti_write (src/H5VL_log_dataseti.cpp:787-1022), H5VL_log_dataseti_read (:1034-1141),
    H5VL_log_filei_flush (src/H5VL_log_filei.cpp:668-689), H5VL_log_filei_close (:715-845). *)
Definition exec (cf : rconf) (np : Z) (root : bool) (c : call) (l : local) (k : local -> prog) : prog :=
  match c with
  | CWrite nsel bytes meta =>
      if nsel =? 0 then k l
      else k (mklocal (l_pending l + 1) (l_bytes l + bytes) (l_meta l + meta) (l_reads l) (l_hits l) (l_dirty l))
  | CRead nsel hits =>
      if nsel =? 0 then k l
      else if r_coll cf
      then Coll World (Max 1) [l_pending l] (fun m =>
           if 0 <? hd 0 m then flush_writes cf l (fun l' => perform_read cf np root hits l' k)
           else perform_read cf np root hits l k)
      else perform_read cf np root hits l k
  | CReadLater nsel hits =>
      if nsel =? 0 then k l
      else k (mklocal (l_pending l) (l_bytes l) (l_meta l) (l_reads l + 1) (l_hits l || hits) (l_dirty l))
  | CFlush =>
      Coll World (Max 2) [l_pending l; l_reads l] (fun m =>
      let reads l :=
        if 0 <? nth 1 m 0
        then perform_read cf np root (l_hits l) l
               (fun l => k (mklocal (l_pending l) (l_bytes l) (l_meta l) 0 false (l_dirty l)))
        else k l in
      if 0 <? nth 0 m 0 then flush_writes cf l reads else reads l)
  | CClose rdonly =>
      let close l := Coll Group CloseFile [] (fun _ => Coll World CloseFile [] (fun _ => k l)) in
      let attr l := Coll World PutAttr [] (fun _ => close l) in
      if rdonly then close l
      else flush_writes cf l (fun l => metaflush np root l (fun l =>
           if r_sub cf then Coll Group PutAttr [] (fun _ => attr l) else attr l))
  end.
(** The calls of a process one after the other: driver of the model over [exec]
    (src/H5VL_log_dataseti.cpp:787-1141). *)
Fixpoint process (cf : rconf) (np : Z) (root : bool) (cs : list call) (l : local) : prog :=
  match cs with
  | [] => Ret
  | c :: rest => exec cf np root c l (process cf np root rest)
  end.

(** The processes of a file: [np] is the size of the group, root the first member of the group.
    src/H5VL_log_filei.cpp:971-988. *)
Definition world (cf : rconf) (grp : nat -> nat) (progs : list (list call)) : list prog :=
  map (fun i => process cf (Z.of_nat (length (members grp (length progs) (Some (grp i)))))
                        (position grp (Some (grp i)) i =? 0)%nat (nth i progs []) local0)
      (seq 0 (length progs)).
