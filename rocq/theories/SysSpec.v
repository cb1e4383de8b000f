(** Specification of a file used by several processes, and the histories it is stated for.

    [sstep] says what a user observes, with no log, metadata or index.  [ok_op] lists the
    restrictions under which the connector is shown to implement it; each restriction that
    excludes a legal use of the API is the subject of a refutation elsewhere. *)
From Verif Require Import Base Spec MetaModel QueueModel FlushModel IndexModel ReadModel SysModel.

(** ** What the user observes *)

(** A write issued and not flushed yet. *)
Record pwrite := mkpw { pw_did : Z; pw_sels : list block; pw_data : list Z }.

(** Datasets in creation order, values that are flushed, unflushed writes of each process. *)
Record sstate := mkss { ss_sets : list dinfo; ss_store : store; ss_pend : list (list pwrite) }.

Definition set_of (s : sstate) (did : Z) : option dinfo :=
  if did <? 0 then None else nth_error (ss_sets s) (Z.to_nat did).
Definition esize_in (sets : list dinfo) (did : Z) : Z :=
  match nth_error sets (Z.to_nat did) with Some d => di_esize d | None => 0 end.

Definition apply_write (sets : list dinfo) (st : store) (w : pwrite) : store :=
  spec_write st (pw_did w) (pw_sels w) (elems (esize_in sets (pw_did w)) (pw_data w)).

(** Flushing: rank by rank, each rank in program order. *)
Definition sflush (s : sstate) : sstate :=
  mkss (ss_sets s) (fold_left (apply_write (ss_sets s)) (concat (ss_pend s)) (ss_store s))
       (map (fun _ => []) (ss_pend s)).

(** What the elements of a read that were never written return: the fill value, or the former
    content of the buffer. *)
Definition read_dflt (d : dinfo) (c : rcall) : list value :=
  map (fun j => match di_fill d with
                | Some f => f
                | None => get (rc_mem c) (rc_buf c + di_esize d * j) (Z.to_nat (di_esize d))
                end)
      (zseq (sel_size (rc_sels c))).

Definition sread (s : sstate) (c : rcall) : list Z :=
  match set_of s (rc_did c) with
  | Some d => concat (spec_read (ss_store s) (rc_did c) (rc_sels c) (read_dflt d c))
  | None => []
  end.

Definition resize (d : dinfo) (dims : list Z) : dinfo :=
  mkdinfo (di_esize d) dims (di_mdims d) (di_dsteps d) (di_fill d).

Definition sstep (coll : bool) (s : sstate) (o : op) : sstate * list (list Z) :=
  match o with
  | OCreate d => (mkss (ss_sets s ++ [d]) (ss_store s) (ss_pend s), [])
  | OSetExtent did dims =>
      (match set_of s did with
       | Some d => mkss (upd_nth (Z.to_nat did) (resize d dims) (ss_sets s)) (ss_store s) (ss_pend s)
       | None => s
       end, [])
  | OWrite rk did sels data =>
      (match sels with
       | [] => s
       | _ => mkss (ss_sets s) (ss_store s)
                   (upd_nth rk (nth rk (ss_pend s) [] ++ [mkpw did sels data]) (ss_pend s))
       end, [])
  | OFlush _ => (sflush s, [])
  | ORead _ calls =>
      let s' := if coll then sflush s else s in
      (s', map (sread s') calls)
  | OReopen _ np =>
      (mkss (ss_sets s) (ss_store (sflush s)) (repeat [] np), [])
  end.

Fixpoint srun (coll : bool) (s : sstate) (ops : list op) : sstate * list (list (list Z)) :=
  match ops with
  | [] => (s, [])
  | o :: rest =>
      let '(s', out) := sstep coll s o in
      let '(s'', outs) := srun coll s' rest in (s'', out :: outs)
  end.

Definition sinit (np : nat) : sstate := mkss [] empty_store (repeat [] np).

(** ** Histories *)

(** Conventions of a history, for multi-block writes.  [c_rec nd n]: whether its writes of [n]
    blocks to datasets of [nd] dimensions are record writes (all blocks lie in one index of the
    unlimited dimension); [c_esize s]: the element size of the datasets written with selection
    [s] (for record writes: without the record).  They matter only when metadata is shared.
    That a history has such conventions says that no two of its writes that could be taken for
    each other differ in kind or element size. *)
Record conv := mkconv { c_rec : nat -> nat -> bool; c_esize : list block -> Z }.

Definition multi (sels : list block) : bool := (1 <? length sels)%nat.
Definition has_unlimited (d : dinfo) : bool :=
  match di_mdims d with m0 :: _ => m0 =? UNLIMITED | [] => false end.

(** A block of a dataset of [nd] dimensions; the offsets fit the file format, the sizes fit the
    int of the MPI calls. *)
Definition blk_fits (nd : nat) (b : block) : Prop :=
  length (b_start b) = nd /\ length (b_count b) = nd /\
  Forall (fun x => 0 <= x < 2 ^ 62) (b_start b) /\ Forall (fun x => 0 < x < 2 ^ 31) (b_count b).

(** Corners are encodable: every inner coordinate is smaller than the dimension. *)
Definition encodable (dims : list Z) (c : list Z) : Prop :=
  Forall2 (fun d x => x < d) (tl dims) (tl c) /\ sel_encode (dsteps_of dims) c < 2 ^ 63.
Definition blk_encodable (dims : list Z) (b : block) : Prop :=
  encodable dims (b_start b) /\ encodable dims (b_count b).

Definition drop1 (b : block) : block := mkblock (tl (b_start b)) (tl (b_count b)).

(** Metadata size of one write in bytes, from above. *)
Definition meta_bound (nd nsel : Z) : Z := 40 + 8 * nd * (1 + 2 * nsel) + 16 * nsel.

(** Ghost state of a history: end of the log so far, and the selections each process wrote. *)
Record hstate := mkhs { hs_hi : Z; hs_seen : list (list (list block)) }.

Definition pend_bytes (s : sstate) : Z := Zsum (map (fun w => Zlen (pw_data w)) (concat (ss_pend s))).

Section Ok.
Context (e : env) (cfg : Z) (cv : conv).

Definition ok_create (d : dinfo) : Prop :=
  0 < di_esize d /\ length (di_mdims d) = length (di_dims d) /\
  (has cfg CFG_SEL_ENCODE = true -> di_dims d <> []) /\
  match di_fill d with Some f => Zlen f = di_esize d | None => True end.

Definition ok_extent (s : sstate) (did : Z) (dims : list Z) : Prop :=
  exists d, set_of s did = Some d /\ length dims = di_ndim d /\
    Forall2 (fun n m => m = UNLIMITED \/ n <= m) dims (di_mdims d).

Definition ok_write (s : sstate) (h : hstate) (rk : nat) (did : Z) (sels : list block) (data : list Z)
  : Prop :=
  exists seen, nth_error (hs_seen h) rk = Some seen /\
  (sels <> [] -> exists d, set_of s did = Some d /\ did < 2 ^ 31 /\
    Forall (blk_fits (di_ndim d)) sels /\
    Zlen data = di_esize d * sel_size sels /\
    meta_bound (Z.of_nat (di_ndim d)) (Zlen sels) < 2 ^ 31 /\
    (* encoded selections: src/H5VL_logi_util.hpp:87-104 *)
    (has cfg CFG_SEL_ENCODE = true -> multi sels = true ->
     let dims := if is_rec d sels then tl (di_dims d) else di_dims d in
     (1 < length dims)%nat ->
     Forall (fun x => 0 <= x < 2 ^ 63) (dsteps_of dims) /\
     Forall (fun b => blk_encodable dims (if is_rec d sels then drop1 b else b)) sels) /\
    (* shared selections *)
    (has cfg CFG_METADATA_SHARE = true ->
     (has cfg CFG_SEL_ENCODE = true -> multi sels = true ->
      is_rec d sels = c_rec cv (di_ndim d) (length sels)) /\
     (e_kind e = KArray -> multi sels = true ->
      di_esize d = c_esize cv (if is_rec d sels then map drop1 sels else sels)) /\
     (e_kind e = KCompact -> is_rec d sels = true -> ~ In sels seen)) /\
    (* records of the compact index *)
    (e_kind e = KCompact -> has_unlimited d = true ->
     Forall (fun b => hd 0 (b_start b) < 2 ^ 31) sels)).

Definition ok_flush (s : sstate) (h : hstate) (doff : Z) : Prop :=
  pend_bytes s <> 0 -> hs_hi h <= doff /\ doff + pend_bytes s < 2 ^ 63.

Definition ok_call (s : sstate) (c : rcall) : Prop :=
  rc_sels c <> [] /\
  exists d, set_of s (rc_did c) = Some d /\
    Forall (blk_fits (di_ndim d)) (rc_sels c) /\
    Forall (fun b => last (b_count b) 1 * di_esize d < 2 ^ 31) (rc_sels c) /\
    ForallOrdPairs disjoint_blocks (rc_sels c) /\
    (e_kind e = KCompact -> has_unlimited d = true ->
     Forall (fun b => hd 0 (b_start b) < 2 ^ 31) (rc_sels c)).

Definition ok_read (s : sstate) (h : hstate) (doff : Z) (calls : list rcall) : Prop :=
  (if e_coll e then ok_flush s h doff else concat (ss_pend s) = []) /\
  (* a bounded metadata buffer cannot read a file without metadata *)
  (e_limit e <> None -> hs_hi h <> 0 \/ concat (ss_pend s) <> []) /\
  calls <> [] /\ Forall (ok_call s) calls.

Definition ok_reopen (s : sstate) (h : hstate) (doff : Z) (np : nat) : Prop :=
  (0 < np)%nat /\ Z.of_nat np < 2 ^ 31 /\ ok_flush s h doff.

Definition ok_op (s : sstate) (h : hstate) (o : op) : Prop :=
  match o with
  | OCreate d => ok_create d
  | OSetExtent did dims => ok_extent s did dims
  | OWrite rk did sels data => ok_write s h rk did sels data
  | OFlush doff => ok_flush s h doff
  | ORead doff calls => ok_read s h doff calls
  | OReopen doff np => ok_reopen s h doff np
  end.

Definition hflush (s : sstate) (h : hstate) (doff : Z) : hstate :=
  if pend_bytes s =? 0 then h else mkhs (doff + pend_bytes s) (hs_seen h).

Definition hstep (s : sstate) (h : hstate) (o : op) : hstate :=
  match o with
  | OWrite rk did sels data =>
      mkhs (hs_hi h) (upd_nth rk (sels :: nth rk (hs_seen h) []) (hs_seen h))
  | OFlush doff => hflush s h doff
  | ORead doff _ => if e_coll e then hflush s h doff else h
  | OReopen doff np => mkhs (hs_hi (hflush s h doff)) (repeat [] np)
  | _ => h
  end.

Fixpoint ok_run (s : sstate) (h : hstate) (ops : list op) : Prop :=
  match ops with
  | [] => True
  | o :: rest => ok_op s h o /\ ok_run (fst (sstep (e_coll e) s o)) (hstep s h o) rest
  end.

(** Configurations: metadata merging, pass-through, alignment and subfiling are off; selection
    encoding, compression and sharing are free. *)
Definition plain_cfg : Prop := 0 <= cfg < 16 /\ has cfg CFG_METADATA_MERGE = false.

(** Histories of [np] processes on a new file whose first log is placed after byte 0. *)
Definition ok_history (np : nat) (ops : list op) : Prop :=
  plain_cfg /\
  (0 < np)%nat /\ Z.of_nat np < 2 ^ 31 /\ Z.of_nat (length ops) < 2 ^ 30 /\
  is_sort (e_sort e) /\
  ok_run (sinit np) (mkhs 0 (repeat [] np)) ops.
End Ok.
