(** A file with subfiles: the processes are divided into groups, each group has its own subfile with
    its own log, and the main file holds the datasets' descriptions only.

    Modelled: src/H5VL_log_filei.cpp:109-199 and 201-291 (open and create), 736-770 (close), 867-941
    (subfiles), src/H5VL_logi_nb.cpp:522-590 (reads) and 592-894 (flush), with the metadata flush of
    src/H5VL_log_filei_meta.cpp:165-300.

    Simplifications: as in SysModel.v; in addition all processes take part in every read, the
    division into groups is given (it is the subject of GroupModel.v), and the directory of the
    subfiles can be opened.  The C library's basename is the one that leaves its argument alone. *)
From Coq Require Import Ascii String.
From Verif Require Import Base Spec MetaModel QueueModel FlushModel IndexModel ReadModel SysModel.
Open Scope list_scope. Open Scope Z_scope.

(** src/H5VL_log_filei.hpp:19. *)
Definition CFG_SUBFILING := 512.
(** src/H5VL_log_filei.hpp:21. *)
Definition CFG_SINGLE_SUBFILE_READ := 1024.

(** ** Names of subfiles *)

(** src/H5VL_log_filei.cpp:888-889. *)
Definition slash : ascii := "/"%char.

(** basename of the C library for a path that does not end in a slash: what follows the last
    slash.  Called at src/H5VL_log_filei.cpp:888-889. *)
Fixpoint has_slash (s : string) : bool :=
  match s with
  | EmptyString => false
  | String c rest => (c =? slash)%char || has_slash rest
  end.
(** See [has_slash] (src/H5VL_log_filei.cpp:888-889). *)
Fixpoint basename (s : string) : string :=
  match s with
  | EmptyString => EmptyString
  | String c rest => if has_slash s then basename rest else s
  end.

(** Decimal digits of a group number (std::to_string).  The fuel is enough for every number the
    proofs consider.  Called at src/H5VL_log_filei.cpp:888-889 and :931. *)
Fixpoint digits (fuel : nat) (n : nat) : string :=
  match fuel with
  | O => EmptyString
  | S f => let d := String (ascii_of_nat (48 + n mod 10)) EmptyString in
           if (n <? 10)%nat then d else append (digits f (n / 10)) d
  end.
(** See [digits] (src/H5VL_log_filei.cpp:888-889). *)
Definition number (n : nat) : string := digits (S n) n.

(** H5VL_log_filei_create_subfile (src/H5VL_log_filei.cpp:888-889). *)
Definition create_path (name : string) (gid : nat) : string :=
  append name (append ".subfiles/" (append (basename name) (append "." (number gid)))).
(** H5VL_log_filei_open_subfile (src/H5VL_log_filei.cpp:931). *)
Definition open_path (name : string) (gid : nat) : string :=
  append name (append ".subfiles/" (append name (append "." (number gid)))).

(** ** Groups *)

(** Result of a collective call: done, an error reported to the caller, undefined behaviour, or the
    processes wait for each other forever.  src/H5VL_logi_err.hpp:31-65. *)
Inductive sres (A : Type) := SOk (a : A) | SFail | SUB | SHang.
Arguments SOk {A}. Arguments SFail {A}. Arguments SUB {A}. Arguments SHang {A}.
(** One step after another (src/H5VL_logi_err.hpp:31-65: an error leaves the call). *)
Definition sbind {A B} (r : sres A) (f : A -> sres B) : sres B :=
  match r with SOk a => f a | SFail => SFail | SUB => SUB | SHang => SHang end.
Notation "'sdo' x <- r ; f" := (sbind r (fun x => f)) (at level 60, x pattern, right associativity).
(** Calls of SysModel.v (src/H5VL_logi_err.hpp:31-65). *)
Definition lift {A} (r : res A) : sres A := match r with Ok a => SOk a | Err => SFail | UB => SUB end.

(** All groups; the result is the worst (helper of the model, no code of /repo). *)
Fixpoint smap {A B} (f : A -> sres B) (l : list A) : sres (list B) :=
  match l with
  | [] => SOk []
  | a :: rest => sdo b <- f a; sdo r <- smap f rest; SOk (b :: r)
  end.

(** One group: [sg_sys] is its subfile and the queues of its processes; g_nldset and g_mdsets are the
    log and metadata datasets that exist in the subfile.  [sg_nld], [sg_nmd]: fp->nldset and
    fp->nmdset, which name the next dataset to be created and bound the metadata that is read.
    src/H5VL_log_file.hpp:39-133. *)
Record sgroup := mksg { sg_sys : sys; sg_nld : Z; sg_nmd : nat }.

(** The open file.  [sf_hdr]: the numbers of log and metadata datasets in the attribute of the main
    file; [sf_created]: the subfiles on disk.
    src/H5VL_log_file.hpp:39-133, src/H5VL_log_filei.cpp:279-287. *)
Record sfile := mksf {
  sf_name : string; sf_cfg : Z; sf_groups : list sgroup; sf_hdr : Z * nat; sf_created : list string }.

(** Replacing the groups (helper of the model, no code of /repo). *)
Definition with_groups (s : sfile) (gs : list sgroup) : sfile :=
  mksf (sf_name s) (sf_cfg s) gs (sf_hdr s) (sf_created s).

(** The sum of fsize_local over a group (src/H5VL_logi_nb.cpp:695-716). *)
Definition group_size (g : gfile) : Z := Zsum (map (fun st => local_size (unflushed st)) (g_ranks g)).
(** Is anything pending in any process (src/H5VL_log_filei.cpp:657-688). *)
Definition sub_pending (s : sfile) : bool := existsb (fun sg => any_pending (s_g (sg_sys sg))) (sf_groups s).
(** fsize_all (src/H5VL_logi_nb.cpp:695-716). *)
Definition size_all (s : sfile) : Z := Zsum (map (fun sg => group_size (s_g (sg_sys sg))) (sf_groups s)).

(** H5VL_log_nb_flush_write_reqs in one group (src/H5VL_logi_nb.cpp:661-673, 719-890): a log dataset is
    created if the group has data, under the name ld_<nldset>, which must be new; the metadata
    is marked dirty if any group has data. *)
Definition flush_group (all doff : Z) (sg : sgroup) : sres sgroup :=
  let s := sg_sys sg in let g := s_g s in
  if group_size g =? 0 then
    SOk (mksg (mksys (mkg (g_cfg g) (g_infos g) (map rank_assign (g_ranks g)) (g_file g) (g_mdsets g)
                          (g_nldset g) (if all =? 0 then g_metadirty g else true)) (s_idx s))
              (sg_nld sg) (sg_nmd sg))
  else if sg_nld sg <? g_nldset g then SFail
  else SOk (mksg (mksys (flush_writes doff g) (s_idx s)) (sg_nld sg + 1) (sg_nmd sg)).

(** The flush in all groups (src/H5VL_logi_nb.cpp:592-894). *)
Definition sub_flush (doffs : list Z) (s : sfile) : sres sfile :=
  sdo gs <- smap (fun p => flush_group (size_all s) (fst p) (snd p)) (combine doffs (sf_groups s));
  SOk (with_groups s gs).

(** H5VL_log_filei_metaflush in one group: a metadata dataset md_<nmdset> is created if there are
    entries; the barrier over all processes is inside that branch
    (src/H5VL_log_filei_meta.cpp:171, 284). *)
Definition has_entries (g : gfile) : bool := 8 * (Zlen (g_ranks g) + 1) <? Zsum (meta_sizes (g_ranks g)).
(** src/H5VL_log_filei_meta.cpp:165-300. *)
Definition metaflush_group (sg : sgroup) : sres sgroup :=
  let g := s_g (sg_sys sg) in
  if has_entries g then
    if (sg_nmd sg <? length (g_mdsets g))%nat then SFail
    else SOk (mksg (mksys (metaflush g) None) (sg_nld sg) (S (sg_nmd sg)))
  else SOk (mksg (mksys (metaflush g) None) (sg_nld sg) (sg_nmd sg)).
(** src/H5VL_log_filei_meta.cpp:49-320 in all groups; it hangs when some groups create a dataset and
    others do not. *)
Definition sub_metaflush (gs : list sgroup) : sres (list sgroup) :=
  let w := map (fun sg => has_entries (s_g (sg_sys sg))) gs in
  if existsb (fun b => b) w && negb (forallb (fun b => b) w) then SHang
  else smap metaflush_group gs.

(** ** Reads *)

(** The requests of a group served by its own subfile (H5VL_log_nb_perform_read); metadata datasets
    beyond fp->nmdset are not looked at (src/H5VL_log_filei_meta.cpp:362, 513). *)
Definition visible (sg : sgroup) : gfile :=
  let g := s_g (sg_sys sg) in
  mkg (g_cfg g) (g_infos g) (g_ranks g) (g_file g) (firstn (sg_nmd sg) (g_mdsets g)) (g_nldset g) (g_metadirty g).
(** H5VL_log_nb_perform_read (src/H5VL_logi_nb.cpp:341-425). *)
Definition read_own (e : env) (sg : sgroup) (calls : list rcall) : sres (sgroup * list (list Z)) :=
  sdo p <- lift (read_each e (visible sg) (s_idx (sg_sys sg)) calls);
  SOk (mksg (mksys (s_g (sg_sys sg)) (snd p)) (sg_nld sg) (sg_nmd sg), fst p).

(** What H5VL_log_nb_flush_read_reqs does before the subfiles are looked at
    (src/H5VL_logi_nb.cpp:533-542): the buffer is filled with the fill value, if there is one. *)
Definition fill_only (g : gfile) (c : rcall) : sres (list Z) :=
  match rc_sels c with
  | [] => SOk []
  | _ =>
      match info_at (g_infos g) (rc_did c) with
      | Some (Some dip) =>
          let r := mkrreq (rc_did c) (rc_sels c) (rc_buf c) (di_esize dip) in
          SOk (get (fill_req (g_infos g) (rc_mem c) r) (rc_buf c) (Z.to_nat (rq_bytes r)))
      | _ => SUB
      end
  end.

(** H5VL_log_filei_open_subfile (src/H5VL_log_filei.cpp:905-941): the file must exist; the numbers of
    datasets are read from the attribute of [fp], the main file. *)
Definition found (s : sfile) (gid : nat) : bool :=
  existsb (String.eqb (open_path (sf_name s) gid)) (sf_created s).

(** The loop over the subfiles (src/H5VL_logi_nb.cpp:549-583): each process opens every subfile in
    turn and returns to its own; nothing is read. *)
Definition switch_subfiles (s : sfile) (gs : list sgroup) : sres (list sgroup) :=
  if forallb (found s) (seq 0 (length gs))
  then SOk (map (fun sg => mksg (mksys (s_g (sg_sys sg)) None) (fst (sf_hdr s)) (snd (sf_hdr s))) gs)
  else SFail.

(** src/H5VL_logi_nb.cpp:522-590. *)
Definition sub_read (e : env) (s : sfile) (calls : list (list rcall)) : sres (sfile * list (list (list Z))) :=
  if has (sf_cfg s) CFG_SINGLE_SUBFILE_READ then
    sdo gs <- (if existsb (fun sg => g_metadirty (s_g (sg_sys sg))) (sf_groups s)
               then sub_metaflush (sf_groups s) else SOk (sf_groups s));
    sdo r <- smap (fun p => read_own e (fst p) (snd p)) (combine gs calls);
    SOk (with_groups s (map fst r), map snd r)
  else
    sdo bufs <- smap (fun p => smap (fill_only (s_g (sg_sys (fst p)))) (snd p)) (combine (sf_groups s) calls);
    sdo gs <- switch_subfiles s (sf_groups s);
    SOk (with_groups s gs, bufs).

(** ** Whole histories *)

(** The calls: those of SysModel.v (src/H5VL_log_filei.cpp:109-291, :669-770). *)
Inductive sop :=
| SCreate (d : dinfo)                                  (* H5Dcreate *)
| SSetExtent (did : Z) (dims : list Z)                 (* H5Dset_extent *)
| SWrite (gid rk : nat) (did : Z) (sels : list block) (data : list Z)
                                                       (* H5Dwrite by process [rk] of group [gid] *)
| SFlush (doffs : list Z)                              (* H5Fflush; placement of each group's log dataset *)
| SRead (doffs : list Z) (calls : list (list rcall))   (* H5Dread by all processes, group by group *)
| SReopen (doffs : list Z) (nps : list nat).           (* H5Fclose, then H5Fopen by groups of these sizes *)

(** A call applied to one group as to a file of its own.
    See [step] of SysModel.v (src/H5VL_log_filei.cpp:669-770). *)
Definition group_step (e : env) (o : op) (sg : sgroup) : sres sgroup :=
  sdo p <- lift (step e (sg_sys sg) o); SOk (mksg (fst p) (sg_nld sg) (sg_nmd sg)).

(** H5VL_log_filei_post_open of group [gid] with [np] processes.  src/H5VL_log_filei.cpp:109-199. *)
Definition open_group (s : sfile) (gs : list sgroup) (gid np : nat) : sres sgroup :=
  if found s gid then
    match nth_error gs gid with
    | Some sg =>
        let g := s_g (sg_sys sg) in
        sdo infos <- lift (reopen_infos (g_cfg g) (g_infos g));
        SOk (mksg (mksys (mkg (g_cfg g) infos (repeat rank0 np) (g_file g) (g_mdsets g) (g_nldset g) false) None)
                  (fst (sf_hdr s)) (snd (sf_hdr s)))
    | None => SFail
    end
  else SFail.

(** One call; the functions cited above (src/H5VL_logi_nb.cpp:522-894,
    src/H5VL_log_filei.cpp:109-291). *)
Definition sub_step (e : env) (s : sfile) (o : sop) : sres (sfile * list (list (list Z))) :=
  match o with
  | SCreate d => sdo gs <- smap (group_step e (OCreate d)) (sf_groups s); SOk (with_groups s gs, [])
  | SSetExtent did dims => sdo gs <- smap (group_step e (OSetExtent did dims)) (sf_groups s); SOk (with_groups s gs, [])
  | SWrite gid rk did sels data =>
      match nth_error (sf_groups s) gid with
      | Some sg => sdo sg' <- group_step e (OWrite rk did sels data) sg;
                   SOk (with_groups s (upd_nth gid sg' (sf_groups s)), [])
      | None => SUB
      end
  | SFlush doffs => sdo s' <- (if sub_pending s then sub_flush doffs s else SOk s); SOk (s', [])
  | SRead doffs calls =>
      sdo s' <- (if e_coll e && sub_pending s then sub_flush doffs s else SOk s);
      sub_read e s' calls
  | SReopen doffs nps =>
      (* the counters in the attribute of the main file are set to 0 (filei.cpp:762-767) *)
      sdo s1 <- sub_flush doffs s;
      sdo gs <- sub_metaflush (sf_groups s1);
      let s2 := mksf (sf_name s) (sf_cfg s) gs (0, 0%nat) (sf_created s) in
      sdo gs' <- smap (fun p => open_group s2 gs (fst p) (snd p)) (combine (seq 0 (length nps)) nps);
      SOk (with_groups s2 gs', [])
  end.

(** A history of calls (driver of the model over [sub_step]; src/H5VL_log_filei.cpp:109-291). *)
Fixpoint sub_run (e : env) (s : sfile) (ops : list sop) : sres (sfile * list (list (list (list Z)))) :=
  match ops with
  | [] => SOk (s, [])
  | o :: rest => sdo p <- sub_step e s o; sdo q <- sub_run e (fst p) rest; SOk (fst q, snd p :: snd q)
  end.

(** A new file (src/H5VL_log_filei.cpp:201-291): one subfile for each group, [nps] processes in each;
    [f0]: content of a subfile before any log is written.  The bits of the configuration that
    concern the log are those of a plain file. *)
Definition sub_init (name : string) (cfg : Z) (nps : list nat) (f0 : bytemap) : sfile :=
  mksf name cfg (map (fun np => mksg (init (Z.land cfg 15) np f0) 0 0) nps) (0, 0%nat)
       (map (create_path name) (seq 0 (length nps))).
