(** A file opened by a group of processes with metadata merging on, driven by the calls of SysModel.v:
    the merged requests (MergeModel.v) of every process next to its queue.

    Simplifications: those of SysModel.v; the separate request that is built and never queued when
    another setting is on (MergeModel.v) is left out. *)
From Verif Require Import Base Spec MetaModel QueueModel FlushModel IndexModel ReadModel SysModel MergeModel.

(** fp->mreqs of every process next to the state of SysModel.v (src/H5VL_log_file.hpp:85). *)
Record msys := mkmsys { ms_sys : sys; ms_slots : list (list (option mreq)) }.

(** A merged request appended to wreqs (src/H5VL_logi_nb.cpp:644-647).  meta_off of a merged request is
    never assigned in the code and never read: only requests in the deduplication table are referred to.
    The model stores the position of the entry. *)
Definition push_req (st : rank) (w : wreq) : rank :=
  mkrank (k_wreqs st ++ [mkwreq (w_hdr w) (w_body w) (w_selpos w) (k_mdsize st) (w_data w)])
         (k_nflushed st) (k_mdsize st + h_size (w_hdr w)) (k_hash st) (k_zbsize st).

(** The merged requests of one process (src/H5VL_logi_nb.cpp:641-650). *)
Definition rank_drain (slots : list (option mreq)) (st : rank) : rank :=
  fold_left push_req (fst (merge_drain slots)) st.

(** The merged requests of every process, at the start of H5VL_log_nb_flush_write_reqs
    (src/H5VL_logi_nb.cpp:641-650). *)
Definition drain_all (g : gfile) (slots : list (list (option mreq))) : gfile :=
  set_ranks g (map (fun p => rank_drain (fst p) (snd p)) (combine slots (g_ranks g))).

(** H5VL_log_filei_get_num_pending_writes (src/H5VL_log_filei.cpp:657-667). *)
Definition num_pending_m (slots : list (option mreq)) (st : rank) : nat :=
  (num_pending st +
   length (filter (fun o => match o with Some m => (0 <? m_nsel m)%Z | None => false end) slots))%nat.

(** The reduction over the processes (src/H5VL_log_filei.cpp:670-681). *)
Definition any_pending_m (g : gfile) (slots : list (list (option mreq))) : bool :=
  existsb (fun p => negb (num_pending_m (fst p) (snd p) =? 0)%nat) (combine slots (g_ranks g)).

(** H5VL_log_filei_flush (src/H5VL_log_filei.cpp:669-688): merged requests are queued and the queue is
    written if any process has something pending. *)
Definition flush_m (doff : Z) (g : gfile) (slots : list (list (option mreq)))
  : gfile * list (list (option mreq)) :=
  if any_pending_m g slots
  then (flush_writes doff (drain_all g slots), map (fun l => snd (merge_drain l)) slots)
  else (g, slots).

(** One API call with merging on.  Dataset creation adds an empty slot (src/H5VL_log_dataset.cpp:185);
    H5Dset_extent queues the merged request of the dataset when selections are encoded
    (src/H5VL_log_dataset.cpp:547-552); writes append to the merged request of the dataset
    (src/H5VL_log_dataseti.cpp:1005-1011); flushes, collective reads and closing queue the merged
    requests first (src/H5VL_log_filei.cpp:669-747, src/H5VL_log_dataseti.cpp:1126-1133); a reopened file
    has empty slots (src/H5VL_log_filei.cpp:135). *)
Definition mstep (e : env) (s : msys) (o : op) : res (msys * list (list Z)) :=
  let g := s_g (ms_sys s) in
  let slots := ms_slots s in
  match o with
  | OCreate d =>
      do p <- step e (ms_sys s) o;
      Ok (mkmsys (fst p) (map (fun l => l ++ [None]) slots), snd p)
  | OSetExtent did dims =>
      do p <- step e (ms_sys s) o;
      if has (g_cfg g) CFG_SEL_ENCODE then
        let one l := match nth_error l (Z.to_nat did) with
                     | Some (Some m) => if 0 <? m_nsel m then [merge_entry m] else []
                     | _ => [] end in
        let clear l := match one l with [] => l | _ => upd_nth (Z.to_nat did) None l end in
        let g' := s_g (fst p) in
        Ok (mkmsys (mksys (set_ranks g' (map (fun q => fold_left push_req (one (fst q)) (snd q))
                                             (combine slots (g_ranks g')))) (s_idx (fst p)))
                   (map clear slots), snd p)
      else Ok (mkmsys (fst p) slots, snd p)
  | OWrite rk did sels data =>
      match nth_error slots rk with
      | Some l =>
          do l' <- merge_write (g_cfg g) (g_infos g) l did sels data;
          Ok (mkmsys (ms_sys s) (upd_nth rk l' slots), [])
      | None => UB
      end
  | OFlush doff =>
      let p := flush_m doff g slots in
      Ok (mkmsys (mksys (fst p) (s_idx (ms_sys s))) (snd p), [])
  | ORead doff calls =>
      let p := if e_coll e then flush_m doff g slots else (g, slots) in
      let g1 := fst p in
      let g2 := if g_metadirty g1 then metaflush g1 else g1 in
      let idx := if g_metadirty g1 then None else s_idx (ms_sys s) in
      do q <- read_each e g2 idx calls;
      Ok (mkmsys (mksys g2 (snd q)) (snd p), fst q)
  | OReopen doff np =>
      let g1 := close_file doff (drain_all g slots) in
      do infos <- reopen_infos (g_cfg g) (g_infos g);
      Ok (mkmsys (mksys (mkg (g_cfg g) infos (repeat rank0 np) (g_file g1) (g_mdsets g1) (g_nldset g1) false)
                        None)
                 (repeat (repeat None (length infos)) np), [])
  end.

(** A history of calls (driver of the model over [mstep]; src/H5VL_log_filei.cpp:109-842). *)
Fixpoint mrun (e : env) (s : msys) (ops : list op) : res (msys * list (list (list Z))) :=
  match ops with
  | [] => Ok (s, [])
  | o :: rest =>
      do p <- mstep e s o;
      do q <- mrun e (fst p) rest;
      Ok (fst q, snd p :: snd q)
  end.

(** A new file: no dataset, no slot (src/H5VL_log_filei.cpp:201-291). *)
Definition minit (cfg : Z) (np : nat) (f0 : bytemap) : msys := mkmsys (init cfg np f0) (repeat [] np).
