(** Sizes held in C ints: the flush and the metadata write of SysModel.v again, with the block
    lengths, positions and entry sizes stored where the code stores them.  Everything else is as in
    SysModel.v. *)
From Verif Require Import Base Spec MetaModel QueueModel FlushModel IndexModel ReadModel SysModel.

(** H5VL_FILEI_CONFIG_PASSTHRU (src/H5VL_log_filei.hpp:16). *)
Definition CFG_PASSTHRU := 16.

(** mlens[j++] = d.size (src/H5VL_logi_nb.cpp:664-666): the size_t is stored in an int. *)
Definition blk_len (w : wreq) : Z := i32 (Zlen (w_data w)).

(** The bytes described by the memory type (nb.cpp:657-676): of each buffer, as many as the stored
    length says. *)
Definition cut_bytes (st : rank) : list Z :=
  flat_map (fun w => firstn (Z.to_nat (blk_len w)) (w_data w)) (unflushed st).

(** MPI_Type_create_hindexed refuses a negative block length (nb.cpp:676-677): the call fails
    before the first collective call. *)
Definition refused (st : rank) : bool := existsb (fun w => blk_len w <? 0) (unflushed st).

(** H5VL_log_nb_flush_write_reqs (src/H5VL_logi_nb.cpp:592-894) as [flush_writes], with ints:
    - the number of requests is cast to int (:652, :662), more than an int holds are not modelled
      further ([UB]);
    - with MPI the lengths are [blk_len];
    - with H5VL_LOG_PASSTHRU the bytes are first copied to one buffer, at a position that is an int
      (:818-823): a process with 2 GiB or more pending overflows it, hands memcpy a negative length
      or leaves part of the buffer unset, all undefined.
    The addresses recorded in the requests use the full sizes (:669-670, :838). *)
Definition flush_int (doff : Z) (g : gfile) : res gfile :=
  if existsb (fun st => 2 ^ 31 <=? Zlen (k_wreqs st)) (g_ranks g) then UB
  else if has (g_cfg g) CFG_PASSTHRU then
    if existsb (fun st => 2 ^ 31 <=? Zlen (local_bytes st)) (g_ranks g) then UB
    else Ok (flush_writes doff g)
  else if existsb refused (g_ranks g) then Err
  else
    let sizes := map (fun st => local_size (unflushed st)) (g_ranks g) in
    let fsize_all := Zsum sizes in
    if fsize_all =? 0 then
      Ok (mkg (g_cfg g) (g_infos g) (map rank_assign (g_ranks g)) (g_file g) (g_mdsets g)
              (g_nldset g) (g_metadirty g))
    else
      let bases := map (fun o => o + doff) (exscan 0 sizes) in
      Ok (mkg (g_cfg g) (g_infos g)
              (map (fun p => rank_flushed (fst p) (snd p)) (combine bases (g_ranks g)))
              (fold_left (fun f p => put f (fst p) (cut_bytes (snd p)))
                         (combine bases (g_ranks g)) (g_file g))
              (g_mdsets g) (g_nldset g + 1) true).

(** H5VL_log_filei_metaflush (src/H5VL_log_filei_meta.cpp:49-320): with H5VL_LOG_PASSTHRU the
    entries of a process are copied to one buffer at a position that is an int (:262-265). *)
Definition metaflush_int (g : gfile) : res gfile :=
  if has (g_cfg g) CFG_PASSTHRU && existsb (fun n => 2 ^ 31 <=? n) (meta_sizes (g_ranks g)) then UB
  else Ok (metaflush g).

(** The size of the entry of a write before deduplication and compression goes to an int32_t
    (src/H5VL_logi_nb.cpp:98-110, src/H5VL_logi_meta.hpp:28).  An entry that does not fit is not
    modelled further ([UB]). *)
Definition entry_fits (g : gfile) (st : rank) (did : Z) (sels : list block) : bool :=
  match sels, nth_error (g_infos g) (Z.to_nat did) with
  | _ :: _, Some (Some dip) => h_size (w_hdr (mk_wreq (g_cfg g) did dip (k_mdsize st) sels)) <? 2 ^ 31
  | _, _ => true
  end.

(** [step] (SysModel.v) with these three.
    They cite src/H5VL_log_dataseti.cpp:787-1022, src/H5VL_logi_nb.cpp:592-894 and
    src/H5VL_log_filei_meta.cpp:49-320. *)
Definition step_int (e : env) (s : sys) (o : op) : res (sys * list (list Z)) :=
  let g := s_g s in
  match o with
  | OWrite rk did sels data =>
      match nth_error (g_ranks g) rk with
      | Some st => if entry_fits g st did sels then step e s o else UB
      | None => UB
      end
  | OFlush doff =>
      do g1 <- (if any_pending g then flush_int doff g else Ok g);
      Ok (mksys g1 (s_idx s), [])
  | ORead doff calls =>
      do g1 <- (if e_coll e && any_pending g then flush_int doff g else Ok g);
      do g2 <- (if g_metadirty g1 then metaflush_int g1 else Ok g1);
      let idx := if g_metadirty g1 then None else s_idx s in
      do p <- read_each e g2 idx calls;
      Ok (mksys g2 (snd p), fst p)
  | OReopen doff np =>
      do g0 <- flush_int doff g;
      do g1 <- metaflush_int g0;
      do infos <- reopen_infos (g_cfg g) (g_infos g);
      Ok (mksys (mkg (g_cfg g) infos (repeat rank0 np) (g_file g1) (g_mdsets g1) (g_nldset g1) false)
                None, [])
  | OCreate _ | OSetExtent _ _ => step e s o
  end.

(** A history of calls (driver of the model; no code of /repo). *)
Fixpoint run_int (e : env) (s : sys) (ops : list op) : res (sys * list (list (list Z))) :=
  match ops with
  | [] => Ok (s, [])
  | o :: rest =>
      do p <- step_int e s o;
      do q <- run_int e (fst p) rest;
      Ok (fst q, snd p :: snd q)
  end.
