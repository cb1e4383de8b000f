(** Metadata merging: one request per dataset to which every write appends
    (H5VL_log_merged_wreq_t, src/H5VL_logi_nb.cpp:197-313, and the MERGE branches of
    src/H5VL_log_dataseti.cpp:787-1022 and of H5VL_log_nb_flush_write_reqs). *)
From Verif Require Import Base Spec MetaModel.

(** H5VL_log_merged_wreq_t (src/H5VL_logi_nb.hpp:62-87): header flag and dataset id, number of
    selections, the bytes after the header and the nsel field, the data blocks in append order.
    The capacity of the metadata buffer (meta_size_alloc, mbufp, mbufe; reserve, nb.cpp:261-275)
    is left out: it only grows, and always to at least the size written. *)
Record mreq := mkmreq {
  m_did : Z; m_flag : Z; m_nsel : Z; m_tail : list Z; m_data : list Z }.

(** init (src/H5VL_logi_nb.cpp:212-255).  The flag word is tested against the file configuration
    bit of selection encoding (0x02), which is no entry flag. *)
Definition merge_init (cfg did : Z) (dip : dinfo) : mreq :=
  let flag := Z.lor FLAG_MUL_SEL
             (Z.lor (if (1 <? di_ndim dip)%nat && has cfg CFG_SEL_ENCODE then FLAG_SEL_ENCODE else 0)
                    (if has cfg CFG_SEL_DEFLATE then FLAG_SEL_DEFLATE else 0)) in
  mkmreq did flag 0
    (if has flag CFG_SEL_ENCODE then words (firstn (di_ndim dip - 1) (di_dsteps dip)) else []) [].

(** append (src/H5VL_logi_nb.cpp:277-313), with the same test. *)
Definition merge_append (dip : dinfo) (m : mreq) (sels : list block) (data : list Z) : mreq :=
  mkmreq (m_did m) (m_flag m) (m_nsel m + Zlen sels)
    (m_tail m ++
     words (encode_words (if has (m_flag m) CFG_SEL_ENCODE then Some (di_dsteps dip) else None) 0 sels))
    (m_data m ++ data).

(** The request put in the queue when the merged requests are flushed
    (src/H5VL_logi_nb.cpp:641-650): header, nsel field (stored by append) and the rest. *)
Definition merge_entry (m : mreq) : wreq :=
  mkwreq (mkhdr (Z.of_nat HDR + 4 + Zlen (m_tail m)) (m_did m) (m_flag m) 0 (Zlen (m_data m)))
         (le 4 (m_nsel m) ++ m_tail m) 0 0 (m_data m).

(** H5VL_log_dataseti_write with merging on (src/H5VL_log_dataseti.cpp:787-1022).  The fields of
    the local data block are only set under [config ^ MERGE] (:835), so they are indeterminate
    when MERGE is the only bit set.  Otherwise a separate request is also built and entered in
    the deduplication table but never queued (nor freed): left out.  [data] as in QueueModel. *)
Definition merge_write (cfg : Z) (infos : list (option dinfo)) (ms : list (option mreq))
                       (did : Z) (sels : list block) (data : list Z) : res (list (option mreq)) :=
  match sels with
  | [] => Ok ms
  | _ =>
      if Z.lxor cfg CFG_METADATA_MERGE =? 0 then UB else
      match nth_error infos (Z.to_nat did), nth_error ms (Z.to_nat did) with
      | Some (Some dip), Some slot =>
          let m := match slot with Some m => m | None => merge_init cfg did dip end in
          Ok (upd_nth (Z.to_nat did) (Some (merge_append dip m sels data)) ms)
      | _, _ => UB
      end
  end.

(** Several writes of one process between two flushes.
    src/H5VL_log_dataseti.cpp:787-1022, repeated. *)
Fixpoint merge_writes (cfg : Z) (infos : list (option dinfo)) (ms : list (option mreq))
                      (ws : list (Z * (list block * list Z))) : res (list (option mreq)) :=
  match ws with
  | [] => Ok ms
  | (did, (sels, data)) :: rest =>
      do ms' <- merge_write cfg infos ms did sels data;
      merge_writes cfg infos ms' rest
  end.

(** Flush of the merged requests (src/H5VL_logi_nb.cpp:641-650): those with a selection are queued
    in dataset order and their slots cleared. *)
Definition merge_drain (ms : list (option mreq)) : list wreq * list (option mreq) :=
  (flat_map (fun s => match s with Some m => if 0 <? m_nsel m then [merge_entry m] else [] | None => [] end) ms,
   map (fun s => match s with Some m => if 0 <? m_nsel m then None else Some m | None => None end) ms).

(** Rounds of writes, each ended by a flush: the requests every flush adds to the queue.
    src/H5VL_log_dataseti.cpp:787-1022 and src/H5VL_logi_nb.cpp:592-640, repeated. *)
Fixpoint merge_rounds (cfg : Z) (infos : list (option dinfo)) (ms : list (option mreq))
                      (rounds : list (list (Z * (list block * list Z)))) : res (list (list wreq)) :=
  match rounds with
  | [] => Ok []
  | ws :: rest =>
      do ms' <- merge_writes cfg infos ms ws;
      do qs <- merge_rounds cfg infos (snd (merge_drain ms')) rest;
      Ok (fst (merge_drain ms') :: qs)
  end.
