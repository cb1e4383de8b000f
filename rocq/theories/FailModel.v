(** A write call that fails.

    H5VL_log_dataseti_write builds the metadata entry and enters it into the deduplication table
    (src/H5VL_log_dataseti.cpp:836-918) before it allocates the internal buffer, packs and filters
    the data (:920-1002); only then is the request queued (:1005-1018).  A failure in between
    (buffer limit or memory exhausted, H5VL_log_filei_balloc at :942 and :996, or a filter that is
    not supported, :992) leaves by an exception: nothing undoes the insertion. *)
From Verif Require Import Base Spec MetaModel QueueModel.

(** State of the process after the failed call.  The request itself is neither queued nor freed.
    src/H5VL_log_dataseti.cpp:836-1002. *)
Definition ds_write_failed (z : zlib) (cfg : Z) (infos : list (option dinfo)) (st : rank)
                           (did : Z) (sels : list block) : res rank :=
  match sels with
  | [] => Ok st
  | _ =>
      match nth_error infos (Z.to_nat did) with
      | Some (Some dip) =>
          do m <- finish_meta z cfg st (mk_wreq cfg did dip (k_mdsize st) sels);
          let '(r, tbl, zb) := m in
          Ok (mkrank (k_wreqs st) (k_nflushed st) (k_mdsize st) tbl zb)
      | _ => UB
      end
  end.

(** Write calls that succeed, one after another: dataset, selection, data.
    src/H5VL_log_dataseti.cpp:787-1022, repeated. *)
Fixpoint ds_writes (z : zlib) (cfg : Z) (infos : list (option dinfo)) (st : rank)
                   (ws : list (Z * list block * list Z)) : res rank :=
  match ws with
  | [] => Ok st
  | (did, sels, data) :: rest =>
      do st' <- ds_write z cfg infos st did sels data;
      ds_writes z cfg infos st' rest
  end.
