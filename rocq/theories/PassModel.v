(** Reads in pass-through mode: the log datasets are read with H5Dread of the underlying VOL
    instead of MPI (src/H5VL_log_dataseti.cpp:93-442).  Unfiltered datasets; the branch for
    filtered ones is in FilterModel.  Sums and products of hsize_t are exact here. *)
From Verif Require Import Base Spec MetaModel QueueModel FlushModel IndexModel ReadModel.

(** Arguments of H5Sselect_hyperslab on a one-dimensional space of bytes.
    Made by sel_space (src/H5VL_log_dataseti.cpp:105-141). *)
Record hyper := mkhyper { h_start : Z; h_stride : Z; h_count : Z; h_block : Z }.

(** sel_space (src/H5VL_log_dataseti.cpp:105-144).  The case ndim == 0 takes counts[0] as number
    of elements (:118-123).  A division by zero (:131, :134) is undefined. *)
Definition sel_space (start0 esize : Z) (starts sizes counts : list Z) : res hyper :=
  let start := start0 + lin 1 sizes starts * esize in
  let lastc := last counts 1 in
  let block := lastc * esize in
  if lastc =? 0 then UB
  else
    let count := Zprod counts / lastc in
    if 1 <? count then
      (if hd 1 sizes =? 0 then UB
       else Ok (mkhyper start (Zprod sizes / hd 1 sizes * esize) count block))
    else Ok (mkhyper start 1 count block).
(** sel_space for a scalar (src/H5VL_log_dataseti.cpp:105-141). *)
Definition sel_space0 (start0 esize n : Z) : hyper := mkhyper start0 1 1 (n * esize).

(** What HDF5 does with the arguments: nothing is selected when count or block is zero,
    overlapping blocks are refused by H5Sselect_hyperslab, blocks outside of the extent by
    H5Dread.  The selected elements are visited in increasing order.
    Called by sel_space (src/H5VL_log_dataseti.cpp:105-141). *)
Definition hs_bytes (h : hyper) : list Z :=
  flat_map (fun i => byte_range (h_start h + i * h_stride h) (h_block h)) (zseq (h_count h)).
(** See [hs_bytes] (src/H5VL_log_dataseti.cpp:105-141). *)
Definition hsel (ext : Z) (h : hyper) : res (list Z) :=
  if (h_count h =? 0) || (h_block h =? 0) then Ok []
  else if (1 <? h_count h) && (h_stride h <? h_block h) then Err
  else if (h_start h <? 0) || (ext <? h_start h + (h_count h - 1) * h_stride h + h_block h)
  then Err
  else Ok (hs_bytes h).

(** The log datasets of a file: file offset and length, in the order __ld_0, __ld_1, ...
    (opened at :214-232). *)
Definition ldset := (Z * Z)%type.

(** foff2logidx (:146-155): the last one whose offset is not larger. *)
Fixpoint foff2logidx (foff : Z) (lds : list ldset) : option ldset :=
  match lds with
  | [] => None
  | d :: rest =>
      match foff2logidx foff rest with
      | Some x => Some x
      | None => if fst d <=? foff then Some d else None
      end
  end.

(** H5VL_log_under_dataset_read of the elements [fl] of the log dataset at [doff] into the
    elements [ml] of the buffer at [base]: an error when the numbers differ.
    src/H5VL_logi_util.hpp:15-22. *)
Definition under_read (file : bytemap) (doff base : Z) (fl ml : list Z) (mem : bytemap)
  : res bytemap :=
  if (length fl =? length ml)%nat
  then Ok (mpi_read file mem (combine (map (fun x => doff + x) fl) (map (fun x => base + x) ml)))
  else Err.

(** A block alone in its group (:303-351). *)
Definition pt_single (lds : list ldset) (file mem : bytemap) (s : sret) : res bytemap :=
  match foff2logidx (sr_key s) lds with
  | None => Err
  | Some (doff, len) =>
      match sr_count s with
      | [] =>
          do fl <- hsel len (sel_space0 (sr_key s - doff) 1 (sr_esize s));
          under_read file doff (sr_xbuf s) fl (zseq (sr_fsize s)) mem
      | _ =>
          do fh <- sel_space (sr_key s - doff) (sr_esize s) (sr_dstart s) (sr_dsize s) (sr_count s);
          do fl <- hsel len fh;
          do mh <- sel_space 0 (sr_esize s) (sr_mstart s) (sr_msize s) (sr_count s);
          do ml <- hsel (sr_esize s * Zprod (sr_msize s)) mh;
          under_read file doff (sr_xbuf s) fl ml mem
      end
  end.

(** One row of a group (:411-425). *)
Definition pt_row (lds : list ldset) (file mem : bytemap) (r : row) : res bytemap :=
  match foff2logidx (ro_f r) lds with
  | None => Err
  | Some (doff, len) =>
      do fl <- hsel len (sel_space0 (ro_f r - doff) 1 (ro_len r));
      under_read file doff (ro_m r) fl (zseq (ro_len r)) mem
  end.
(** The loop over the rows of a group (src/H5VL_log_dataseti.cpp:330-440). *)
Fixpoint pt_rows (lds : list ldset) (file mem : bytemap) (rs : list row) : res bytemap :=
  match rs with
  | [] => Ok mem
  | r :: rest => do mem' <- pt_row lds file mem r; pt_rows lds file mem' rest
  end.

(** A group (:298-427); several scalar blocks index arrays at -1 (:357). *)
Definition pt_group (lds : list ldset) (file mem : bytemap) (g : list sret)
  : res (bytemap * list copyctx) :=
  match g with
  | [s] => do m <- pt_single lds file mem s; Ok (m, [])
  | _ =>
      if existsb (fun s => match sr_count s with [] => true | _ => false end) g then UB
      else
        let rs := flat_map rows_of g in
        let '(rs', cs) := trim (length rs) (sortoffsets (S (length rs)) rs) in
        do m <- pt_rows lds file mem rs'; Ok (m, cs)
  end.
(** The loop over the groups (src/H5VL_log_dataseti.cpp:284-440). *)
Fixpoint pt_groups (lds : list ldset) (file mem : bytemap) (gs : list (list sret))
  : res (bytemap * list copyctx) :=
  match gs with
  | [] => Ok (mem, [])
  | g :: rest =>
      do mc <- pt_group lds file mem g;
      do mc' <- pt_groups lds file (fst mc) rest;
      Ok (fst mc', snd mc ++ snd mc')
  end.

(** H5VL_log_dataset_readi_passthru (:161-442) followed by the copies of
    H5VL_log_nb_perform_read (src/H5VL_logi_nb.cpp:421). *)
Definition pt_read (sort : list sret -> list sret) (lds : list ldset) (file mem : bytemap)
           (blocks : list sret) : res bytemap :=
  do mc <- pt_groups lds file mem (groups (sort blocks));
  Ok (do_copies (fst mc) (snd mc)).
