(** Datasets with filters: the filter pipeline (src/H5VL_logi_filter.cpp) and the read of a
    filtered block (src/H5VL_logi_nb.cpp:379-490). *)
From Verif Require Import Base Spec MetaModel QueueModel FlushModel IndexModel ReadModel PassModel.

(** H5Z_FILTER_DEFLATE.  Tested at src/H5VL_logi_filter.cpp:56-64. *)
Definition DEFLATE : Z := 1.

(** The switch in the two loops (src/H5VL_logi_filter.cpp:56-64, 111-119).  [comp] is the output of
    H5VL_logi_filter_deflate_alloc (src/H5VL_logi_filter_deflate.cpp:57-94): zlib's deflate with
    the default level into a buffer of deflateBound bytes, assumed to succeed.  Both directions
    call it. *)
Definition stage (comp : list Z -> list Z) (id : Z) (input : list Z) : res (list Z) :=
  if id =? DEFLATE then Ok (comp input) else Err.

(** The two intermediate buffers, selected by the parity of an index; size_in bytes are read.
    src/H5VL_logi_filter.cpp:20-129. *)
Definition bufs := (list Z * list Z)%type.
(** src/H5VL_logi_filter.cpp:20-129. *)
Definition buf_get (b : bufs) (i : nat) : list Z := if Nat.even i then fst b else snd b.
(** src/H5VL_logi_filter.cpp:20-129. *)
Definition buf_set (b : bufs) (i : nat) (x : list Z) : bufs :=
  if Nat.even i then (x, snd b) else (fst b, x).
(** The first [n] bytes of a buffer; reading more than it holds is undefined
    (src/H5VL_logi_filter.cpp:20-129). *)
Definition buf_in (x : list Z) (n : nat) : res (list Z) :=
  if (length x <? n)%nat then UB else Ok (firstn n x).

(** H5VL_logi_filter (src/H5VL_logi_filter.cpp:20-73): [ids] are the stages from [i] on, [n] the
    length of the whole pipeline.  The result is *out, None when it is left as it was (empty
    pipeline).  Allocation and capacity of the buffers (bsize, size_out) are left out: a stage
    writes to a buffer of its own, or to the one of two stages ago. *)
Fixpoint filter_loop (comp : list Z -> list Z) (inp : list Z) (n i : nat) (ids : list Z)
                     (b : bufs) (size_in : nat) : res (option (list Z)) :=
  match ids with
  | [] => Ok None
  | id :: rest =>
      let bin := if (i =? 0)%nat then inp else buf_get b i in
      let size := if (i =? 0)%nat then length inp else size_in in
      do x <- buf_in bin size;
      do y <- stage comp id x;
      if (i =? n - 1)%nat then Ok (Some y)
      else filter_loop comp inp n (S i) rest (buf_set b (S i) y) (length y)
  end.
(** The whole pipeline (src/H5VL_logi_filter.cpp:20-73). *)
Definition filter (comp : list Z -> list Z) (ids : list Z) (inp : list Z) : res (option (list Z)) :=
  filter_loop comp inp (length ids) 0 ids ([], []) 0.

(** H5VL_logi_unfilter (src/H5VL_logi_filter.cpp:75-129), [rids] are the stages from [i] down to 0. *)
Fixpoint unfilter_loop (comp : list Z -> list Z) (inp : list Z) (n : nat) (rids : list Z)
                       (b : bufs) (size_in : nat) : res (option (list Z)) :=
  match rids with
  | [] => Ok None
  | id :: rest =>
      let i := length rest in
      let bin := if (i =? n - 1)%nat then inp else buf_get b i in
      let size := if (i =? n - 1)%nat then length inp else size_in in
      do x <- buf_in bin size;
      do y <- stage comp id x;
      if (i =? 0)%nat then Ok (Some y)
      else unfilter_loop comp inp n rest (buf_set b (S i) y) (length y)
  end.
(** The whole pipeline backwards (src/H5VL_logi_filter.cpp:75-129). *)
Definition unfilter (comp : list Z -> list Z) (ids : list Z) (inp : list Z) : res (option (list Z)) :=
  unfilter_loop comp inp (length ids) (rev ids) ([], []) 0.

(** The data of a write that goes to the log (src/H5VL_log_dataseti.cpp:985-1001). *)
Definition stored_data (comp : list Z -> list Z) (ids : list Z) (xbuf : list Z) : res (list Z) :=
  match ids with
  | [] => Ok xbuf
  | _ => do o <- filter comp ids xbuf; or_ub o
  end.

(** One intersection with a filtered block (src/H5VL_logi_nb.cpp:379-390, 430-489): the [sr_fsize]
    stored bytes are read to zbuf, unfiltered, copied back over zbuf and the selected elements
    packed to tbuf and unpacked to xbuf.  MPI_Pack and MPI_Unpack get a buffer size of 1 byte; they
    fail when the elements need more (the default error handler aborts: Err).  The result is
    the list of bytes placed at the elements of the intersection, in order.  Left out: that a
    second intersection with the same block uses the buffer of the first. *)
Definition filtered_block (comp : list Z -> list Z) (ids : list Z) (file : bytemap) (s : sret)
  : res (list Z) :=
  let raw := get file (sr_foff s) (Z.to_nat (sr_fsize s)) in
  let cap := Z.max (sr_xsize s) (sr_fsize s) in
  do o <- (if 0 <? sr_fsize s then unfilter comp ids raw else Ok (Some []));
  do u <- or_ub o;
  if cap <? Zlen u then UB else
  let zbuf := u ++ skipn (length u) raw in
  if 1 <? sr_esize s * Zprod (sr_count s) then Err else
  or_ub (opt_map (fun p => if p <? 0 then None else nth_error zbuf (Z.to_nat p))
                 (subarray (sr_doff s) (sr_esize s) (sr_dsize s) (sr_count s) (sr_dstart s))).

(** The same in pass-through mode: the stored bytes are requested with the whole log dataset
    selected (src/H5VL_log_dataseti.cpp:302-325). *)
Definition pt_filtered (lds : list ldset) (file mem : bytemap) (zbuf : Z) (s : sret) : res bytemap :=
  match foff2logidx (sr_foff s) lds with
  | None => Err
  | Some (doff, len) => under_read file doff zbuf (zseq len) (zseq (sr_fsize s)) mem
  end.
