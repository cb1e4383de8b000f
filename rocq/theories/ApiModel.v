(** H5Dwrite and H5Dread as the application calls them: file and memory dataspaces, memory
    datatype and buffer, on top of the file of SysModel.v.
    Sources: src/H5VL_log_dataset.cpp:285-386, src/H5VL_log_dataseti.cpp:787-1141,
    src/H5VL_logi_nb.cpp:489-520. *)
From Verif Require Import Base Spec MetaModel QueueModel FlushModel IndexModel ReadModel SelModel SysModel.

(** A memory datatype and the conversions of HDF5 between it and the type of the dataset.  A
    conversion takes the element of the background buffer and the element; [None]: HDF5 has no
    such conversion and H5Tconvert fails without touching the buffer.
    src/H5VL_log_dataseti.cpp:937-977 and src/H5VL_logi_nb.cpp:489-520 use it. *)
Record mtype := mkmt {
  mt_size : Z;                                   (* H5Tget_size (mem_type_id) *)
  mt_same : bool;                                (* H5Tequal (dip->dtype, mem_type_id) *)
  mt_comp : bool;                                (* compound types *)
  mt_out : option (list Z -> list Z -> list Z);  (* memory type to file type *)
  mt_in : option (list Z -> list Z -> list Z) }. (* file type to memory type *)

(** H5Tconvert (external): in place, the first [n] elements of the buffer.
    Called at src/H5VL_log_dataseti.cpp:970-977 and src/H5VL_logi_nb.cpp:489-520. *)
Definition convert (f : list Z -> list Z -> list Z) (bg : list (list Z)) (n ssize dsize : Z) (buf : list Z) : list Z :=
  concat (map (fun k => f (nth k bg []) (nth k (elems ssize buf) [])) (seq 0 (Z.to_nat n))) ++
  skipn (Z.to_nat (n * dsize)) buf.

(** The dataspace arguments: H5S_ALL, H5S_BLOCK or a dataspace with an extent and a selection.
    src/H5VL_log_dataset.cpp:285-379. *)
Inductive fspace := FAll | FSel (dims : list Z) (s : h5sel).
(** The memory space (src/H5VL_log_dataset.cpp:285-379). *)
Inductive uspace := SAll | SBlock | SSel (dims : list Z) (s : h5sel).

(** dsid (dataset.cpp:305-310, 358-363) and the memory space (dataset.cpp:314-315, 368-369;
    dataseti.cpp:816-825, 1063-1072: a space whose selection is H5S_SEL_ALL is contiguous). *)
Definition file_sel (dip : dinfo) (fs : fspace) : list Z * h5sel :=
  match fs with FAll => (di_dims dip, HAll) | FSel dims s => (dims, s) end.
(** The memory space as the packing code sees it (src/H5VL_log_dataseti.cpp:907-935); SelModel.v. *)
Definition as_mspace (dims : list Z) (s : h5sel) : mspace :=
  match s with HAll => MAll | _ => MSel dims s end.
(** H5S_ALL stands for the file space (src/H5VL_log_dataset.cpp:285-379). *)
Definition mem_space (ms : uspace) (f : list Z * h5sel) : mspace :=
  match ms with
  | SAll => as_mspace (fst f) (snd f)
  | SBlock => MAll
  | SSel dims s => as_mspace dims s
  end.

(** One call: dataset, memory type, dataspaces, user buffer in the user's memory; the internal
    buffer returned by malloc and what the memory behind it holds.
    Arguments of src/H5VL_log_dataseti.cpp:787 and :1034. *)
Record access := mkac {
  ac_did : Z; ac_type : mtype; ac_ms : uspace; ac_fs : fspace;
  ac_buf : Z; ac_mem : bytemap; ac_x : Z; ac_heap : bytemap }.

(** The bytes queued by H5VL_log_dataseti_write (dataseti.cpp:921-985) for [n] elements of
    [fsize] bytes in the file.  The result of H5Tconvert is not checked; the background buffer of a
    compound conversion comes from malloc.  Types that are equal have one size. *)
Definition write_data (order : list (list Z) -> list nat) (fsize n : Z) (ms : mspace) (a : access) : res (list Z) :=
  let t := ac_type a in
  do raw <- pack_write order (mt_size t) n ms (ac_mem a) (ac_buf a);
  if mt_same t then Ok raw
  else
    let cap := n * Z.max (mt_size t) fsize in
    let xbuf := raw ++ get (ac_heap a) (ac_x a + Zlen raw) (Z.to_nat (cap - Zlen raw)) in
    let bg := if mt_comp t then elems fsize (get (ac_heap a) (ac_x a + cap) (Z.to_nat (n * fsize))) else [] in
    match mt_out t with
    | None => Ok (firstn (Z.to_nat (n * fsize)) xbuf)
    | Some f => Ok (firstn (Z.to_nat (n * fsize)) (convert f bg n (mt_size t) fsize xbuf))
    end.

(** Delivery of the [n] elements read into the internal buffer (nb.cpp:489-520).  The background
    buffer is NULL: a compound conversion dereferences it.  MPI_Unpack is told that the buffer has
    [n] elements of the size in the file. *)
Definition deliver (order : list (list Z) -> list nat) (fsize n : Z) (ms : mspace) (a : access) (bytes : list Z) : res bytemap :=
  let t := ac_type a in
  if mt_same t then unpack_read order fsize n ms (ac_mem a) (ac_buf a) bytes
  else
    match mt_in t with
    | None => Err
    | Some f =>
        if mt_comp t then UB
        else
          let cap := n * Z.max (mt_size t) fsize in
          let xbuf := bytes ++ get (ac_heap a) (ac_x a + Zlen bytes) (Z.to_nat (cap - Zlen bytes)) in
          let out := firstn (Z.to_nat (n * mt_size t)) (convert f [] n fsize (mt_size t) xbuf) in
          match ms with
          | MAll => Ok (put (ac_mem a) (ac_buf a) out)
          | MSel dims s =>
              do sels <- normalize order dims s;
              match sels with
              | [] => Ok (put (ac_mem a) (ac_buf a) out)
              | _ => let tm := sel_typemap (mt_size t) dims sels in
                     if Zlen tm <=? n * fsize then Ok (scatter (ac_mem a) (ac_buf a) tm out) else Err
              end
          end
    end.

(** The calls of a program; each is the function of /repo named in SysModel.v [op], H5Dwrite and
    H5Dread being src/H5VL_log_dataset.cpp:285-379. *)
Inductive acall :=
| ACreate (d : dinfo)
| AExtent (did : Z) (dims : list Z)
| AWrite (rk : nat) (a : access)                (* H5Dwrite *)
| AFlush (doff : Z)
| ARead (doff : Z) (l : list access)            (* H5Dread, one per process *)
| AReopen (doff : Z) (np : nat).

(** H5VL_log_dataset_write_1 (dataset.cpp:336-386) up to the queue: the blocks and the bytes.  A write
    without elements returns before it looks at the buffer (dataseti.cpp:828). *)
Definition lower_write (order : list (list Z) -> list nat) (infos : list (option dinfo)) (a : access) : res (list block * list Z) :=
  match info_at infos (ac_did a) with
  | Some (Some dip) =>
      let f := file_sel dip (ac_fs a) in
      do sels <- normalize order (fst f) (snd f);
      match sels with
      | [] => Ok ([], [])
      | _ => do data <- write_data order (di_esize dip) (sel_size sels) (mem_space (ac_ms a) f) a;
             Ok (sels, data)
      end
  | _ => UB
  end.

(** H5VL_log_dataset_read_1 (dataset.cpp:285-325) and the request made by H5VL_log_dataseti_read
    (dataseti.cpp:1075-1121): the user's buffer is read into directly when the types are equal
    and the memory is contiguous. *)
Definition lower_read (order : list (list Z) -> list nat) (infos : list (option dinfo)) (a : access) : res rcall :=
  match info_at infos (ac_did a) with
  | Some (Some dip) =>
      let f := file_sel dip (ac_fs a) in
      do sels <- normalize order (fst f) (snd f);
      match mt_same (ac_type a), mem_space (ac_ms a) f with
      | true, MAll => Ok (mkrcall (ac_did a) sels (ac_buf a) (ac_mem a))
      | _, _ => Ok (mkrcall (ac_did a) sels (ac_x a) (ac_heap a))
      end
  | _ => UB
  end.

(** The user's memory after the read; [bytes]: content of the request's buffer.
    src/H5VL_logi_nb.cpp:489-520. *)
Definition finish_read (order : list (list Z) -> list nat) (infos : list (option dinfo)) (a : access) (c : rcall) (bytes : list Z) : res bytemap :=
  match info_at infos (ac_did a) with
  | Some (Some dip) =>
      deliver order (di_esize dip) (sel_size (rc_sels c)) (mem_space (ac_ms a) (file_sel dip (ac_fs a))) a bytes
  | _ => UB
  end.

(** The calls of all processes (src/H5VL_log_dataseti.cpp:1034-1141). *)
Fixpoint lower_reads (order : list (list Z) -> list nat) (infos : list (option dinfo)) (l : list access) : res (list rcall) :=
  match l with
  | [] => Ok []
  | a :: rest => do c <- lower_read order infos a; do r <- lower_reads order infos rest; Ok (c :: r)
  end.
(** The deliveries of all processes (src/H5VL_logi_nb.cpp:489-520). *)
Fixpoint finish_reads (order : list (list Z) -> list nat) (infos : list (option dinfo)) (l : list access)
    (cs : list rcall) (bufs : list (list Z)) : res (list bytemap) :=
  match l, cs, bufs with
  | a :: l', c :: cs', b :: bufs' =>
      do m <- finish_read order infos a c b; do r <- finish_reads order infos l' cs' bufs'; Ok (m :: r)
  | _, _, _ => Ok []
  end.

(** One call; the second component are the memories of the readers.
    src/H5VL_log_dataset.cpp:285-379 and the functions cited at [step] of SysModel.v. *)
Definition astep (e : env) (order : list (list Z) -> list nat) (s : sys) (c : acall) : res (sys * list bytemap) :=
  let infos := g_infos (s_g s) in
  match c with
  | ACreate d => do p <- step e s (OCreate d); Ok (fst p, [])
  | AExtent did dims => do p <- step e s (OSetExtent did dims); Ok (fst p, [])
  | AWrite rk a =>
      do w <- lower_write order infos a;
      do p <- step e s (OWrite rk (ac_did a) (fst w) (snd w)); Ok (fst p, [])
  | AFlush doff => do p <- step e s (OFlush doff); Ok (fst p, [])
  | ARead doff l =>
      do cs <- lower_reads order infos l;
      do p <- step e s (ORead doff cs);
      do ms <- finish_reads order infos l cs (snd p);
      Ok (fst p, ms)
  | AReopen doff np => do p <- step e s (OReopen doff np); Ok (fst p, [])
  end.

(** A history of calls: driver of the model, like [run] of SysModel.v (no code of /repo). *)
Fixpoint arun (e : env) (order : list (list Z) -> list nat) (s : sys) (cs : list acall) : res (sys * list (list bytemap)) :=
  match cs with
  | [] => Ok (s, [])
  | c :: rest =>
      do p <- astep e order s c;
      do q <- arun e order (fst p) rest;
      Ok (fst q, snd p :: snd q)
  end.
