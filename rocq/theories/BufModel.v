(** Internal data buffers and their accounting, and where the data of a pending write lives. *)
From Verif Require Import Base.

(** fp->bsize (ssize_t, -1: unlimited), fp->bused (size_t) and the blocks obtained from malloc and
    not yet freed, as (address, size stored in front of the block).  Addresses are numbered in
    order of allocation.  src/H5VL_log_file.hpp:39-133, src/H5VL_log_filei.cpp:84-107. *)
Record bufs := mkbufs { bf_limit : Z; bf_used : Z; bf_live : list (nat * Z); bf_next : nat }.

(** LOG_VOL_BSIZE_UNLIMITED (src/H5VL_log.h.in:30). *)
Definition BSIZE_UNLIMITED : Z := -1.                       (* src/H5VL_log.h.in:30 *)

(** H5VL_log_filei_balloc (src/H5VL_log_filei.cpp:84-107).  [oom]: malloc returned NULL (external).
    The sum and the limit are compared as size_t. *)
Definition balloc (oom : bool) (s : bufs) (size : Z) : res (nat * bufs) :=
  if negb (bf_limit s =? BSIZE_UNLIMITED) && (u64 (bf_limit s) <? u64 (bf_used s + size))
  then Err
  else if oom then Err
  else Ok (bf_next s,
           mkbufs (bf_limit s) (u64 (bf_used s + size)) (bf_live s ++ [(bf_next s, size)])
                  (S (bf_next s))).

(** The size stored in front of a block, and the blocks without it (src/H5VL_log_filei.cpp:321-334).
    *)
Fixpoint take_live (a : nat) (l : list (nat * Z)) : option (Z * list (nat * Z)) :=
  match l with
  | [] => None
  | (b, n) :: t =>
      if (a =? b)%nat then Some (n, t)
      else match take_live a t with Some (m, r) => Some (m, (b, n) :: r) | None => None end
  end.

(** H5VL_log_filei_bfree (src/H5VL_log_filei.cpp:321-334); [None]: a null pointer.  Freeing a block
    that is not live reads freed memory. *)
Definition bfree (s : bufs) (p : option nat) : res bufs :=
  match p with
  | None => Err
  | Some a =>
      match take_live a (bf_live s) with
      | None => UB
      | Some (n, rest) => Ok (mkbufs (bf_limit s) (u64 (bf_used s - n)) rest (bf_next s))
      end
  end.

(** The file object is created with bused unset (src/H5VL_log_filei.cpp:1086-1100 and
    src/H5VL_log_file.cpp:105-134, 255-283 do not assign it): [garbage] is what the memory held. *)
Definition bufs_new (limit garbage : Z) : bufs := mkbufs limit garbage [] 0.

(** * Buffers used by writes and reads *)

(** How a write uses its memory: H5Pget_buffered, the types are equal, the memory selection is the
    whole space, the dataset has filters (src/H5VL_log_dataseti.cpp:921-1000). *)
Record wmode := mkwmode { wm_buffered : bool; wm_sametype : bool; wm_all : bool; wm_filter : bool }.

(** Where the bytes of a pending write are: in the user's memory or in an internal block.
    src/H5VL_log_dataseti.cpp:921-1000. *)
Inductive place := PUser (addr : Z) (len : nat) | POwn (a : nat) (bytes : list Z).

(** External parts of the write path: packing of a memory selection, type conversion and the filter
    pipeline, each a function of the bytes it is given.  src/H5VL_log_dataseti.cpp:951-1000. *)
Record wext := mkwext {
  we_pack : bytemap -> Z -> list Z;     (* MPI_Pack of the selected elements (dataseti.cpp:951-960) *)
  we_convert : list Z -> list Z;        (* H5Tconvert (dataseti.cpp:970-977) *)
  we_filter : list Z -> res (list Z) }. (* H5VL_logi_filter (src/H5VL_logi_filter.cpp:20-72) *)

(** The data part of H5VL_log_dataseti_write (src/H5VL_log_dataseti.cpp:921-1000): [n] bytes of user
    data at [addr] in the memory [mem]; [alloc], [calloc]: sizes asked from balloc for the
    unfiltered buffer; [oom1], [oom2]: the malloc calls fail. *)
Definition place_data (e : wext) (mem : bytemap) (s : bufs) (m : wmode) (addr : Z) (n : nat)
    (alloc : Z) (oom1 oom2 : bool) : res (place * bufs) :=
  do p <- (if wm_buffered m && wm_sametype m && wm_all m then Ok (PUser addr n, s)
           else
             do a <- balloc oom1 s alloc;
             let raw := if wm_all m then get mem addr n else we_pack e mem addr in
             let val := if wm_sametype m then raw else we_convert e raw in
             Ok (POwn (fst a) val, snd a));
  let '(pl, s1) := p in
  if wm_filter m then
    let cur := match pl with PUser ad k => get mem ad k | POwn _ b => b end in
    do out <- we_filter e cur;
    do s2 <- (match pl with PUser _ _ => Ok s1 | POwn a _ => bfree s1 (Some a) end);
    do a <- balloc oom2 s2 (Zlen out);
    Ok (POwn (fst a) out, snd a)
  else Ok (pl, s1).

(** A process with its memory, its buffers and its pending writes, in order.
    src/H5VL_log_file.hpp:39-133. *)
Record wproc := mkwproc { wp_mem : bytemap; wp_bufs : bufs; wp_pend : list place }.

(** The calls that matter here: H5Dwrite (src/H5VL_log_dataseti.cpp:787-1022), H5Fflush
    (src/H5VL_log_filei.cpp:669-688), and what the program does itself. *)
Inductive wop :=
| WWrite (m : wmode) (addr : Z) (n : nat) (alloc : Z) (oom1 oom2 : bool)   (* H5Dwrite *)
| WStore (addr : Z) (bytes : list Z)                                      (* the program modifies its memory *)
| WFlush.                                                                 (* H5Fflush *)

(** Bytes of a pending write at the time it is written to the log
    (src/H5VL_logi_nb.cpp:612-640: the memory type is built from the addresses xbuf). *)
Definition place_bytes (mem : bytemap) (p : place) : list Z :=
  match p with PUser ad k => get mem ad k | POwn _ b => b end.

(** Release of the internal blocks after the write (src/H5VL_logi_nb.cpp:838-846). *)
Fixpoint free_all (s : bufs) (ps : list place) : res bufs :=
  match ps with
  | [] => Ok s
  | PUser _ _ :: t => free_all s t
  | POwn a _ :: t => do s1 <- bfree s (Some a); free_all s1 t
  end.

(** One step; the output is the data written to the log by a flush, one list per pending write.  A
    write that fails queues nothing; what it allocated stays allocated (there is no clean-up on the
    error path of src/H5VL_log_dataseti.cpp:787-1022). *)
Definition wstep (e : wext) (p : wproc) (o : wop) : res (wproc * list (list Z)) :=
  match o with
  | WWrite m addr n alloc o1 o2 =>
      do r <- place_data e (wp_mem p) (wp_bufs p) m addr n alloc o1 o2;
      Ok (mkwproc (wp_mem p) (snd r) (wp_pend p ++ [fst r]), [])
  | WStore addr bytes => Ok (mkwproc (put (wp_mem p) addr bytes) (wp_bufs p) (wp_pend p), [])
  | WFlush =>
      do s <- free_all (wp_bufs p) (wp_pend p);
      Ok (mkwproc (wp_mem p) s [], map (place_bytes (wp_mem p)) (wp_pend p))
  end.

(** A history: driver of the model over [wstep] (which cites src/H5VL_log_dataseti.cpp:787-1022). *)
Fixpoint wrun (e : wext) (p : wproc) (os : list wop) : res (wproc * list (list Z)) :=
  match os with
  | [] => Ok (p, [])
  | o :: rest =>
      do r <- wstep e p o;
      do q <- wrun e (fst r) rest;
      Ok (fst q, snd r ++ snd q)
  end.
