(** What is expected of internal buffers and of buffered writes. *)
From Verif Require Import Base BufModel.

(** A history of requests for internal space: a block of some size (the system may be out of
    memory), or the release of a block. *)
Inductive bop := BAlloc (size : Z) (oom : bool) | BFree (a : nat).

(** Runs a history; a refused request changes nothing. *)
Fixpoint brun (s : bufs) (os : list bop) : res bufs :=
  match os with
  | [] => Ok s
  | BAlloc n oom :: rest =>
      match balloc oom s n with Ok r => brun (snd r) rest | Err => brun s rest | UB => UB end
  | BFree a :: rest =>
      match bfree s (Some a) with Ok s' => brun s' rest | Err => brun s rest | UB => UB end
  end.

(** Bytes in blocks that were handed out and not released. *)
Definition outstanding (s : bufs) : Z := Zsum (map snd (bf_live s)).

(** Every block asked for has a size between 0 and [b]. *)
Definition sizes_below (b : Z) (os : list bop) : Prop :=
  Forall (fun o => match o with BAlloc n _ => 0 <= n < b | BFree _ => True end) os.

(** The data a write call hands over, given the memory at the time of the call. *)
Definition handed_over (e : wext) (mem : bytemap) (m : wmode) (addr : Z) (n : nat) : res (list Z) :=
  let raw := if wm_all m then get mem addr n else we_pack e mem addr in
  let val := if wm_sametype m then raw else we_convert e raw in
  if wm_filter m then we_filter e val else Ok val.

(** Ideal behaviour: each flush writes, in order, what the writes since the last flush handed over
    at the time they were called. *)
Fixpoint ideal (e : wext) (mem : bytemap) (pend : list (list Z)) (os : list wop)
  : res (list (list Z)) :=
  match os with
  | [] => Ok []
  | WWrite m addr n _ _ _ :: rest =>
      do v <- handed_over e mem m addr n; ideal e mem (pend ++ [v]) rest
  | WStore addr bytes :: rest => ideal e (put mem addr bytes) pend rest
  | WFlush :: rest => do r <- ideal e mem [] rest; Ok (pend ++ r)
  end.

(** The connector may keep using the user's memory for this write. *)
Definition aliases (m : wmode) : bool :=
  wm_buffered m && wm_sametype m && wm_all m && negb (wm_filter m).

(** No store touches the memory of a write that aliases it and is not flushed yet. *)
Fixpoint stores_safe (ranges : list (Z * nat)) (os : list wop) : Prop :=
  match os with
  | [] => True
  | WWrite m addr n _ _ _ :: rest =>
      stores_safe (if aliases m then (addr, n) :: ranges else ranges) rest
  | WStore addr bytes :: rest =>
      Forall (fun r => fst r + Z.of_nat (snd r) <= addr \/ addr + Zlen bytes <= fst r) ranges /\
      stores_safe ranges rest
  | WFlush :: rest => stores_safe [] rest
  end.

Definition start_proc (mem : bytemap) (limit : Z) : wproc := mkwproc mem (bufs_new limit 0) [].
