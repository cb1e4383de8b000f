(** Vocabulary of the properties about index searches. *)
From Verif Require Import Base Spec MetaModel IndexModel ReadModel LocalSpec.

(** A non-empty block whose counts fit a C int; its start is arbitrary. *)
Definition int_block (n : nat) (b : block) : Prop :=
  length (b_start b) = n /\ length (b_count b) = n /\ Forall (fun x => 0 < x < 2 ^ 31) (b_count b).

Definition shared (m b : block) (x : list Z) : Prop := in_block m x /\ in_block b x.

(** Pairs that a search has to compare: for the i-th block of the request, the memory address of
    its first element, and every block of every logged write of the dataset, with the file
    position of its first element; in this order. *)
Record candidate := mkcand { ca_req : block; ca_mem : Z; ca_log : block; ca_file : Z }.
Definition candidates (idx : list mentry) (r : rreq) : list candidate :=
  flat_map (fun i =>
    match nth_error (rq_sels r) i with
    | None => []
    | Some b =>
        flat_map (fun e =>
          if h_did (me_hdr e) =? rq_did r then
            map (fun m => mkcand b (rq_xbuf r + rq_esize r * count_elems (firstn i (rq_sels r)))
                                 (mkblock (ms_start m) (ms_count m)) (h_foff (me_hdr e) + ms_doff m))
                (me_sels e)
          else []) idx
    end) (seq 0 (length (rq_sels r))).

(** Position-wise sum of two coordinates. *)
Definition shift (a b : list Z) : list Z := map (fun p => fst p + snd p) (combine a b).

(** A reported piece covers exactly the shared elements, both as a part of the logged block and
    as a part of the requested block. *)
Definition covers_shared (c : candidate) (p : sret) : Prop :=
  (forall x, inside (shift (b_start (ca_log c)) (sr_dstart p)) (sr_count p) x <-> shared (ca_log c) (ca_req c) x) /\
  (forall x, inside (shift (b_start (ca_req c)) (sr_mstart p)) (sr_count p) x <-> shared (ca_log c) (ca_req c) x).

(** The bytes transferred for a piece: each shared element, from its row-major position in the
    logged block to its row-major position in the requested block. *)
Definition moves_shared (esize : Z) (c : candidate) (p : sret) : Prop :=
  forall f a, In (f, a) (single_pairs p) <->
    exists x k k' j,
      nth_error (coords (ca_log c)) k = Some x /\ nth_error (coords (ca_req c)) k' = Some x /\
      0 <= j < esize /\
      f = ca_file c + esize * Z.of_nat k + j /\ a = ca_mem c + esize * Z.of_nat k' + j.

(** The pieces reported for a candidate: none, or one. *)
Definition exact_answer (c : candidate) (ps : list sret) : Prop :=
  ((~ exists x, shared (ca_log c) (ca_req c) x) /\ ps = []) \/
  ((exists x, shared (ca_log c) (ca_req c) x) /\ exists p, ps = [p] /\ covers_shared c p).

(** An entry as the decoder delivers it: blocks with coordinates, each with the number of data
    bytes before it; an entry marked as belonging to a record has all its blocks in one record,
    whose number fits a C int. *)
Definition entry_blocks (e : mentry) : list block :=
  map (fun m => mkblock (ms_start m) (ms_count m)) (me_sels e).
Definition decoded (dip : dinfo) (e : mentry) : Prop :=
  Forall (well_shaped (di_ndim dip)) (entry_blocks e) /\
  describes e (h_did (me_hdr e)) (h_foff (me_hdr e)) (h_fsize (me_hdr e)) (di_esize dip) (entry_blocks e) /\
  (has (h_flag (me_hdr e)) FLAG_REC = true ->
     exists rec, 0 <= rec < 2 ^ 31 /\ in_record rec (entry_blocks e)).
(** The request's first coordinate fits a C int. *)
Definition int_first (b : block) : Prop :=
  match b_start b with [] => True | x :: _ => 0 <= x < 2 ^ 31 end.
