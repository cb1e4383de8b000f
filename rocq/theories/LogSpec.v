(** What a history puts into the log: stated on the list of API calls only. *)
From Verif Require Import Base Spec MetaModel QueueModel FlushModel IndexModel SysModel History.

(** A flush as a user sees it: where the new log dataset is placed, and the data of the writes it
    has to store: process 0 first, each process in program order. *)
Record flush := mkfl { f_at : Z; f_data : list (list Z) }.
Definition f_bytes (f : flush) : list Z := concat (f_data f).

(** Data of the writes not flushed yet, per process. *)
Definition waiting := list (list (list Z)).
Definition emit (doff : Z) (p : waiting) : list flush :=
  match concat p with [] => [] | ds => [mkfl doff ds] end.
Definition emptied (p : waiting) : waiting := map (fun _ => []) p.

(** The flushes of a history; [coll]: reads flush first.  A write without blocks does nothing. *)
Definition flushes_step (coll : bool) (p : waiting) (o : op) : list flush * waiting :=
  match o with
  | OWrite rk _ [] _ => ([], p)
  | OWrite rk _ (_ :: _) data => ([], upd_nth rk (nth rk p [] ++ [data]) p)
  | OFlush doff => (emit doff p, emptied p)
  | ORead doff _ => if coll then (emit doff p, emptied p) else ([], p)
  | OReopen doff np => (emit doff p, repeat [] np)
  | _ => ([], p)
  end.
Fixpoint flushes (coll : bool) (p : waiting) (ops : list op) : list flush * waiting :=
  match ops with
  | [] => ([], p)
  | o :: rest =>
      let '(a, p1) := flushes_step coll p o in
      let '(b, p2) := flushes coll p1 rest in (a ++ b, p2)
  end.
Definition flushes_of (coll : bool) (np : nat) (ops : list op) := flushes coll (repeat [] np) ops.

(** The file after a list of flushes. *)
Definition written (f0 : bytemap) (fs : list flush) : bytemap :=
  fold_left (fun f fl => put f (f_at fl) (f_bytes fl)) fs f0.

(** Where each write of a flush goes: one behind the other. *)
Fixpoint places (off : Z) (ds : list (list Z)) : list (Z * list Z) :=
  match ds with [] => [] | d :: rest => (off, d) :: places (off + Zlen d) rest end.
Definition f_places (f : flush) : list (Z * list Z) := places (f_at f) (f_data f).

(** ** What the file records *)

(** The headers of the entries of a metadata dataset, found by following the recorded sizes. *)
Fixpoint entry_headers (fuel : nat) (buf : list Z) (pos : Z) : list hdr :=
  match fuel with
  | O => []
  | S k => match rd_hdr buf pos with
           | Some h => h :: entry_headers k buf (pos + h_size h)
           | None => []
           end
  end.
Definition md_headers (md : list Z) : list hdr :=
  match md_body md with Some b => entry_headers (length b) b 0 | None => [] end.

(** Position and length recorded for every write that has been flushed: in the metadata datasets
    and, for the processes that still hold it, in their queues. *)
Definition recorded (g : gfile) : list (Z * Z) :=
  map (fun h => (h_foff h, h_fsize h)) (flat_map md_headers (g_mdsets g)) ++
  flat_map (fun st => map (fun w => (h_foff (w_hdr w), h_fsize (w_hdr w))) (flushed st)) (g_ranks g).

(** Two regions have no byte in common. *)
Definition apart (a b : Z * Z) : Prop :=
  forall x, ~ (fst a <= x < fst a + snd a /\ fst b <= x < fst b + snd b).
Definition region (f : flush) : Z * Z := (f_at f, Zlen (f_bytes f)).
Definition inside_region (a r : Z * Z) : Prop := fst r <= fst a /\ fst a + snd a <= fst r + snd r.

(** ** Histories *)

(** Writes name an existing dataset, have blocks of its rank, carry data, and have metadata whose
    size fits the C int that holds it; processes do not read while writes are waiting unless
    reading flushes. *)
Definition shaped_op (coll : bool) (sets : list dinfo) (p : waiting) (o : op) : Prop :=
  match o with
  | OCreate d => length (di_mdims d) = length (di_dims d)
  | OWrite rk did sels data => sels <> [] ->
      0 <= did < 2 ^ 31 /\ 0 < Zlen data < 2 ^ 63 /\
      exists d, nth_error sets (Z.to_nat did) = Some d /\
        Forall (fun b => length (b_start b) = di_ndim d /\ length (b_count b) = di_ndim d) sels /\
        28 + 12 + 8 * Z.of_nat (di_ndim d) * (1 + 2 * Zlen sels) + 16 * Zlen sels < 2 ^ 31
  | ORead _ _ => coll = true \/ concat p = []
  | _ => True
  end.
Definition sets_step (sets : list dinfo) (o : op) : list dinfo :=
  match o with OCreate d => sets ++ [d] | _ => sets end.
Fixpoint shaped (coll : bool) (sets : list dinfo) (p : waiting) (ops : list op) : Prop :=
  match ops with
  | [] => True
  | o :: rest => shaped_op coll sets p o /\
      shaped coll (sets_step sets o) (snd (flushes_step coll p o)) rest
  end.
Definition shaped_history (coll : bool) (np : nat) (ops : list op) : Prop :=
  (0 < np)%nat /\ Z.of_nat np < 2 ^ 31 /\ Forall (fun o => match o with OReopen _ n => (0 < n)%nat /\ Z.of_nat n < 2 ^ 31 | _ => True end) ops /\
  shaped coll [] (repeat [] np) ops.

(** Number of writes of each process that are waiting. *)
Definition pending_counts (g : gfile) : list nat := map num_pending (g_ranks g).

(** A metadata dataset: number of sections, end of each section, the sections. *)
Definition layout (secs : list (list Z)) : list Z :=
  let start := 8 * (Zlen secs + 1) in
  words (Zlen secs :: map (fun i => start + Zlen (concat (firstn (S i) secs))) (seq 0 (length secs)))
  ++ concat secs.

(** A sequence of metadata entries: headers followed by what they announce. *)
Definition whole_entries (sec : list Z) : Prop :=
  exists l : list (hdr * list Z), sec = flat_map (fun e => enc_hdr (fst e) ++ snd e) l /\
    Forall (fun e => h_size (fst e) = Zlen (enc_hdr (fst e) ++ snd e)) l.
(** Position of section [i] in a metadata dataset. *)
Definition section_start (secs : list (list Z)) (i : nat) : Z :=
  8 * (Zlen secs + 1) + Zlen (concat (firstn i secs)).

(** Loading metadata part by part, from section [sec] of dataset [md] on, until the loader says
    that nothing is left: the buffers loaded, [None] if that takes more than [fuel] loads. *)
Fixpoint loaded_parts (fuel : nat) (limit : Z) (mds : list (list Z)) (md sec : nat) : option (list (list Z)) :=
  match fuel with
  | O => None
  | S k =>
      match load_part limit mds md sec with
      | Ok (b, None) => Some [b]
      | Ok (b, Some (md', sec')) => option_map (cons b) (loaded_parts k limit mds md' sec')
      | _ => None
      end
  end.

(** Writes name an existing dataset and have blocks of its rank; nothing else is asked. *)
Definition regular_op (sets : list dinfo) (o : op) : Prop :=
  match o with
  | OCreate d => length (di_mdims d) = length (di_dims d)
  | OWrite rk did sels data => sels <> [] ->
      exists d, nth_error sets (Z.to_nat did) = Some d /\
        Forall (fun b => length (b_start b) = di_ndim d /\ length (b_count b) = di_ndim d) sels
  | _ => True
  end.
Fixpoint regular (sets : list dinfo) (ops : list op) : Prop :=
  match ops with
  | [] => True
  | o :: rest => regular_op sets o /\ regular (sets_step sets o) rest
  end.

(** The size in an entry's header is the entry's size in bytes. *)
Definition announced (w : wreq) : Prop := h_size (w_hdr w) = Zlen (wreq_bytes w).
