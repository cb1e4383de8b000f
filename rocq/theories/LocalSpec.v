(** Vocabulary of the properties about single requests and metadata entries.  Nothing here
    depends on how an entry is encoded. *)
From Verif Require Import Base Spec MetaModel.

(** Coordinates fit a signed 64-bit integer. *)
Definition coordinate (x : Z) : Prop := 0 <= x < 2 ^ 63.
Definition well_shaped (n : nat) (b : block) : Prop :=
  length (b_start b) = n /\ length (b_count b) = n /\
  Forall coordinate (b_start b) /\ Forall coordinate (b_count b).

(** The block is non-empty and lies in an array of the given sizes. *)
Definition in_array (dims : list Z) (b : block) : Prop :=
  Forall2 (fun d s => 0 <= s < d) dims (b_start b) /\
  Forall2 (fun d n => 0 < n <= d) dims (b_count b) /\
  Forall2 (fun d e => e <= d) dims (map (fun p => fst p + snd p) (combine (b_start b) (b_count b))).

(** The block is shorter than the array in every dimension but the first. *)
Definition inner_short (dims : list Z) (b : block) : Prop :=
  Forall2 (fun d n => n < d) (tl dims) (tl (b_count b)).

(** Number of elements of a list of blocks. *)
Definition count_elems (sels : list block) : Z := Z.of_nat (length (sel_coords sels)).

(** What a reader must learn from an entry: the dataset, where its data is, the blocks, and
    for every block the number of data bytes before it. *)
Definition describes (m : mentry) (did foff fsize esize : Z) (sels : list block) : Prop :=
  h_did (me_hdr m) = did /\ h_foff (me_hdr m) = foff /\ h_fsize (me_hdr m) = fsize /\
  map (fun s => mkblock (ms_start s) (ms_count s)) (me_sels m) = sels /\
  map ms_doff (me_sels m) = map (fun i => esize * count_elems (firstn i sels)) (seq 0 (length sels)).

(** The request once its data has been given a place in the file. *)
Definition published (w : wreq) (foff fsize : Z) : wreq :=
  mkwreq (mkhdr (h_size (w_hdr w)) (h_did (w_hdr w)) (h_flag (w_hdr w)) foff fsize)
         (w_body w) (w_selpos w) (w_metaoff w) (w_data w).

(** A description of a dataset as the connector keeps it. *)
Definition described (d : dinfo) : Prop :=
  0 < di_esize d /\ length (di_mdims d) = length (di_dims d) /\ di_dsteps d = dsteps_of (di_dims d).

(** The dataset can grow along its first dimension. *)
Definition extendible (d : dinfo) : Prop := hd_error (di_mdims d) = Some UNLIMITED.

(** All blocks lie in one record. *)
Definition in_record (r : Z) (sels : list block) : Prop :=
  Forall (fun b => hd_error (b_start b) = Some r /\ hd_error (b_count b) = Some 1) sels.
(** The part of a block inside its record. *)
Definition tail_block (b : block) : block := mkblock (tl (b_start b)) (tl (b_count b)).

(** HDF5's limit on ranks and a limit on the number of elements of an array. *)
Definition sized (dims : list Z) : Prop := (length dims <= 32)%nat /\ Zprod dims < 2 ^ 58.
