(** Vocabulary for replay. *)
From Verif Require Import Base MetaModel LogSpec.

(** An entry: a header followed by what it announces. *)
Definition entry := (hdr * list Z)%type.
Definition entry_bytes (e : entry) : list Z := enc_hdr (fst e) ++ snd e.
Definition entry_ok (e : entry) : Prop := h_size (fst e) = Zlen (entry_bytes e).

(** A metadata dataset whose sections are these sequences of entries. *)
Definition meta_dataset (secs : list (list entry)) : list Z := layout (map (flat_map entry_bytes) secs).

(** Positions of consecutive entries. *)
Fixpoint positions (p : Z) (es : list entry) : list Z :=
  match es with
  | [] => []
  | e :: r => p :: positions (p + Zlen (entry_bytes e)) r
  end.

(** Positions of all entries in a metadata dataset. *)
Definition all_positions (secs : list (list entry)) : list Z :=
  positions (8 * (Zlen secs + 1)) (concat secs).
