(** The replay utility: which metadata entries of a log file a process replays
    (utils/h5lreplay/h5lreplay_meta.cpp:33-190, little-endian host).  Decoding of the entries is
    in MetaModel; reading and writing the data is in ReplayDataModel. *)
From Verif Require Import Base MetaModel.

(** Loops over the entries of the buffer (:147-171 when metadata sharing is on, :176-186
    otherwise; there the position only advances when the entry is taken).  The result lists the
    positions, from [base], of the entries taken.  Reading outside of the buffer, dividing by zero
    and not ending (no fuel) are [UB]. *)
Fixpoint take_entries (share : bool) (fuel : nat) (buf : list Z) (base off stride : Z) (ep j : Z)
  : res (list Z) :=
  match fuel with
  | O => UB
  | S f =>
      if ep <? Zlen buf then
        match rd_hdr buf ep with
        | None => UB
        | Some h =>
            if stride =? 0 then UB
            else
              let mine := Z.rem (j - off) stride =? 0 in
              if mine then
                do r <- take_entries share f buf base off stride (ep + h_size h) (j + 1);
                Ok (base + ep :: r)
              else take_entries share f buf base off stride
                     (if share then ep + h_size h else ep) (j + 1)
        end
      else Ok []
  end.

(** start, end, off and stride of struct meta_sec (h5lreplay_meta.hpp:17-23) are C ints, but 8
    bytes are read to &start (:92) and to &end (:125): the second read also overwrites off with
    the high half of the value. *)
Definition low_half (b : list Z) : Z := sle (firstn 4 b).
(** The upper half of a 64-bit word (utils/h5lreplay/h5lreplay_meta.cpp:33-190). *)
Definition high_half (b : list Z) : Z := sle (skipn 4 b).

(** h5lreplay_parse_meta for one metadata dataset [md] (:64-144): what process [rank] of [np] reads of
    it, as (position, off, stride, bytes); [None] if there are no sections.  A read outside of the
    dataset is an error of H5Dread. *)
Definition replay_window (rank np : Z) (md : list Z) : res (option (Z * Z * Z * list Z)) :=
  match rd_i64 md 0 with
  | None => Err
  | Some nsec =>
      if nsec <=? 0 then Ok None
      else
        let start := rank * nsec / np * 8 in                                  (* :89 *)
        match rd md start 8 with
        | None => Err
        | Some b1 =>
            let s_start := if start =? 0 then i32 (8 * (nsec + 1)) else low_half b1 in
            let '(stride, next) :=
              if np <=? nsec then (1, (rank + 1) * nsec / np * 8)             (* :101-107 *)
              else                                                            (* :108-121 *)
                let first := np * start / nsec +
                             (if (np * start) mod nsec =? 0 then 1 else 0) in
                let last := np * (start + 1) / nsec -
                            (if (np * (start + 1)) mod nsec =? 0 then 1 else 0) in
                (last - first + 1, start + 8) in
            match rd md next 8 with
            | None => Err
            | Some b2 =>
                let s_end := low_half b2 in
                let s_off := high_half b2 in
                if s_end <? s_start then Err
                else
                  match rd md s_start (Z.to_nat (s_end - s_start)) with
                  | None => Err
                  | Some buf => Ok (Some (s_start, s_off, stride, buf))
                  end
            end
        end
  end.

(** The fuel for the loops over [buf].  utils/h5lreplay/h5lreplay_meta.cpp:33-190. *)
Definition take_fuel (stride : Z) (buf : list Z) : nat := S (Z.to_nat (Zlen buf * Z.max 1 stride)).

(** The positions in [md] of the entries that process [rank] of [np] inserts into its index
    (:146-188). *)
Definition replay_meta (share : bool) (rank np : Z) (md : list Z) : res (list Z) :=
  do w <- replay_window rank np md;
  match w with
  | None => Ok []
  | Some (s_start, s_off, stride, buf) => take_entries share (take_fuel stride buf) buf s_start s_off stride 0 0
  end.
