(** Basic vocabulary of the model: outcomes, bytes, words, bounded buffer reads. *)
From Coq Require Export List ZArith Lia Bool Permutation Sorted.
Export ListNotations.
Global Open Scope Z_scope.

(** Outcome of a modelled C++ function.
    [Err]: the function reports an error to its caller (RET_ERR / ERR_OUT / CHECK_*,
    src/H5VL_logi_err.hpp).  [UB]: the C++ code has no defined behaviour from here on
    (out-of-bounds access, null or dangling pointer, division by zero). *)
Inductive res (A : Type) : Type :=
| Ok (a : A)
| Err
| UB.
Arguments Ok {A} a.
Arguments Err {A}.
Arguments UB {A}.

Definition bind {A B} (r : res A) (f : A -> res B) : res B :=
  match r with Ok a => f a | Err => Err | UB => UB end.
Notation "'do' x <- r ; k" := (bind r (fun x => k))
  (at level 200, x name, r at level 100, k at level 200).

(** An [option] whose absence is undefined behaviour (reads outside a buffer). *)
Definition or_ub {A} (o : option A) : res A :=
  match o with Some a => Ok a | None => UB end.

(** * Bytes and words.  A byte is an integer in [0,256). *)

(** [le n z]: the [n] low-order bytes of [z], least significant first; this is the
    memory image of a 2's-complement integer on a little-endian host. *)
Fixpoint le (n : nat) (z : Z) : list Z :=
  match n with
  | O => []
  | S m => (z mod 256) :: le m (z / 256)
  end.

(** Unsigned value of a little-endian byte string. *)
Fixpoint unle (l : list Z) : Z :=
  match l with
  | [] => 0
  | b :: t => b + 256 * unle t
  end.

(** Reinterpretation of an unsigned [8*n]-bit value as a signed one. *)
Definition to_signed (n : nat) (u : Z) : Z :=
  if u <? 2 ^ (8 * Z.of_nat n - 1) then u else u - 2 ^ (8 * Z.of_nat n).

Definition sle (l : list Z) : Z := to_signed (length l) (unle l).

(** Conversion of an integer to C [int] (32 bit), resp. [uint64_t]. *)
Definition i32 (z : Z) : Z := to_signed 4 (z mod 2 ^ 32).
Definition u64 (z : Z) : Z := z mod 2 ^ 64.

(** The 8-byte words of a list of 64-bit values. *)
Definition words (l : list Z) : list Z := flat_map (le 8) l.

(** [rd buf off n]: the [n] bytes of [buf] starting at [off]; [None] when they are not
    all inside the buffer. *)
Definition rd (buf : list Z) (off : Z) (n : nat) : option (list Z) :=
  if (0 <=? off) && (off + Z.of_nat n <=? Z.of_nat (length buf))
  then Some (firstn n (skipn (Z.to_nat off) buf))
  else None.

Definition rd_i32 (buf : list Z) (off : Z) : option Z :=
  option_map sle (rd buf off 4).
Definition rd_i64 (buf : list Z) (off : Z) : option Z :=
  option_map sle (rd buf off 8).
Definition rd_u64 (buf : list Z) (off : Z) : option Z :=
  option_map unle (rd buf off 8).

(** [n] consecutive 8-byte words, unsigned ([hsize_t]). *)
Fixpoint rd_words (buf : list Z) (off : Z) (n : nat) : option (list Z) :=
  match n with
  | O => Some []
  | S m =>
      match rd_u64 buf off, rd_words buf (off + 8) m with
      | Some w, Some ws => Some (w :: ws)
      | _, _ => None
      end
  end.

(** Flag tests of the C code, [if (x & f)]. *)
Definition has (x f : Z) : bool := negb (Z.land x f =? 0).

Definition Zsum (l : list Z) : Z := fold_right Z.add 0 l.
Definition Zprod (l : list Z) : Z := fold_right Z.mul 1 l.
Definition Zlen {A} (l : list A) : Z := Z.of_nat (length l).

(** [0; 1; ...; n-1] *)
Definition zseq (n : Z) : list Z := map Z.of_nat (seq 0 (Z.to_nat n)).

(** Overwrite position [i] of a list (no effect outside). *)
Fixpoint upd_nth {A} (i : nat) (a : A) (l : list A) : list A :=
  match l, i with
  | [], _ => []
  | _ :: t, O => a :: t
  | x :: t, S j => x :: upd_nth j a t
  end.

(** A file or a memory is a total map from addresses to bytes; the unwritten part holds
    whatever the initial map says. *)
Definition bytemap := Z -> Z.

Definition put (m : bytemap) (off : Z) (bytes : list Z) : bytemap :=
  fun p => if (off <=? p) && (p <? off + Zlen bytes)
           then nth (Z.to_nat (p - off)) bytes 0
           else m p.

Definition get (m : bytemap) (off : Z) (n : nat) : list Z :=
  map (fun i => m (off + Z.of_nat i)) (seq 0 n).
