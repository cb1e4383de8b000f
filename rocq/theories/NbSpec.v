(** Vocabulary for statements about non-blocking reads in histories. *)
From Verif Require Import Base Spec MetaModel SysModel History NbModel.

(** The non-blocking reads issued and not completed by H5Fflush, each with its process; closing the file
    forgets them. *)
Fixpoint pending_reads (q : list (nat * rcall)) (ops : list nop) : list (nat * rcall) :=
  match ops with
  | [] => q
  | NRead rk c :: rest => pending_reads (match rc_sels c with [] => q | _ => q ++ [(rk, c)] end) rest
  | NOp (OFlush _) :: rest | NOp (OReopen _ _) :: rest => pending_reads [] rest
  | NOp _ :: rest => pending_reads q rest
  end.
(** Those of one process. *)
Definition reads_of (rk : nat) (q : list (nat * rcall)) : list rcall :=
  map snd (filter (fun p => (fst p =? rk)%nat) q).

(** The same program with blocking reads: those that H5Fflush completes come right after it (they write
    nothing; 2^62 stands for where they would). *)
Fixpoint as_blocking (q : list (nat * rcall)) (ops : list nop) : list op :=
  match ops with
  | [] => []
  | NRead rk c :: rest => as_blocking (match rc_sels c with [] => q | _ => q ++ [(rk, c)] end) rest
  | NOp (OFlush doff) :: rest =>
      match q with
      | [] => OFlush doff :: as_blocking [] rest
      | _ => OFlush doff :: ORead (2 ^ 62) (map snd q) :: as_blocking [] rest
      end
  | NOp (OReopen doff np) :: rest => OReopen doff np :: as_blocking [] rest
  | NOp o :: rest => o :: as_blocking q rest
  end.

(** Non-blocking reads are issued by one of the [np] processes, for one of the [nd] datasets that exist. *)
Fixpoint issued_well (np nd : nat) (ops : list nop) : bool :=
  match ops with
  | [] => true
  | NRead rk c :: rest => (rk <? np)%nat && (0 <=? rc_did c) && (Z.to_nat (rc_did c) <? nd)%nat && issued_well np nd rest
  | NOp (OCreate _) :: rest => issued_well np (S nd) rest
  | NOp (OReopen _ np') :: rest => issued_well np' nd rest
  | NOp _ :: rest => issued_well np nd rest
  end.

(** The size of the buffer of a read. *)
Definition buf_size (sets : list dinfo) (c : rcall) : Z := esize_at sets (rc_did c) * Zlen (sel_coords (rc_sels c)).
Definition apart_buffers (sets : list dinfo) (x y : rcall) : Prop :=
  rc_buf x + buf_size sets x <= rc_buf y \/ rc_buf y + buf_size sets y <= rc_buf x.

(** Calls that are not H5Fflush. *)
Definition no_flush (o : nop) : Prop := match o with NOp (OFlush _) => False | _ => True end.
(** Neither H5Fflush nor H5Fclose. *)
Definition stays_open (o : nop) : Prop := match o with NOp (OFlush _) | NOp (OReopen _ _) => False | _ => True end.
