(** Vocabulary for statements about loading the connector. *)
From Verif Require Import Base LoadModel.

Definition mpi_call (c : call) : bool := match c with CMpiInit | CMpiFinalize => true | _ => false end.
Definition file_call (c : call) : bool := match c with CFile _ => true | _ => false end.
(** HDF5 accepts the registrations of the connector. *)
Definition no_fault (c : call) : bool := match c with CRegister f1 f2 | CByName f1 f2 => negb f1 && negb f2 | _ => true end.

Definition loaded (w : world) : Prop := w_conn w <> None.
(** The program [cs] ends in [w]. *)
Definition ends_in (cs : list call) (w : world) : Prop := exists a ans, execs world0 cs = (Done w a, ans).

(** A program that counts its references: [n] of them are held, [id] is the connector's identifier, [lists] are the property
    lists set to the connector and not closed.  The second list has the answers it got. *)
Fixpoint careful (n : Z) (id : option Z) (lists : list Z) (cs : list call) (ans : list answer) : Prop :=
  match cs, ans with
  | [], _ => True
  | CByName f1 f2 :: cs', AId i :: ans' => f1 = false /\ f2 = false /\ careful (n + 1) (Some i) lists cs' ans'
  | CClose i :: cs', _ :: ans' => 0 < n /\ id = Some i /\ careful (n - 1) id lists cs' ans'
  | CSetVol p i :: cs', _ :: ans' => 0 < n /\ id = Some i /\ ~ In p lists /\ careful n id (p :: lists) cs' ans'
  | CCloseList p :: cs', _ :: ans' => In p lists /\ careful n id (remove Z.eq_dec p lists) cs' ans'
  | CFile p :: cs', _ :: ans' => In p lists /\ careful n id lists cs' ans'
  | CWriteN :: cs', _ :: ans' | CReadN :: cs', _ :: ans' => careful n id lists cs' ans'
  | _, _ => False
  end.
(** The property lists left by such a program. *)
Fixpoint open_lists (lists : list Z) (cs : list call) : list Z :=
  match cs with
  | [] => lists
  | CSetVol p _ :: cs' => open_lists (p :: lists) cs'
  | CCloseList p :: cs' => open_lists (remove Z.eq_dec p lists) cs'
  | _ :: cs' => open_lists lists cs'
  end.

(** Whether the connector is loaded, before the first call and after each one. *)
Definition is_loaded (w : world) : bool := match w_conn w with Some _ => true | None => false end.
Fixpoint load_trace (w : world) (cs : list call) : list bool :=
  is_loaded w :: match cs with
                 | [] => []
                 | c :: cs' => match exec w c with Done w1 _ => load_trace w1 cs' | _ => [] end
                 end.
(** MPI when the connector is its only user: on from the first load to the first unload, then off for good. *)
Fixpoint mpi_expected (m : mpi) (l : list bool) : mpi :=
  match l with
  | [] => m
  | true :: l' => mpi_expected (match m with MNone => MOn | m => m end) l'
  | false :: l' => mpi_expected (match m with MOn => MOff | m => m end) l'
  end.
