(** What a user expects of the status of an asynchronous operation. *)
From Verif Require Import Base ReqModel.

(** A part that ends with status [o_final] and is still running at its first [o_delay] waits. *)
Record outcome := mkoutcome { o_delay : nat; o_final : rstat }.

(** Its status at wait number [t], counted from 0. *)
Definition status_at (t : nat) (o : outcome) : rstat :=
  if (t <? o_delay o)%nat then InProgress else o_final o.

(** [s] is a fair report of parts in the states [l]: failure when a part failed, success when all
    succeeded, otherwise the state of a part that did neither. *)
Definition fair_report (l : list rstat) (s : rstat) : Prop :=
  (s = Failed <-> In Failed l) /\
  (s = Succeed <-> Forall (fun x => x = Succeed) l) /\
  (s <> Succeed -> In s l).

(** The answers of the underlying connector for such a part, wait by wait. *)
Definition answers_of (o : outcome) : list rstat := repeat InProgress (o_delay o) ++ [o_final o].

(** An underlying connector [conn] that runs the parts [ps]. *)
Definition runs (w : under) (conn : Z) (ps : list (Z * outcome)) : Prop :=
  In conn (u_conns w) /\ NoDup (map fst ps) /\
  Forall (fun p => u_reqs w (fst p) = Some (answers_of (snd p)) /\ o_final (snd p) <> InProgress) ps.

(** The request of an operation with the parts [ps], if it knew its connector. *)
Definition request_of (conn : Z) (ps : list (Z * outcome)) : request :=
  mkrequest conn (map (fun p => mkpart (fst p) InProgress) ps).
