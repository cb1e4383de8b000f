(** What a user expects of the main programs of the utilities. *)
From Coq Require Import String.
From Verif Require Import Base UtilModel.
Open Scope list_scope. Open Scope Z_scope.

(** The file [p] is a log file with contents [c]; [p] cannot be replayed: it is missing, not HDF5, or an ordinary HDF5 file. *)
Definition log_file (d : fs) (p : string) (c : list Z) : Prop := exists h, d p = Some (mkuf h (Some (true, c))).
Definition no_log (d : fs) (p : string) : Prop := forall c, ~ log_file d p c.

(** The utility did what it was asked to do. *)
Definition replayed_to (w : world) (d d' : fs) (inp out : string) : Prop :=
  exists c h, log_file d inp c /\ snd (w_copy w c) = true /\ d' out = Some (mkuf h (Some (false, fst (w_copy w c)))) /\ forall p, p <> out -> d' p = d p.
