(** Properties of names and identifiers. *)
From Verif Require Import Base NameModel NameSpec NameProofs NameClaims.
Local Open Scope string_scope.

(** ** C24 Dataset identifiers

    Whatever the names used, the identifiers handed out in the life of a file, also over closing
    and opening it again, are 0, 1, 2, ...: no two are the same. *)
Theorem C24_ids_unique : forall ops f outs, nrun fs0 ops = Ok (f, outs) -> handed ops outs = zseq (Zlen (handed ops outs)).
Proof. exact handed_any. Qed.
Print Assumptions C24_ids_unique.
(** Opening a dataset gives the identifier it was created with, and fails for anything that does
    not exist: the results of all calls are those of a table from the user's paths to
    identifiers.  No call accesses the table of descriptions out of bounds. *)
Theorem C24_ids_stable : forall ops, Forall simple_op ops -> exists f, nrun fs0 (map call ops) = Ok (f, snd (urun ([], 0) ops)).
Proof. exact names_run. Qed.
Print Assumptions C24_ids_stable.
Example C24_applies : Forall simple_op names_history /\ snd (urun ([], 0) names_history) =
  [Some 0; Some 1; Some 2; None; Some 3; None; Some 2; None; None; Some 4; None; Some 4].
Proof. exact (conj names_history_simple (proj1 names_history_results)). Qed.

(** ** C26 Names

    For paths of components without slash and not starting with a dot. *)
Theorem C26_not_reserved_partial : forall p, simple_path p -> exists s, stored (group_path (fst p)) (snd p) = Ok s /\ ~ reserved s.
Proof. exact stored_never_reserved. Qed.
Print Assumptions C26_not_reserved_partial.
Theorem C26_distinct_partial : forall p q s, simple_path p -> simple_path q ->
  stored (group_path (fst p)) (snd p) = Ok s -> stored (group_path (fst q)) (snd q) = Ok s -> p = q.
Proof. exact stored_distinct. Qed.
Print Assumptions C26_distinct_partial.
(** The scan opens each user dataset by a name that leads back to it, and skips the connector's own
    objects. *)
Theorem C26_scan_partial : forall p, simple_path p -> exists s, stored (group_path (fst p)) (snd p) = Ok s /\
  exists n, dset_visit s = Some n /\ stored "" n = Ok s.
Proof. exact scan_exact. Qed.
Print Assumptions C26_scan_partial.
Theorem C26_scan_skips_internal : forall p, reserved p -> dset_visit p = None /\ iterate_name p = None.
Proof. exact visit_reserved. Qed.
Print Assumptions C26_scan_skips_internal.
(** After any history every existing dataset has its description loaded. *)
Theorem C26_all_loaded_partial : forall ops, Forall simple_op ops ->
  exists f, nrun fs0 (map call ops) = Ok (f, snd (urun ([], 0) ops)) /\
    Forall (fun q => nth (Z.to_nat (snd q)) (f_loaded f) false = true) (fst (fst (urun ([], 0) ops))).
Proof. exact names_refine. Qed.
Print Assumptions C26_all_loaded_partial.
(** Iterating over a group shows the name the user gave. *)
Theorem C26_iterate_partial : forall n, simple_name n -> exists s, name_remap n = Ok s /\ iterate_name s = Some n.
Proof. exact iterate_back. Qed.
Print Assumptions C26_iterate_partial.
Example C26_applies : simple_path (["g"; "_h"], "_x") /\ simple_path ([], "__x") /\ simple_name "_x" /\ reserved "_LOG" /\
  stored (group_path ["g"; "_h"]) "_x" = Ok "g/__h/__x" /\ stored "" "__x" = Ok "___x" /\ name_remap "_x" = Ok "__x".
Proof. repeat split; try reflexivity; try discriminate; repeat constructor; discriminate. Qed.

(** False for other names: an absolute name is stored under a reserved name, and is then skipped by
    the scan; so is a name starting with a dot. *)
Theorem C26_absolute_refuted : stored "" "/_LOG" = Ok "_LOG" /\ reserved "_LOG".
Proof. exact absolute_reserved. Qed.
Print Assumptions C26_absolute_refuted.
Theorem C26_scan_refuted : exists n s, (n = "/_x" \/ n = ".x") /\ stored "" n = Ok s /\ dset_visit s = None.
Proof. exact not_scanned. Qed.
Print Assumptions C26_scan_refuted.
(** A dataset "_x" created in a group "g" cannot be opened as "g/_x", and prevents creating
    "g/__x". *)
Theorem C26_paths_refuted : exists f, nrun fs0 [NCreate "g" "_x"; NOpen "" "g/_x"; NOpen "" "/g/_x"; NCreate "" "g/__x"] = Ok (f, [Some 0; None; None; None]).
Proof. exact path_disagrees. Qed.
Print Assumptions C26_paths_refuted.
