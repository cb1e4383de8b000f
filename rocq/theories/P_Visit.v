(** C78: H5Ovisit and H5Lvisit through the connector. *)
From Verif Require Import Base NameModel LibModel NsModel NsSpec CopyModel CopySpec VisitModel VisitSpec VisitClaims.
From Coq Require Import Ascii String.
Local Open Scope string_scope.

(** After every sequence of supported calls on a new file, in every order, from every place: the callback is
    called for the same objects or links as without the connector, in the same order, and with what [told]
    says.  In particular never for the connector's own group. *)
Theorem C78_visit_exact_partial : forall dbi cs l lk it io, supported_run lib0 cs -> loc_nonempty l ->
  exists st, vol_run dbi vol0 cs = Ok (st, snd (lib_run lib0 cs)) /\
    vol_visit lk it io st l =
      Ok (option_map (map (told (at_root (fst (lib_run lib0 cs)) l))) (lib_tour lk it io (fst (lib_run lib0 cs)) l)).
Proof. exact visit_exact. Qed.
Print Assumptions C78_visit_exact_partial.

(** H5Lvisit: the same calls as without the connector when only first names of paths start with
    underscores. *)
Theorem C78_visit_links_partial : forall dbi cs l it io v, supported_run lib0 cs -> loc_nonempty l ->
  lib_tour true it io (fst (lib_run lib0 cs)) l = Some v -> Forall (fun x => plain_below (fst x)) v ->
  exists st, vol_run dbi vol0 cs = Ok (st, snd (lib_run lib0 cs)) /\
    vol_visit true it io st l = Ok (lib_visit true it io (fst (lib_run lib0 cs)) l).
Proof. exact visit_links. Qed.
Print Assumptions C78_visit_links_partial.

(** H5Ovisit: the same paths and kinds of objects. *)
Theorem C78_visit_objects_partial : forall dbi cs l it io v, supported_run lib0 cs -> loc_nonempty l ->
  lib_tour false it io (fst (lib_run lib0 cs)) l = Some v -> Forall (fun x => plain_below (fst x)) v ->
  exists st v', vol_run dbi vol0 cs = Ok (st, snd (lib_run lib0 cs)) /\
    vol_visit false it io st l = Ok (Some v') /\
    map fst v' = map (fun x => join (fst x)) v /\
    map (fun x => match snd x with IObj k _ => Some k | ILink _ => None end) v' =
    map (fun x => match snd x with IObj k _ => Some k | ILink _ => None end) v.
Proof. exact visit_objects. Qed.
Print Assumptions C78_visit_objects_partial.

(** Every path shown by H5Ovisit can be given to H5Oopen at the place where the visit started, and opens the
    object it was shown for. *)
Theorem C78_shown_paths_open_partial : forall dbi cs h it io v p x, supported_run lib0 cs ->
  lib_tour false it io (fst (lib_run lib0 cs)) (Self h) = Some v -> In (p, x) v -> Forall component p ->
  exists st j o o', vol_run dbi vol0 cs = Ok (st, snd (lib_run lib0 cs)) /\
    vol_find st h (join (out_path p)) = Ok (Some j) /\ nth_error (l_objs st) j = Some o' /\
    (exists i, lib_find (fst (lib_run lib0 cs)) h (join p) = Some i /\ nth_error (l_objs (fst (lib_run lib0 cs))) i = Some o) /\
    x = IObj (ob_kind o) (Zlen (ob_attrs o)) /\ same_object o o'.
Proof. exact visit_opens. Qed.
Print Assumptions C78_shown_paths_open_partial.

(** Whenever a name that is not the first of its path starts with an underscore, the paths shown differ. *)
Theorem C78_names_below_refuted : forall dbi cs l lk it io v c r n x, supported_run lib0 cs -> loc_nonempty l ->
  lib_tour lk it io (fst (lib_run lib0 cs)) l = Some v ->
  In ((c :: r)%list, x) v -> In n r -> (exists s, n = String US s) ->
  exists st v', vol_run dbi vol0 cs = Ok (st, snd (lib_run lib0 cs)) /\
    vol_visit lk it io st l = Ok (Some v') /\ map fst v' <> map (fun x => join (fst x)) v.
Proof. exact visit_names. Qed.
Print Assumptions C78_names_below_refuted.

(** The number of attributes told by H5Ovisit is always too large: by three for every dataset, by one for
    the root group. *)
Theorem C78_number_of_attributes_refuted : forall dbi cs l it io v, supported_run lib0 cs -> loc_nonempty l ->
  lib_tour false it io (fst (lib_run lib0 cs)) l = Some v ->
  exists st v', vol_run dbi vol0 cs = Ok (st, snd (lib_run lib0 cs)) /\
    vol_visit false it io st l = Ok (Some v') /\
    (forall p n, In (p, IObj KDset n) v -> at_root (fst (lib_run lib0 cs)) l = false \/ p <> []%list ->
       In (join (out_path p), IObj KDset (n + 3)) v') /\
    (at_root (fst (lib_run lib0 cs)) l = true -> forall k n, In ([]%list, IObj k n) v -> In (".", IObj k (n + 1)) v').
Proof. exact visit_counts. Qed.
Print Assumptions C78_number_of_attributes_refuted.

(** A file with groups in groups, a dataset with two names, a soft link, and names with underscores. *)
Definition vprog : list call :=
  [ CGroup 0 "_g"; CGroup 1 "h"; CDset 2 "d"; AMake (Self 3) "a" [1]; CDset 0 "_LOG"; CDset 0 "B"; CHard 0 "B" 1 "e";
    CSoft "e" 1 "s" ].
Example vprog_supported : supported_run lib0 vprog.
Proof. unfold vprog. cbn [supported_run supported]. repeat split; cbn; try discriminate; try exact Logic.I. Qed.
Example vprog_results : snd (lib_run lib0 vprog) = [ROk; ROk; ROk; ROk; ROk; ROk; ROk; ROk].
Proof. vm_compute. reflexivity. Qed.
Example vprog_alone :
  lib_visit false ByName Inc (fst (lib_run lib0 vprog)) (Self 0) =
    Some [(".", IObj KGroup 0); ("B", IObj KDset 0); ("_LOG", IObj KDset 0); ("_g", IObj KGroup 0);
          ("_g/h", IObj KGroup 0); ("_g/h/d", IObj KDset 1)] /\
  lib_visit true ByName Dec (fst (lib_run lib0 vprog)) (Self 0) =
    Some [("_g", ILink true); ("_g/s", ILink false); ("_g/h", ILink true); ("_g/h/d", ILink true); ("_g/e", ILink true);
          ("_LOG", ILink true); ("B", ILink true)] /\
  lib_visit false ByCrt Inc (fst (lib_run lib0 vprog)) (Named 0 "_g") =
    Some [(".", IObj KGroup 0); ("h", IObj KGroup 0); ("h/d", IObj KDset 1); ("e", IObj KDset 0)].
Proof. repeat split; vm_compute; reflexivity. Qed.
Example vprog_through : forall dbi, exists st, vol_run dbi vol0 vprog = Ok (st, snd (lib_run lib0 vprog)) /\
  vol_visit false ByName Inc st (Self 0) =
    Ok (Some [(".", IObj KGroup 1); ("B", IObj KDset 3); ("_LOG", IObj KDset 3); ("_g", IObj KGroup 0);
          ("_g/h", IObj KGroup 0); ("_g/h/d", IObj KDset 4)]) /\
  vol_visit true ByName Dec st (Self 0) = Ok (lib_visit true ByName Dec (fst (lib_run lib0 vprog)) (Self 0)) /\
  vol_visit false ByCrt Inc st (Named 0 "_g") =
    Ok (Some [(".", IObj KGroup 0); ("h", IObj KGroup 0); ("h/d", IObj KDset 4); ("e", IObj KDset 3)]).
Proof. intros dbi. eexists. repeat split; vm_compute; reflexivity. Qed.
Example vprog_plain : exists v, lib_tour true ByName Dec (fst (lib_run lib0 vprog)) (Self 0) = Some v /\
  Forall (fun x => plain_below (fst x)) v /\ Forall (fun x => Forall component (fst x)) v.
Proof.
  eexists. split; [vm_compute; reflexivity|].
  split; repeat constructor; cbn; try discriminate; intuition discriminate.
Qed.
(** The same dataset one level deeper under a name with an underscore. *)
Example below_case : forall dbi,
  supported_run lib0 [CGroup 0 "g"; CDset 1 "_d"] /\
  lib_visit false ByCrt Inc (fst (lib_run lib0 [CGroup 0 "g"; CDset 1 "_d"])) (Self 0) =
    Some [(".", IObj KGroup 0); ("g", IObj KGroup 0); ("g/_d", IObj KDset 0)] /\
  exists st, vol_run dbi vol0 [CGroup 0 "g"; CDset 1 "_d"] = Ok (st, [ROk; ROk]) /\
    vol_visit false ByCrt Inc st (Self 0) =
      Ok (Some [(".", IObj KGroup 1); ("g", IObj KGroup 0); ("g/__d", IObj KDset 3)]) /\
    vol_find st 0 "g/__d" = Ok (Some 3%nat) /\ vol_find st 0 "g/_d" = Ok None.
Proof.
  intros dbi. split; [cbn; repeat split; discriminate|]. split; [vm_compute; reflexivity|]. eexists. repeat split; vm_compute; reflexivity.
Qed.
