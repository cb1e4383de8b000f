(** C69: the file written by h5lreplay has the groups, datasets, names and attributes of the user's file. *)
From Verif Require Import Base NameModel LibModel NsModel NsSpec CopyModel CopySpec CopyProofs CopyClaims P_Ns.
From Coq Require Import Ascii String Permutation.
Local Open Scope string_scope.

(** After every sequence of supported calls, if all names are ordinary: the same objects, each once, under
    one of its paths, with its kind and attributes, and the attributes of the file. *)
Theorem C69_structure_partial : forall dbi cs st rs fuel,
  supported_run lib0 cs -> vol_run dbi vol0 cs = Ok (st, rs) ->
  let os := l_objs (fst (lib_run lib0 cs)) in
  (List.length os <= fuel)%nat -> all_ordinary os ->
  exists a t, copy_file fuel (l_objs st) = Ok (a, t) /\ faithful os a t.
Proof. exact copy_faithful. Qed.
Print Assumptions C69_structure_partial.

Definition cprog : list call :=
  [ CGroup 0 "g"; CDset 1 "x"; CDset 0 "D"; CHard 0 "D" 1 "E"; CSoft "x" 1 "S"; CGroup 1 "h"; CDset 4 "x";
    AMake (Self 3) "b" [3]; AMake (Self 3) "_a" [1; 2]; AMake (Self 0) "_int_att" [7]; AMake (Self 5) "c" [4; 5; 6];
    CReopen; COpen 0 "D" ].
Example cprog_supported : supported_run lib0 cprog.
Proof. unfold cprog. cbn [supported_run supported]. solve_supported. Qed.
Example cprog_ordinary : all_ordinary (l_objs (fst (lib_run lib0 cprog))).
Proof.
  intros o H. vm_compute in H. repeat destruct H as [<-|H]; try destruct H;
    split; repeat constructor; cbn; discriminate.
Qed.
(** The object with two hard links is under "g" only, and the soft link is gone. *)
Example cprog_copy :
  match vol_run true vol0 cprog with
  | Ok (st, _) =>
      copy_file 10 (l_objs st) =
      Ok ([("_int_att", [7])],
          [ (["g"], (KGroup, [])); (["g"; "x"], (KDset, [])); (["g"; "E"], (KDset, [("_a", [1; 2]); ("b", [3])]));
            (["g"; "h"], (KGroup, [])); (["g"; "h"; "x"], (KDset, [("c", [4; 5; 6])])) ])
  | _ => False
  end.
Proof. vm_compute. reflexivity. Qed.

(** What is written exactly, as long as no name in the root group starts with an underscore. *)
Theorem C69_exact_partial : forall dbi cs st rs fuel r,
  supported_run lib0 cs -> vol_run dbi vol0 cs = Ok (st, rs) ->
  let os := l_objs (fst (lib_run lib0 cs)) in
  (fuel <> 0)%nat -> nth_error os 0 = Some r ->
  (forall q i, In (q, i) (visit_file fuel os) -> match q with c :: _ => plain c | [] => False end) ->
  copy_file fuel (l_objs st) = Ok (out_attrs (ob_attrs r), flat_map (out os) (visit_file fuel os)).
Proof. exact copy_exact. Qed.
Print Assumptions C69_exact_partial.

(** Below the root group names that start with an underscore come out with one more; objects and
    attributes whose name starts with a dot are lost. *)
Definition dprog : list call :=
  [ CGroup 0 "g"; CDset 1 "_x"; CDset 0 ".D"; AMake (Self 2) ".b" [3]; AMake (Self 2) "c" [4] ].
Example dprog_supported : supported_run lib0 dprog.
Proof. unfold dprog. cbn [supported_run supported]. solve_supported. Qed.
Example dprog_plain : forall q i, In (q, i) (visit_file 5 (l_objs (fst (lib_run lib0 dprog)))) ->
  match q with c :: _ => plain c | [] => False end.
Proof. intros q i H. vm_compute in H. repeat destruct H as [[= <- <-]|H]; try destruct H; cbn; discriminate. Qed.
Theorem C69_names_refuted :
  exists st rs, vol_run true vol0 dprog = Ok (st, rs) /\
    copy_file 5 (l_objs st) = Ok ([], [ (["g"], (KGroup, [])); (["g"; "__x"], (KDset, [("c", [4])])) ]) /\
    hard_path (l_objs (fst (lib_run lib0 dprog))) 0 ["g"; "_x"] 2 /\
    hard_path (l_objs (fst (lib_run lib0 dprog))) 0 [".D"] 3.
Proof.
  eexists. eexists. split; [vm_compute; reflexivity|]. split; [vm_compute; reflexivity|]. split.
  - eapply hp_more; [vm_compute; reflexivity|left; reflexivity|]. eapply hp_one; [vm_compute; reflexivity|left; reflexivity].
  - eapply hp_one; [vm_compute; reflexivity|right; left; reflexivity].
Qed.
Print Assumptions C69_names_refuted.

(** A name with one underscore at the beginning in the root group makes the tool fail. *)
Theorem C69_underscore_refuted : forall dbi cs st rs fuel c r i,
  supported_run lib0 cs -> vol_run dbi vol0 cs = Ok (st, rs) ->
  In (c :: r, i) (visit_file fuel (l_objs (fst (lib_run lib0 cs)))) -> reserved c -> c <> "_LOG" ->
  copy_file fuel (l_objs st) = Err.
Proof. exact copy_fails. Qed.
Print Assumptions C69_underscore_refuted.
Example underscore_case :
  supported_run lib0 [CDset 0 "_x"] /\
  In (["_x"], 1%nat) (visit_file 2 (l_objs (fst (lib_run lib0 [CDset 0 "_x"])))) /\ reserved "_x".
Proof.
  split; [cbn [supported_run supported]; solve_supported|]. split; [left; reflexivity|].
  exists "x". split; [reflexivity|]. intros c s [= <- _]. discriminate.
Qed.
