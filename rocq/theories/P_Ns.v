(** C66, C67, C68: links, attributes and enumerations through the connector. *)
From Verif Require Import Base NameModel LibModel NsModel NsSpec NsClaims.
From Coq Require Import Ascii String.
Local Open Scope string_scope.

(** Every sequence of supported calls on a new file returns what it returns without the connector. *)
Theorem C66_transparent_partial : forall dbi cs, supported_run lib0 cs ->
  exists st, vol_run dbi vol0 cs = Ok (st, snd (lib_run lib0 cs)).
Proof. exact transparent. Qed.
Print Assumptions C66_transparent_partial.

(** And leaves the connector's own attributes and group where they are. *)
Theorem C66_own_objects_partial : forall dbi cs st rs, supported_run lib0 cs ->
  vol_run dbi vol0 cs = Ok (st, rs) -> intact st.
Proof. exact own_kept. Qed.
Print Assumptions C66_own_objects_partial.

(** A program with names that start with underscores, also those the connector uses itself. *)
Definition prog : list call :=
  [ CGroup 0 "_g"; CDset 1 "_LOG"; CDset 0 "_LOG"; CDset 0 "D"; CHard 0 "D" 1 "E"; CSoft "E" 1 "S"; COpen 1 "S";
    AMake (Self 3) "_dims" [1; 2]; AMake (Self 3) "b" [3]; AMake (Self 0) "_int_att" [7]; AMake (Self 4) "c" [4; 5; 6];
    AList (Self 3) ByName Dec; CList 0 ByName Inc; CList 1 ByCrt Dec; AGet (Named 0 "D") "c"; AHas (Named 1 "_LOG") "_ID";
    ANum (Self 3); ANum (Self 0); AInfoIdx (Self 3) ByCrt Dec 1; ADel (Self 3) "_dims"; AHas (Self 3) "_dims";
    CMove (Some 0%nat) "_LOG" (Some 1%nat) "_x"; CExists 0 "_LOG"; CExists 1 "_x"; CReopen; COpen 0 "_g"; COpen 1 "_x";
    AGet (Self 2) "b"; CDelete 1 "S"; CList 1 ByName Inc; COpenIdx 1 ByName Inc 1; AOpenIdx (Self 3) ByCrt Inc 0;
    CNlinks 1; COpen 0 "_LOG" ].
Ltac solve_supported :=
  repeat match goal with
  | |- True => exact Logic.I
  | |- _ /\ _ => split
  | |- nonempty _ => discriminate
  | |- plain _ => cbn; discriminate
  | |- loc_plain _ => cbn; try exact Logic.I; discriminate
  | |- loc_nonempty _ => cbn; try exact Logic.I; discriminate
  | |- own_type _ _ => let H := fresh in intros ? ? H; vm_compute in H; try discriminate; injection H as <- <-; reflexivity
  | |- not_root _ _ => let H := fresh in intros ? ? H; vm_compute in H; try discriminate; injection H as <- <-; discriminate
  | |- _ \/ _ => first [left; repeat split; reflexivity | right]
  | |- forall i o, loc_of _ _ = Some (i, o) -> _ => let H := fresh in intros ? ? H; vm_compute in H; try discriminate; injection H as <- <-; reflexivity
  end.
Example prog_supported : supported_run lib0 prog.
Proof. unfold prog. cbn [supported_run supported]. solve_supported. Qed.
Example prog_results : snd (lib_run lib0 prog) =
  [ ROk; ROk; ROk; ROk; ROk; ROk; ROk; ROk; ROk; ROk; ROk;
    RNames ["b"; "_dims"]; RNames ["D"; "_LOG"; "_g"]; RNames ["S"; "E"; "_LOG"]; RVal [4; 5; 6]; RBool false;
    RNum 2; RNum 1; RNum 2; ROk; RBool false;
    ROk; RBool false; RBool true; ROk; ROk; ROk;
    RVal [3]; ROk; RNames ["E"; "_LOG"; "_x"]; ROk; RFail; RNum 3; RFail ].
Proof. vm_compute. reflexivity. Qed.

(** A soft link made under a name with one underscore at the beginning can neither be found, opened nor
    deleted: whatever was done before and whatever the link points to. *)
Theorem C66_new_links_refuted : forall dbi cs h i g t n,
  supported_run lib0 cs -> obj_of (fst (lib_run lib0 cs)) h = Some (i, g) -> ob_kind g = KGroup ->
  reserved n -> n <> "_LOG" -> assoc n (ob_links g) = None ->
  exists st, vol_run dbi vol0 (cs ++ [CSoft t h n; CExists h n; COpen h n; CDelete h n]) =
    Ok (st, (snd (lib_run lib0 cs) ++ [ROk; RBool false; RFail; RFail])%list).
Proof. exact new_links_lost. Qed.
Print Assumptions C66_new_links_refuted.
Example new_links_case :
  exists g, obj_of (fst (lib_run lib0 [CDset 0 "D"])) 0 = Some (0%nat, g) /\ ob_kind g = KGroup /\ reserved "_s" /\
    snd (lib_run lib0 [CDset 0 "D"; CSoft "D" 0 "_s"; CExists 0 "_s"; COpen 0 "_s"; CDelete 0 "_s"]) =
      [ROk; ROk; RBool true; ROk; ROk].
Proof.
  eexists. split; [vm_compute; reflexivity|]. repeat split.
  exists "s". split; [reflexivity|]. intros c s [= <- _]. discriminate.
Qed.

(** Hard links, copies and soft links whose target starts with an underscore; and moving within one
    group with H5L_SAME_LOC. *)
Theorem C66_links_refuted :
  (forall dbi, exists st, vol_run dbi vol0 [CDset 0 "_d"; CHard 0 "_d" 0 "e"; CSoft "_d" 0 "s"; COpen 0 "s"; CCopy 0 "_d" 0 "c";
     CCopy 0 "_LOG" 0 "l"; COpen 0 "l"] = Ok (st, [ROk; RFail; ROk; RFail; RFail; ROk; ROk])) /\
  snd (lib_run lib0 [CDset 0 "_d"; CHard 0 "_d" 0 "e"; CSoft "_d" 0 "s"; COpen 0 "s"; CCopy 0 "_d" 0 "c";
     CCopy 0 "_LOG" 0 "l"; COpen 0 "l"]) = [ROk; ROk; ROk; ROk; ROk; RFail; RFail] /\
  (forall dbi, vol_run dbi vol0 [CDset 0 "a"; CMove (Some 0%nat) "a" None "b"] = UB) /\
  snd (lib_run lib0 [CDset 0 "a"; CMove (Some 0%nat) "a" None "b"]) = [ROk; ROk].
Proof. repeat split; try (intros dbi; eexists); vm_compute; reflexivity. Qed.
Print Assumptions C66_links_refuted.

(** Deleting the first attribute of a dataset by its index succeeds whatever attributes the dataset
    has, and the file cannot be opened again: for every history, provided the library passes the
    object of H5Adelete_by_idx by name; otherwise the call always fails. *)
Theorem C67_delete_by_idx_refuted : forall cs h i o n r u,
  supported_run lib0 cs -> obj_of (fst (lib_run lib0 cs)) h = Some (i, o) -> ob_kind o = KDset ->
  l_objs (fst (lib_run lib0 cs)) = (r :: u)%list -> In (n, Hard i) (ob_links r) ->
  (forall c s, n = String c s -> c <> SLASH /\ c <> DOT) ->
  exists st, vol_run true vol0 (cs ++ [ADelIdx (Self h) ByCrt Inc 0; CReopen; COpen 0 n]) =
    Ok (st, (snd (lib_run lib0 cs) ++ [ROk; RFail; RFail])%list).
Proof. exact delete_by_index_run. Qed.
Print Assumptions C67_delete_by_idx_refuted.
Theorem C67_delete_by_idx_fails_refuted : forall cs l it io k, supported_run lib0 cs ->
  exists st, vol_run false vol0 (cs ++ [ADelIdx l it io k]) = Ok (st, (snd (lib_run lib0 cs) ++ [RFail])%list).
Proof. exact delete_by_index_refused. Qed.
Print Assumptions C67_delete_by_idx_fails_refuted.
Example delete_by_idx_case :
  snd (lib_run lib0 [CDset 0 "D"; AMake (Self 1) "a" [1]; ADelIdx (Self 1) ByCrt Inc 0; CReopen; COpen 0 "D"]) =
    [ROk; ROk; ROk; ROk; ROk] /\
  exists o r u, obj_of (fst (lib_run lib0 [CDset 0 "D"; AMake (Self 1) "a" [1]])) 1 = Some (1%nat, o) /\
    l_objs (fst (lib_run lib0 [CDset 0 "D"; AMake (Self 1) "a" [1]])) = (r :: u)%list /\
    In ("D", Hard 1) (ob_links r) /\ ob_kind o = KDset.
Proof. split; [vm_compute; reflexivity|]. eexists _, _, _. vm_compute. repeat split; eauto. Qed.

(** Attributes of an object named by a name with an underscore, renaming, information by name, and
    access by index in decreasing order, in the order of names, or through another identifier. *)
Theorem C67_attributes_refuted : forall dbi,
  (exists st, vol_run dbi vol0 [CDset 0 "_d"; AMake (Named 0 "_d") "a" [1]; AMake (Self 1) "_a" [2]; AInfo (Self 1) "_a";
      ARen (Self 1) "_a" "b"; ANameIdx (Self 1) ByCrt Inc 0; AMake (Self 1) "z" [3; 4]; AOpenIdx (Self 1) ByCrt Dec 0;
      AOpenIdx (Self 1) ByName Inc 0; AMake (Self 1) "A" [5]; AOpenIdx (Self 1) ByName Inc 0; ARen (Self 1) "_ID" "id"; COpen 0 "_d"]
    = Ok (st, [ROk; RFail; ROk; RFail; RFail; RName "__a"; ROk; RVal []; RVal []; ROk; RVal [];
               ROk; RFail])) /\
  snd (lib_run lib0 [CDset 0 "_d"; AMake (Named 0 "_d") "a" [1]; AMake (Self 1) "_a" [2]; AInfo (Self 1) "_a";
      ARen (Self 1) "_a" "b"; ANameIdx (Self 1) ByCrt Inc 0; AMake (Self 1) "z" [3; 4]; AOpenIdx (Self 1) ByCrt Dec 0;
      AOpenIdx (Self 1) ByName Inc 0; AMake (Self 1) "A" [5]; AOpenIdx (Self 1) ByName Inc 0; ARen (Self 1) "_ID" "id"; COpen 0 "_d"])
    = [ROk; ROk; ROk; RNum 1; ROk; RName "a"; ROk; RVal [3; 4]; RVal [1]; ROk; RVal [5]; RFail; ROk].
Proof. intros dbi. split; [eexists|]; vm_compute; reflexivity. Qed.
Print Assumptions C67_attributes_refuted.

(** The number of links of the root group is one too many, for every history. *)
Theorem C68_number_of_links_refuted : forall dbi cs r u, supported_run lib0 cs ->
  l_objs (fst (lib_run lib0 cs)) = (r :: u)%list -> obj_of (fst (lib_run lib0 cs)) 0 = Some (0%nat, r) ->
  exists st, vol_run dbi vol0 (cs ++ [CNlinks 0]) = Ok (st, (snd (lib_run lib0 cs) ++ [RNum (Zlen (ob_links r) + 1)])%list).
Proof. exact nlinks_root. Qed.
Print Assumptions C68_number_of_links_refuted.

(** The number of attributes of an object named from another one, exactly: right only when both keep the
    same number of own attributes, and near 2^64 for an object without attributes named from the file. *)
Theorem C68_number_of_attributes_refuted : forall dbi cs h hd n i o,
  supported_run lib0 cs -> nonempty n ->
  nth_error (l_hnds (fst (lib_run lib0 cs))) h = Some hd ->
  loc_of (fst (lib_run lib0 cs)) (Named h n) = Some (i, o) -> i <> 0%nat ->
  exists st, vol_run dbi vol0 (cs ++ [ANum (Named h n)]) =
    Ok (st, (snd (lib_run lib0 cs) ++
      [RNum ((Zlen (ob_attrs o) + match ob_kind o with KDset => 3 | _ => 0 end
               - match h_type hd with TFile => 1 | TObj KDset => 3 | _ => 0 end) mod 2 ^ 64)])%list).
Proof. exact num_attrs_by_name. Qed.
Print Assumptions C68_number_of_attributes_refuted.
Example number_of_attributes_case : forall dbi,
  exists st, vol_run dbi vol0 [CGroup 0 "g"; CDset 0 "d"; ANum (Named 0 "g"); ANum (Named 0 "d"); CNlinks 0; COpenIdx 0 ByCrt Inc 0;
    CNameIdx 0 ByCrt Inc 0] =
    Ok (st, [ROk; ROk; RNum 18446744073709551615; RNum 2; RNum 3; ROk; RFail]) /\
  snd (lib_run lib0 [CGroup 0 "g"; CDset 0 "d"; ANum (Named 0 "g"); ANum (Named 0 "d"); CNlinks 0; COpenIdx 0 ByCrt Inc 0;
    CNameIdx 0 ByCrt Inc 0]) =
    [ROk; ROk; RNum 0; RNum 0; RNum 2; ROk; RName "g"].
Proof. intros dbi. eexists. split; vm_compute; reflexivity. Qed.

(** Opening the first object of a file without objects succeeds, and it is the connector's group. *)
Theorem C68_open_by_idx_refuted : forall dbi,
  (exists st, vol_run dbi vol0 [COpenIdx 0 ByCrt Inc 0; CList 0 ByCrt Inc] = Ok (st, [ROk; RNames []])) /\
  snd (lib_run lib0 [COpenIdx 0 ByCrt Inc 0; CList 0 ByCrt Inc]) = [RFail; RNames []].
Proof. intros dbi. split; [eexists|]; vm_compute; reflexivity. Qed.
Print Assumptions C68_open_by_idx_refuted.
