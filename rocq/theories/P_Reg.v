(** C73: files that were not made by the connector. *)
From Verif Require Import Base NameModel LibModel NsModel RegModel RegSpec RegFileProofs.
From Coq Require Import Ascii String.
Local Open Scope string_scope.

(** On any file, whatever the library does with data: every sequence of supported calls returns what it
    returns without the connector and leaves the same file. *)
Theorem C73_transparent_partial : forall (D A X : Type) (ud : X -> lib -> D -> X * A) x st cs,
  rsupported_run ud x st cs -> reg_run ud x st cs = Ok (plain_run ud x st cs).
Proof. intros D A X ud x st cs. exact (reg_run_plain ud cs x st). Qed.
Print Assumptions C73_transparent_partial.

(** A library that keeps one number per file; 0 reads it. *)
Definition ud1 (x : Z) (st : lib) (d : Z) : Z * Z := if Z.eqb d 0 then (x, x) else (d, d).
Definition rprog : list (rcall Z) :=
  [ RNs (CGroup 0 "_g"); RNs (CDset 1 "_LOG"); RNs (CDset 0 "_ID"); RData 7; RNs (AMake (Self 0) "__int_att" [1]);
    RNs (AMake (Self 1) "_a" [2]); RNs (AMake (Self 1) "b" [3; 4]); RNs (AOpenIdx (Self 1) ByName Dec 0);
    RNs (ANameIdx (Self 1) ByName Dec 0); RNs (ANum (Self 1)); RNs (ANum (Named 1 "_LOG")); RNs (AHas (Named 0 "_g") "_a");
    RNs (CMove (Some 0%nat) "_ID" (Some 1%nat) "_d"); RNs (CList 0 ByName Inc); RNs (CList 1 ByName Inc); RNs (CNlinks 0);
    RNs CReopen; RNs (COpenIdx 0 ByCrt Inc 0); RNs (CList 1 ByCrt Inc); RData 0; RNs (CNameIdx 0 ByCrt Inc 0) ].
Example rprog_supported : rsupported_run ud1 0 lib0 rprog.
Proof.
  unfold rprog, rsupported_run. cbn [rsupported_from rsupported].
  repeat match goal with
  | |- True => exact Logic.I
  | |- _ /\ _ => split
  | |- other_id _ _ => let H := fresh in intros ? H; vm_compute in H; injection H as <-; split; discriminate
  | |- no_mark _ => let H := fresh in intros ? ? H; vm_compute in H; injection H as <- <-; cbn; intros [E|[]]; discriminate
  | |- forall i o, loc_of _ _ = Some (i, o) -> _ => let H := fresh in intros ? ? H; vm_compute in H; try discriminate; injection H as <- <-; reflexivity
  end.
Qed.
Example rprog_results : exists z, reg_run ud1 0 lib0 rprog = Ok (z,
  [ RR ROk; RR ROk; RR ROk; RA 7; RR ROk; RR ROk; RR ROk; RR (RVal [3; 4]); RR (RName "b"); RR (RNum 2); RR (RNum 0);
    RR (RBool true); RR ROk; RR (RNames ["_g"]); RR (RNames ["_LOG"; "_d"]); RR (RNum 1); RR ROk; RR ROk;
    RR (RNames ["_LOG"; "_d"]); RA 7; RR (RName "_g") ]).
Proof. eexists. vm_compute. reflexivity. Qed.

(** The number of attributes reported through the identifier of the file is one too small and through
    that of a dataset three too small, modulo 2^64, for every file and history. *)
Theorem C73_number_of_attributes_refuted : forall (D A X : Type) (ud : X -> lib -> D -> X * A) x st cs h t i o,
  rsupported_run ud x st cs -> on_id (file_after ud x st cs) h t -> loc_of (file_after ud x st cs) (Self h) = Some (i, o) ->
  exists z, reg_run ud x st (cs ++ [RNs (ANum (Self h))]) =
    Ok (z, (results_of ud x st cs ++
      [RR (RNum ((Zlen (ob_attrs o) - match t with TFile => 1 | TObj KDset => 3 | _ => 0 end) mod 2 ^ 64))])%list).
Proof.
  intros D A X ud x st cs h t i o H O L. destruct (count_wrong ud cs x st (Self h) t i o H O L) as [z E]. exists z. rewrite E.
  destruct t as [|[]]; reflexivity.
Qed.
Print Assumptions C73_number_of_attributes_refuted.

(** An attribute looked up by its index in increasing order is another one: the name returned is that
    one or three places further. *)
Theorem C73_name_by_idx_refuted : forall (D A X : Type) (ud : X -> lib -> D -> X * A) x st cs h t i o it k,
  rsupported_run ud x st cs -> on_id (file_after ud x st cs) h t -> loc_of (file_after ud x st cs) (Self h) = Some (i, o) ->
  exists z, reg_run ud x st (cs ++ [RNs (ANameIdx (Self h) it Inc k)]) =
    Ok (z, (results_of ud x st cs ++
      [RR (match nth_error (ordered it Inc (ob_attrs o)) (k + match t with TFile => 1 | TObj KDset => 3 | _ => 0 end) with
           | Some q => RName (fst q) | None => RFail end)])%list).
Proof.
  intros D A X ud x st cs h t i o it k H O L. destruct (shifted ud cs x st (Self h) t i o it k H O L) as [z E]. exists z. rewrite E.
  destruct t as [|[]]; reflexivity.
Qed.
Print Assumptions C73_name_by_idx_refuted.

(** The last attribute cannot be looked up by its index at all, in neither order. *)
Theorem C73_last_attribute_refuted : forall (D A X : Type) (ud : X -> lib -> D -> X * A) x st cs h t i o it io k,
  rsupported_run ud x st cs -> on_id (file_after ud x st cs) h t -> t = TFile \/ t = TObj KDset ->
  loc_of (file_after ud x st cs) (Self h) = Some (i, o) -> S k = List.length (ob_attrs o) ->
  (exists z, reg_run ud x st (cs ++ [RNs (ANameIdx (Self h) it io k)]) = Ok (z, (results_of ud x st cs ++ [RR RFail])%list)) /\
  (exists z, reg_run ud x st (cs ++ [RNs (AInfoIdx (Self h) it io k)]) = Ok (z, (results_of ud x st cs ++ [RR RFail])%list)).
Proof. intros D A X ud x st cs h. exact (fun t i o it io k => last_lost ud cs x st (Self h) t i o it io k). Qed.
Print Assumptions C73_last_attribute_refuted.

(** A program whose file has an attribute _int_att cannot open the file again; when the attribute has
    more than five elements, opening writes outside an array. *)
Theorem C73_mark_refuted : forall (D A X : Type) (ud : X -> lib -> D -> X * A) x st cs r t v,
  rsupported_run ud x st cs -> l_objs (file_after ud x st cs) = (r :: t)%list -> assoc "_int_att" (ob_attrs r) = Some v ->
  (5 < Zlen v -> reg_run ud x st (cs ++ [RNs CReopen]) = UB) /\
  (Zlen v <= 5 -> ~ In "_LOG" (map fst (ob_links r)) ->
    exists z, reg_run ud x st (cs ++ [RNs CReopen]) = Ok (z, (results_of ud x st cs ++ [RR RFail])%list)).
Proof. intros D A X ud x st cs. exact (marked ud cs x st). Qed.
Print Assumptions C73_mark_refuted.

(** The cases are met: a group, a dataset with two attributes, the file with one; and what the calls
    return without the connector.  H5Dcreate with variable-length strings, H5Fget_access_plist and
    H5Lmove with H5L_SAME_LOC do not work either. *)
Definition rcase : list (rcall Z) :=
  [ RNs (CDset 0 "d"); RNs (AMake (Self 1) "a" [1]); RNs (AMake (Self 1) "b" [2]); RNs (AMake (Self 0) "c" [3]) ].
Definition rlook : list (rcall Z) :=
  [ RNs (ANum (Self 1)); RNs (ANum (Self 0)); RNs (ANameIdx (Self 1) ByCrt Inc 0); RNs (ANameIdx (Self 1) ByCrt Dec 0);
    RNs (AInfoIdx (Self 0) ByName Dec 0); RVarStr 0 "s"; RFapl ].
Theorem C73_calls_refuted :
  (exists z, reg_run ud1 0 lib0 (rcase ++ rlook) = Ok (z, ([RR ROk; RR ROk; RR ROk; RR ROk] ++
    [RR (RNum 18446744073709551615); RR (RNum 0); RR RFail; RR RFail; RR RFail; RR RFail; RR RFail])%list)) /\
  snd (plain_run ud1 0 lib0 (rcase ++ rlook)) = ([RR ROk; RR ROk; RR ROk; RR ROk] ++
    [RR (RNum 2); RR (RNum 1); RR (RName "a"); RR (RName "b"); RR (RNum 1); RR ROk; RR ROk])%list /\
  reg_run ud1 0 lib0 (rcase ++ [RNs (CMove (Some 0%nat) "d" None "e")]) = UB /\
  snd (plain_run ud1 0 lib0 (rcase ++ [RNs (CMove (Some 0%nat) "d" None "e")])) = [RR ROk; RR ROk; RR ROk; RR ROk; RR ROk] /\
  reg_run ud1 0 lib0 [RNs (AMake (Self 0) "_int_att" [1; 2; 3; 4; 5; 6]); RNs CReopen] = UB /\
  (exists z, reg_run ud1 0 lib0 [RNs (AMake (Self 0) "_int_att" [1]); RNs CReopen; RNs (COpen 0 "d")] = Ok (z, [RR ROk; RR RFail; RR RFail])).
Proof. repeat split; try eexists; vm_compute; reflexivity. Qed.
Print Assumptions C73_calls_refuted.
Example rcase_supported : rsupported_run ud1 0 lib0 rcase /\ on_id (file_after ud1 0 lib0 rcase) 1 (TObj KDset) /\
  on_id (file_after ud1 0 lib0 rcase) 0 TFile /\
  loc_of (file_after ud1 0 lib0 rcase) (Self 1) = Some (1%nat, mkobj KDset [("a", [1]); ("b", [2])] []).
Proof. unfold rsupported_run. repeat split; try (eexists; split; vm_compute; reflexivity). Qed.
