(** Properties of the connector's settings: their text form, as in HDF5_VOL_CONNECTOR, and the
    references the objects hold.  Texts are lists of character codes. *)
From Verif Require Import Base InfoModel InfoClaims.

(** ** C48 The text form of connector settings reads back

    Proved for connector numbers of at most seven digits (HDF5 allows five): the settings of the
    connector below may be any text, braces included. *)
Theorem C48_text_partial : forall v u, 0 <= v < 10 ^ 7 ->
  exists s, info_to_str v u = Ok s /\ str_to_info s = Ok (v, match u with [] => None | _ => Some u end).
Proof. exact text_reads_back. Qed.
Print Assumptions C48_text_partial.
Example C48_text_applies : exists s, info_to_str 512 [123; 125; 125] = Ok s /\
  str_to_info s = Ok (512, Some [123; 125; 125]).
Proof. eexists. split; reflexivity. Qed.

(** A stack of connectors of any depth. *)
Theorem C48_stack_partial : forall vs, vs <> [] -> Forall (fun v => 0 <= v < 10 ^ 7) vs ->
  exists s, stack_to_str vs = Ok s /\ exists n, str_to_stack n s = Ok vs.
Proof. exact stack_reads_back. Qed.
Print Assumptions C48_stack_partial.
Example C48_stack_applies : [512; 505; 0] <> [] /\ Forall (fun v => 0 <= v < 10 ^ 7) [512; 505; 0].
Proof. split; [discriminate|]. repeat (apply Forall_cons || apply Forall_nil); lia. Qed.

(** For an underlying connector that is no longer registered, whose number is reported as
    (unsigned) -1, the text is longer than the memory allocated for it. *)
Theorem C48_unknown_refuted : forall u, info_to_str (2 ^ 32 - 1) u = UB.
Proof. exact unknown_overflows. Qed.
Print Assumptions C48_unknown_refuted.

(** A text without a connector number (nor a blank or sign before one, which sscanf accepts and the
    model does not) makes an indeterminate number be used; in one with a closing
    brace and no opening one, the address of the settings is computed from a null pointer. *)
Theorem C48_malformed_refuted : forall s,
  (forall c rest, 48 <= c <= 57 \/ 9 <= c <= 13 \/ In c [32; 43; 45] -> s <> under_vol ++ c :: rest) \/ (~ In open_brace s /\ In close_brace s) ->
  str_to_info s = UB.
Proof. exact malformed. Qed.
Print Assumptions C48_malformed_refuted.
Example C48_malformed_applies : (forall c rest, 48 <= c <= 57 \/ 9 <= c <= 13 \/ In c [32; 43; 45] -> skipn 1 under_info ++ [close_brace] <> under_vol ++ c :: rest) /\
  let s := under_vol ++ [53; 59; close_brace] in ~ In open_brace s /\ In close_brace s.
Proof.
  split; [intros c rest _; discriminate|]. cbv zeta. split; [|apply in_or_app; right; cbn; auto].
  intros H. cbn in H. repeat (destruct H as [H|H]; [discriminate H|]). exact H.
Qed.

(** ** C49 Settings objects give back the references they take

    [s0] holds the settings objects of the user, one reference each; after a sequence of copies and
    releases that leaves no object, the references are gone.  Proved without objects made from
    text or by H5Pset_vol_log, and without calls on files. *)
Theorem C49_released_partial : forall os s0 s v, irun s0 os = Ok s ->
  (forall o, In o os -> forall w, o <> IText w /\ o <> ISet w /\ o <> IUse w) -> Forall (fun o => o = None) (i_objs s) ->
  i_refs s v = i_refs s0 v - held v (i_objs s0).
Proof. exact refs_released. Qed.
Print Assumptions C49_released_partial.
Example C49_released_applies : exists s,
  irun (mkistate [Some 5] (fun v => if v =? 5 then 3 else 0)) [ICopy 0; IFree 0; ICopy 1; IFree 2; IFree 1] = Ok s /\
  Forall (fun o => o = None) (i_objs s) /\ i_refs s 5 = 2.
Proof. eexists. split; [reflexivity|]. split; [repeat constructor|reflexivity]. Qed.

(** Every object made from text and every call of H5Pset_vol_log, H5Fcreate, H5Fopen, H5Fdelete
    and H5Fis_accessible ([IUse]) leaves one reference behind. *)
Theorem C49_leak_refuted : forall os s0 s v, irun s0 os = Ok s -> Forall (fun o => o = None) (i_objs s) ->
  i_refs s v = i_refs s0 v - held v (i_objs s0) +
    Zlen (filter (fun o => match o with IText w | ISet w | IUse w => w =? v | _ => false end) os).
Proof. exact refs_leak. Qed.
Print Assumptions C49_leak_refuted.
Example C49_leak_applies : exists s, irun (mkistate [] (fun _ => 0)) [IText 5; ICopy 0; IFree 0; ISet 5; IUse 5; IFree 1; IUse 5; IFree 2] = Ok s /\
  Forall (fun o => o = None) (i_objs s) /\ i_refs s 5 = 4.
Proof. eexists. split; [reflexivity|]. split; [repeat constructor|reflexivity]. Qed.
