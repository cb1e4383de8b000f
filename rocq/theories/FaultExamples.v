(** Cases for P_Fault.v, computed. *)
From Verif Require Import Base Spec MetaModel QueueModel FlushModel IndexModel SysModel History AnySpec TameSpec TameProofs SysCheck AnyClaims CrashModel CrashSpec FaultModel FaultSpec
  FaultClaims3 Examples CrashClaims2.

Definition on_data (x : effect) : bool := match x with XData _ _ => true | _ => false end.
Definition on_log (x : effect) : bool := match x with XLog _ => true | _ => false end.
Definition on_md (x : effect) : bool := match x with XMd _ _ => true | _ => false end.
Definition on_dims (x : effect) : bool := match x with XDims _ _ => true | _ => false end.
Definition on_mdims (x : effect) : bool := match x with XMdims _ _ => true | _ => false end.
Definition on_att (x : effect) : bool := match x with XAtt _ => true | _ => false end.
Definition v_write : op := OWrite 0 0 [B [0;2] [1;1]] [7;8].
Definition v_seen (fs : list fop) := returned (frun e_dflt (fstart cfg_dflt 1 f_zero) fs).
(** Creating a dataset, flushing and a read fail, and are repeated. *)
Definition v_calls : list fop := Call makes_dset (OCreate dA) :: map fine c_one ++
  [fine c_write; Call on_log (OFlush 200); fine v_write; Call on_md (ORead 200 c_rd); fine (ORead 200 c_rd); fine (OReopen 500 2); fine (ORead 600 c_rd)].
Definition v_outs : list (option (list (list Z))) := [None; Some []; Some []; Some []; None; Some []; None; Some [[3; 3; 4; 4; 7; 8]]; Some []; Some [[3; 3; 4; 4; 7; 8]]].
Lemma v_calls_ex : v_seen v_calls = Ok v_outs /\ Forall (fun f => exists bad o, f = Call bad o /\ forall y, bad y = true -> early y) v_calls /\
  Forall2 (fun f out => is_close f = true \/ is_extent f = true -> out <> None) v_calls v_outs.
Proof.
  split; [vm_compute; reflexivity|]. split.
  - unfold v_calls, c_one, fine. cbn [map app]. repeat (constructor; [eexists _, _; split; [reflexivity|]; intros [] Hy; cbn in *; try discriminate; auto|]). constructor.
  - unfold v_calls, v_outs, c_one, fine. cbn [map app]. repeat (constructor; [cbn; intros [Q|Q]; discriminate|]). constructor.
Qed.
Lemma v_stuck_ex : v_seen (map fine (c_one ++ [c_write]) ++ Call on_data (OFlush 200) :: [fine v_write; fine (OFlush 200); fine (ORead 200 c_rd)] ++ [fine (OReopen 500 1)]) =
  Ok ([Some []; Some []; Some []] ++ None :: [Some []; None; None] ++ [None]) /\ (forall n, on_data (XLog n) = false).
Proof. split; [vm_compute; reflexivity|reflexivity]. Qed.
Lemma v_meta_ex : let h := map fine (c_one ++ [c_write]) ++ Call puts_meta (ORead 200 c_rd) :: [fine v_write; fine (OFlush 300); fine (OReopen 500 1)] in
  v_seen h = Ok ([Some []; Some []; Some []] ++ None :: [Some []; Some []; Some []]) /\ v_seen (h ++ [fine (ORead 600 c_rd)]) = Err /\ reads (fine (ORead 600 c_rd)) /\
  observed (run e_dflt (init cfg_dflt 1 f_zero) (c_one ++ [c_write; ORead 200 c_rd])) = Ok [[]; []; []; [[3; 3; 4; 4; 9; 9]]].
Proof. split; [vm_compute; reflexivity|]. split; [vm_compute; reflexivity|]. split; [constructor; discriminate|vm_compute; reflexivity]. Qed.
Lemma v_close_ex :
  tame e_dflt cfg_dflt 1 ([OCreate dA] ++ OReopen 100 1 :: [c_write] ++ [OReopen 200 1]) /\ tame e_dflt cfg_dflt 1 ([OCreate dA] ++ [OReopen 100 1; ORead 600 c_rd]) /\
  Forall (fun o => creates o = false /\ closes o = false) [c_write] /\
  v_seen (map fine ([OCreate dA] ++ OReopen 100 1 :: [c_write]) ++ [Call on_att (OReopen 200 1); fine (OReopen 300 1); fine (ORead 600 c_rd)]) =
  Ok ([Some []; Some []; Some []] ++ [None; Some []; Some [[9; 9; 9; 9; 9; 9]]]).
Proof. split; [tame_dflt|]. split; [tame_dflt|]. split; [repeat constructor|]. vm_compute. reflexivity. Qed.
Lemma v_lost_meta_ex : let h := map fine (c_one ++ [c_write]) ++ LostMeta 200 1 :: [fine v_write; fine (OReopen 500 1)] in
  v_seen h = Ok ([Some []; Some []; Some []] ++ Some [] :: [Some []; Some []]) /\ v_seen (h ++ [fine (ORead 600 c_rd)]) = Err.
Proof. split; vm_compute; reflexivity. Qed.
Lemma v_lost_data_ex : Forall2 other_data [c_write] [OWrite 0 0 [B [0;0] [1;2]] [5;6;7;8]] /\
  forall w, In w [c_write; OWrite 0 0 [B [0;0] [1;2]] [5;6;7;8]] ->
  v_seen (map fine c_one ++ map fine [w] ++ LostData :: [fine (ORead 500 c_rd); fine (OReopen 500 1); fine (ORead 600 c_rd)]) =
  Ok ([Some []; Some []] ++ [Some []] ++ Some [] :: [Some [[0; 0; 0; 0; 9; 9]]; Some []; Some [[0; 0; 0; 0; 9; 9]]]).
Proof. split; [repeat constructor|]. intros w [<-|[<-|[]]]; vm_compute; reflexivity. Qed.
Lemma v_create_ex : let h := map fine c_one ++ Call on_mdims (OCreate dA) :: [fine c_write; fine (ORead 200 c_rd)] in
  v_seen h = Ok ([Some []; Some []] ++ None :: [Some []; Some [[3; 3; 4; 4; 9; 9]]]) /\ v_seen (h ++ [fine (OReopen 500 1)]) = Err /\ forall k d, on_mdims (XAnchor k d) = false.
Proof. split; [vm_compute; reflexivity|]. split; [vm_compute; reflexivity|]. reflexivity. Qed.
Lemma v_extent_ex : let h := map fine [OCreate dR; OWrite 0 0 [B [0;0] [1;2]] [3;4]] ++ [Call on_dims (OSetExtent 0 [9;4])] in
  v_seen h = Ok (map Some [[]; []] ++ [None]) /\ snd (set_dims (di_dims dR) (di_mdims dR) [9;4]) = true /\
  (do p <- run e_dflt (init cfg_dflt 1 f_zero) [OCreate dR; OWrite 0 0 [B [0;0] [1;2]] [3;4]]; Ok (match info_at (g_infos (s_g (fst p))) 0 with Some (Some d) => (di_dims d, di_mdims d) | _ => ([], []) end)) = Ok ([3;4], [UNLIMITED;4]) /\
  (do p <- frun e_dflt (fstart cfg_dflt 1 f_zero) h; Ok (reported (fst p) 0)) = Ok (Some [9;4]) /\
  (do p <- frun e_dflt (fstart cfg_dflt 1 f_zero) (h ++ [fine (OReopen 300 1)]); Ok (reported (fst p) 0)) = Ok (Some [3;4]).
Proof. split; [vm_compute; reflexivity|]. split; [vm_compute; reflexivity|]. split; [vm_compute; reflexivity|]. split; vm_compute; reflexivity. Qed.
