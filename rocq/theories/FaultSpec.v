(** Vocabulary for statements about calls that fail. *)
From Verif Require Import Base Spec MetaModel QueueModel FlushModel IndexModel SysModel CrashModel FaultModel.

(** Nothing fails. *)
Definition fine (o : op) : fop := Call (fun _ => false) o.

(** Creating a log dataset, a metadata dataset or the dataset that stands for one of the user, and
    writing data.  The others are the parts of a metadata dataset and the attributes. *)
Definition early (x : effect) : Prop :=
  match x with XLog _ | XData _ _ | XMd _ _ | XAnchor _ _ => True | _ => False end.
Definition puts_meta (x : effect) : bool := match x with XMdPut _ _ _ => true | _ => false end.
Definition makes_dset (x : effect) : bool := match x with XAnchor _ _ => true | _ => false end.

(** H5Fclose or H5Dset_extent. *)
Definition is_close (f : fop) : bool :=
  match f with Call _ (OReopen _ _) | LostMeta _ _ => true | _ => false end.
Definition is_extent (f : fop) : bool := match f with Call _ (OSetExtent _ _) => true | _ => false end.

(** [repaired fs os ops outs]: [ops] are the calls [fs] without those that returned an error according to
    [os]; H5Fflush may stand in the place of a read that returned an error.  [outs] are the results in
    [os] of the calls that remain. *)
Inductive repaired : list fop -> list (option (list (list Z))) -> list op -> list (list (list Z)) -> Prop :=
| R_nil : repaired [] [] [] []
| R_ok bad o out fs os ops outs : repaired fs os ops outs -> repaired (Call bad o :: fs) (Some out :: os) (o :: ops) (out :: outs)
| R_drop bad o fs os ops outs : repaired fs os ops outs -> repaired (Call bad o :: fs) (None :: os) ops outs
| R_flush bad doff calls fs os ops outs : repaired fs os ops outs ->
    repaired (Call bad (ORead doff calls) :: fs) (None :: os) (OFlush doff :: ops) ([] :: outs).

(** The same calls with other data, of the same length. *)
Definition other_data (o o' : op) : Prop :=
  match o, o' with
  | OWrite rk did sels data, OWrite rk' did' sels' data' => rk = rk' /\ did = did' /\ sels = sels' /\ length data = length data'
  | OCreate d, OCreate d' => d = d'
  | OSetExtent did dims, OSetExtent did' dims' => did = did' /\ dims = dims'
  | _, _ => False
  end.

(** A read of something. *)
Definition reads (f : fop) : Prop :=
  match f with Call _ (ORead _ calls) => Exists (fun c => rc_sels c <> []) calls | _ => False end.

(** H5Fflush, a read or H5Fclose. *)
Definition uses_file (f : fop) : Prop :=
  match f with Call _ (OFlush _) | Call _ (ORead _ _) | LostData => True | _ => is_close f = true end.

(** The sizes that H5Dget_space reports (src/H5VL_log_dataset.cpp:450-452). *)
Definition reported (x : fstate) (did : Z) : option (list Z) :=
  match info_at (g_infos (s_g (x_sys x))) did with Some (Some d) => Some (di_dims d) | _ => None end.

(** What the calls returned. *)
Definition returned (r : res (fstate * list (option (list (list Z))))) : res (list (option (list (list Z)))) :=
  do p <- r; Ok (snd p).
