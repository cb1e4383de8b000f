(** Properties of the shape of datasets.

    [shape_run cfg [] os] performs the calls [os] on a new file and lists what they return;
    [spec_run] is the expected list, [proper] says that datasets are used as HDF5 requires
    (ShapeSpec). *)
From Verif Require Import Base MetaModel SysModel ShapeModel ShapeSpec ShapeClaims.

(** ** C50 H5Dget_space reports the current shape

    Proved when no change of size is rejected: every H5Dget_space, before and after closing and
    reopening the file, reports the sizes of the last H5Dset_extent or of the creation. *)
Theorem C50_reported_partial : forall cfg os,
  proper cfg [] [] os -> ~ In OFailed (snd (spec_run [] os)) ->
  exists l, shape_run cfg [] os = Ok (l, snd (spec_run [] os)).
Proof. exact reported. Qed.
Print Assumptions C50_reported_partial.
Example C50_reported_applies : proper 10 [] [] s_ops /\
  snd (spec_run [] s_ops) =
    [ODone; ODone; OSpace [7; 5] [UNLIMITED; 5]; ODone; ODone; OSpace [7; 5] [UNLIMITED; 5]; ODone;
     OSpace [1; 0] [UNLIMITED; 5]].
Proof. exact s_ops_proper. Qed.

(** After a rejected change the sizes before the first offending one are reported as changed; the
    sizes stored in the file are the old ones, which come back when the file is reopened. *)
Theorem C50_rejected_refuted : forall cfg d new,
  length (di_mdims d) = di_ndim d -> (has cfg CFG_SEL_ENCODE = true -> di_ndim d <> 0%nat) ->
  length new = di_ndim d -> allowed (di_mdims d) new = false ->
  exists k l, (k < di_ndim d)%nat /\
    shape_run cfg [] [SCreate d; SExtent 0 new; SSpace 0; SReopen; SOpen 0; SSpace 0] =
    Ok (l, [ODone; OFailed; OSpace (firstn k new ++ skipn k (di_dims d)) (di_mdims d); ODone; ODone;
            OSpace (di_dims d) (di_mdims d)]).
Proof. exact rejected_reported. Qed.
Print Assumptions C50_rejected_refuted.
Example C50_rejected_applies : length (di_mdims s_d) = di_ndim s_d /\ di_ndim s_d <> 0%nat /\
  length [7; 6] = di_ndim s_d /\ allowed (di_mdims s_d) [7; 6] = false /\
  exists l, shape_run 10 [] [SCreate s_d; SExtent 0 [7; 6]; SSpace 0] =
    Ok (l, [ODone; OFailed; OSpace [7; 3] [UNLIMITED; 5]]).
Proof. repeat split; try discriminate. eexists. reflexivity. Qed.
