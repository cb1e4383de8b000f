(** C21 Metadata compression never changes results, continued: what zlib may report (ZipModel.v, ZipSpec.v). *)
From Verif Require Import Base Spec MetaModel QueueModel SysSpec FailModel FailSpec FailClaims ZipModel ZipSpec MetaExamples ZipClaims.

(** Whatever zlib's functions return: when no write call fails, the queue of the process - entries, data and size of the
    metadata - is the one without compression. *)
Theorem C21_compressor_partial : forall s z cfg infos ws st oks, plain_cfg cfg -> has cfg CFG_SEL_DEFLATE = true ->
  zwrites s cfg infos rank0 ws = Ok (st, oks) -> ~ In false oks ->
  queue (ds_writes z (cfg - CFG_SEL_DEFLATE) infos rank0 ws) = Ok (k_wreqs st, k_nflushed st, k_mdsize st).
Proof. exact compressor_none. Qed.
Print Assumptions C21_compressor_partial.

(** With zlib as documented a write does not fail when its compressed selection fits into the connector's buffer. *)
Theorem C21_compressed_fits_partial : forall s cfg infos st did dip sels data st' ok, documented s ->
  nth_error infos (Z.to_nat did) = Some (Some dip) ->
  compressed_fits s (selection_part cfg did dip st sels) (Z.max (k_zbsize st) (selsize_of (mk_wreq cfg did dip (k_mdsize st) sels))) ->
  zwrite s cfg infos st did sels data = Ok (st', ok) -> ok = true.
Proof. exact compressor_fits. Qed.
Print Assumptions C21_compressed_fits_partial.
Example C21_compressed_fits_example : documented stored /\ exists st, zwrites stored 4 [Some f_d] rank0 [(0, zp_small, [5;6;7;8]); (0, zp_big, [1;2;3])] = Ok (st, [false; false]) /\
  compressed_fits stored (selection_part 4 0 f_d st zp_small) (Z.max (k_zbsize st) (selsize_of (mk_wreq 4 0 f_d (k_mdsize st) zp_small))).
Proof. exact zip_fits_ex. Qed.

(** When it does not fit, deflateEnd may answer Z_DATA_ERROR, "the stream was freed prematurely".  Then every write of a new
    selection of several blocks fails; without compression it succeeds. *)
Theorem C21_compressor_error_refuted : forall s z cfg infos st did dip sels data, plain_cfg cfg -> has cfg CFG_SEL_DEFLATE = true ->
  (1 < length sels)%nat -> nth_error infos (Z.to_nat did) = Some (Some dip) -> not_shared cfg did dip st sels ->
  d_end (s_deflate s (selection_part cfg did dip st sels) (Z.max (k_zbsize st) (selsize_of (mk_wreq cfg did dip (k_mdsize st) sels)))) = Z_DATA_ERROR ->
  (exists st', zwrite s cfg infos st did sels data = Ok (st', false) /\ k_wreqs st' = k_wreqs st) /\
  (exists st' w, ds_write z (cfg - CFG_SEL_DEFLATE) infos st did sels data = Ok st' /\ k_wreqs st' = k_wreqs st ++ [w]).
Proof. exact compressor_error. Qed.
Print Assumptions C21_compressor_error_refuted.
Example C21_compressor_example : plain_cfg 4 /\ has 4 CFG_SEL_DEFLATE = true /\
  (exists st, zwrites stored 4 [Some f_d] rank0 [(0, [mkblock [1] [2]], [3;4]); (0, [mkblock [7] [2]], [1;2])] = Ok (st, [true; true])) /\
  not_shared 4 0 f_d rank0 zp_small /\
  d_end (s_deflate stored (selection_part 4 0 f_d rank0 zp_small) (Z.max (k_zbsize rank0) (selsize_of (mk_wreq 4 0 f_d (k_mdsize rank0) zp_small)))) = Z_DATA_ERROR.
Proof. exact zip_ex. Qed.

(** Then the same write fails or succeeds depending on the size of the selections written before. *)
Theorem C21_depends_on_earlier_writes_refuted :
  (exists st, zwrites stored 4 [Some f_d] rank0 zp_ws = Ok (st, [false; false; true; true]) /\ length (k_wreqs st) = 2%nat) /\
  (exists st, ds_writes m_z 0 [Some f_d] rank0 zp_ws = Ok st /\ length (k_wreqs st) = 4%nat).
Proof. exact compressor_depends. Qed.
Print Assumptions C21_depends_on_earlier_writes_refuted.
