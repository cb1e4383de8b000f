(** C46: a write that fails has no effect: whatever is written, flushed and read later is the same as
    if the failed call had not been made. *)
From Verif Require Import Base Spec MetaModel QueueModel FlushModel IndexModel FailModel FailSpec FailClaims MetaExamples.

(** Without metadata sharing, for every later sequence of writes. *)
Theorem C46_no_sharing_partial : forall z cfg infos st did sels st', has cfg CFG_METADATA_SHARE = false ->
  ds_write_failed z cfg infos st did sels = Ok st' -> same_future z cfg infos st st'.
Proof. exact failed_without_sharing. Qed.
Print Assumptions C46_no_sharing_partial.
Example C46_no_sharing_applies : exists st', ds_write_failed m_z 2 [Some f_d] rank0 0 f_a = Ok st'.
Proof. eexists. vm_compute. reflexivity. Qed.

(** With sharing, when the selection was written before. *)
Theorem C46_known_selection_partial : forall z cfg infos st did dip sels st' tgt,
  nth_error infos (Z.to_nat did) = Some (Some dip) ->
  hash_find (mk_wreq cfg did dip (k_mdsize st) sels) (k_hash st) = Ok (Some tgt) ->
  ds_write_failed z cfg infos st did sels = Ok st' -> same_future z cfg infos st st'.
Proof. exact failed_known. Qed.
Print Assumptions C46_known_selection_partial.
Example C46_known_applies : exists st tgt st', ds_write m_z 10 [Some f_d] rank0 0 f_a [5;6;7;8] = Ok st /\
  hash_find (mk_wreq 10 0 f_d (k_mdsize st) f_a) (k_hash st) = Ok (Some tgt) /\
  ds_write_failed m_z 10 [Some f_d] st 0 f_a = Ok st'.
Proof. eexists. eexists. eexists. split; [vm_compute; reflexivity|]. split; vm_compute; reflexivity. Qed.

(** With sharing and a new selection: repeating the write queues an entry that names itself as the
    entry holding its selection; the selection is lost. *)
Theorem C46_repeated_refuted : forall z cfg infos st did dip sels data st1 st2,
  has cfg CFG_METADATA_SHARE = true -> sels <> [] ->
  nth_error infos (Z.to_nat did) = Some (Some dip) ->
  8 < selsize_of (mk_wreq cfg did dip (k_mdsize st) sels) ->
  hash_find (mk_wreq cfg did dip (k_mdsize st) sels) (k_hash st) = Ok None ->
  ds_write_failed z cfg infos st did sels = Ok st1 ->
  ds_write z cfg infos st1 did sels data = Ok st2 ->
  exists w, k_wreqs st2 = k_wreqs st ++ [w] /\ refers w 0.
Proof. exact failed_refers_to_itself. Qed.
Print Assumptions C46_repeated_refuted.
Example C46_repeated_applies : has 10 CFG_METADATA_SHARE = true /\
  8 < selsize_of (mk_wreq 10 0 f_d (k_mdsize rank0) f_a) /\
  hash_find (mk_wreq 10 0 f_d (k_mdsize rank0) f_a) (k_hash rank0) = Ok None /\
  exists st1 st2, ds_write_failed m_z 10 [Some f_d] rank0 0 f_a = Ok st1 /\
    ds_write m_z 10 [Some f_d] st1 0 f_a [5;6;7;8] = Ok st2.
Proof. split; [reflexivity|]. split; [reflexivity|]. split; [reflexivity|]. eexists. eexists. split; vm_compute; reflexivity. Qed.

(** Reading such a section is undefined with the array index, and the compact index holds a null
    pointer. *)
Theorem C46_unreadable_refuted :
  f_array (f_after false [(0, f_a, [5;6;7;8])]) = Ok [[[0];[4]]] /\
  f_array (f_after true [(0, f_a, [5;6;7;8])]) = UB /\
  f_compact (f_after true [(0, f_a, [5;6;7;8])]) = Ok [None].
Proof. exact failed_unreadable. Qed.
Print Assumptions C46_unreadable_refuted.

(** With another write in between, the data goes to the place of that other write. *)
Theorem C46_misplaced_refuted :
  f_array (f_after false f_two) = Ok [[[8];[12]]; [[0];[4]]] /\
  f_array (f_after true f_two) = Ok [[[8];[12]]; [[8];[12]]] /\
  f_compact (f_after false f_two) = Ok [Some (2, [8;2;12;2]); Some (2, [0;2;4;2])] /\
  f_compact (f_after true f_two) = Ok [Some (2, [8;2;12;2]); Some (2, [8;2;12;2])].
Proof. exact failed_misplaced. Qed.
Print Assumptions C46_misplaced_refuted.
