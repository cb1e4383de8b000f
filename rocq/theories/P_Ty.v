(** C82 Data of every type H5Dcreate accepts is stored, types of variable length are refused (TyModel.v, TySpec.v). *)
From Verif Require Import Base Spec MetaModel QueueModel FlushModel IndexModel ReadModel SysModel SysSpec History TameSpec Examples SyncSpec SyncClaims TyModel TySpec TyClaims.

(** Types without parts of variable length are accepted, and in every tame history whose processes separate
    their conflicting writes (SyncSpec.v) every element read has the value last written, whatever has become of the program's memory meanwhile. *)
Theorem C82_accepted : forall t, fixed t -> accepts t.
Proof. exact fixed_accepted. Qed.
Print Assumptions C82_accepted.
Theorem C82_fixed_partial : forall e cfg np f0 cs,
  fixed_types cs -> tame e cfg np (map bytes_of cs) -> synchronised (map bytes_of cs) ->
  exists s outs, trun e (init cfg np f0) cs = Ok (s, outs) /\ length outs = length cs /\
    forall i doff calls, nth_error cs i = Some (TOp (ORead doff calls)) ->
      exists bufs, nth_error outs i = Some (Some bufs) /\
        Forall2 (fun c buf => exists d,
          nth_error (t_sets (trace_of true np (firstn i (map bytes_of cs)))) (Z.to_nat (rc_did c)) = Some d /\
          forall k x, nth_error (sel_coords (rc_sels c)) k = Some x ->
            exists b, nth_error (elems (di_esize d) buf) k = Some b /\
              forall t h h', fixed t ->
                value t h b = value t h' (expected (program_order [] (firstn i (map bytes_of cs))) d c k x)) calls bufs.
Proof. exact fixed_values. Qed.
Print Assumptions C82_fixed_partial.
Example C82_fixed_applies : fixed_types ty_par /\ tame e_dflt cfg_dflt 3 (map bytes_of ty_par) /\ synchronised (map bytes_of ty_par).
Proof. exact ty_par_ok. Qed.

(** Strings of variable length are refused. *)
Theorem C82_string_refused : refuses TVstr.
Proof. exact vstr_refused. Qed.
Print Assumptions C82_string_refused.
(** ... and the refused call has no effect: everything before and after it does what it does without that call. *)
Theorem C82_string_no_effect : forall e pre s dims mdims fill post,
  trun e s (pre ++ TCreate TVstr dims mdims fill :: post) =
  do q <- trun e s (pre ++ post); Ok (fst q, firstn (length pre) (snd q) ++ None :: skipn (length pre) (snd q)).
Proof. exact vstr_no_effect. Qed.
Print Assumptions C82_string_no_effect.

(** Every other type with a part of variable length is accepted, and what the part contains is not
    stored: there is an element whose value depends on the memory of the program, and programs that
    write it with either memory leave the same file and get the same from every later call. *)
Theorem C82_variable_length_refuted : forall t, proper t -> ~ fixed t -> t <> TVstr ->
  accepts t /\ exists b h1 h2, length b = tsize t /\ value t h1 b <> value t h2 b /\
    forall e s pre post rk did sels before after,
      trun e s (pre ++ TWrite rk did sels (before ++ b ++ after) h1 :: post) =
      trun e s (pre ++ TWrite rk did sels (before ++ b ++ after) h2 :: post).
Proof. exact contents_lost. Qed.
Print Assumptions C82_variable_length_refuted.
Example C82_variable_length_example :
  exists s, trun e_dflt (init cfg_dflt 1 f_zero) (ty_prog h_before) =
    Ok (s, [None; Some []; Some []; Some []; Some [[2;0;0;0;0;0;0;0] ++ seven8]]) /\
  value (TVlen (TFix 1)) h_before ([2;0;0;0;0;0;0;0] ++ seven8) = VSeq [VBytes [5]; VBytes [6]] /\
  value (TVlen (TFix 1)) h_after ([2;0;0;0;0;0;0;0] ++ seven8) = VSeq [VBytes [99]; VBytes [98]].
Proof. exact ty_prog_run. Qed.
