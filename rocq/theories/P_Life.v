(** Properties of internal buffers, buffered writes and the life time of files. *)
From Verif Require Import Base BufModel BufSpec RefModel RefSpec LifeClaims.

(** ** C29 Internal buffer space

    For a file object whose counter starts at zero: after any history of requests and releases the
    counter is the number of bytes handed out (modulo the size of the type), hence zero when all is
    released; below the limit without wrapping when there is one; and a request is refused only when
    it does not fit. *)
Theorem C29_accounting_partial : forall limit os s, brun (bufs_new limit 0) os = Ok s ->
  bf_used s = outstanding s mod 2 ^ 64 /\ (bf_live s = [] -> bf_used s = 0).
Proof. exact accounting. Qed.
Print Assumptions C29_accounting_partial.
Theorem C29_limit_partial : forall L os s, 0 <= L < 2 ^ 63 -> sizes_below (2 ^ 63) os ->
  brun (bufs_new L 0) os = Ok s -> bf_used s = outstanding s /\ 0 <= bf_used s <= L.
Proof. exact limit_kept. Qed.
Print Assumptions C29_limit_partial.
Theorem C29_refused_only_full_partial : forall L os s n oom, 0 <= L < 2 ^ 63 -> sizes_below (2 ^ 63) os ->
  0 <= n < 2 ^ 63 -> brun (bufs_new L 0) os = Ok s ->
  (balloc oom s n = Err <-> L < outstanding s + n \/ oom = true).
Proof. exact refused_only_full. Qed.
Print Assumptions C29_refused_only_full_partial.
Example C29_applies : sizes_below (2 ^ 63) ex_bops /\
  exists s, brun (bufs_new 100 0) ex_bops = Ok s /\ bf_live s = [(1%nat, 50); (2%nat, 25)] /\ bf_used s = 75.
Proof. exact ex_bops_run. Qed.

(** A flush releases every internal block of the writes before it, each block once. *)
Theorem C29_flush_releases_partial : forall e mem limit os q,
  wrun e (start_proc mem limit) (os ++ [WFlush]) = Ok q ->
  bf_live (wp_bufs (fst q)) = [] /\ bf_used (wp_bufs (fst q)) = 0.
Proof. exact flush_releases. Qed.
Print Assumptions C29_flush_releases_partial.
Theorem C29_no_double_free : forall e mem limit os, (forall b, we_filter e b <> UB) ->
  wrun e (start_proc mem limit) os <> UB.
Proof. exact no_double_free. Qed.
Print Assumptions C29_no_double_free.

(** The counter of a new file object is not initialised, and sums of sizes can wrap. *)
Theorem C29_uninitialised_refuted :
  (exists garbage n s, 0 <= garbage < 2 ^ 64 /\ 0 <= n <= 10 /\
     brun (bufs_new 10 garbage) [] = Ok s /\ balloc false s n = Err) /\
  (exists garbage os s, 0 <= garbage < 2 ^ 64 /\ sizes_below (2 ^ 63) os /\
     brun (bufs_new 10 garbage) os = Ok s /\ 10 < outstanding s).
Proof. exact uninitialised. Qed.
Print Assumptions C29_uninitialised_refuted.
Theorem C29_wrap_refuted :
  exists os s, sizes_below (2 ^ 64) os /\ brun (bufs_new 10 0) os = Ok s /\ 10 < outstanding s.
Proof. exact wrapped. Qed.
Print Assumptions C29_wrap_refuted.

(** ** C20 Buffered writes

    Each flush writes what the writes before it handed over when they were called, whatever the
    program does to its memory in between, when no write lets the connector keep using the user's
    buffer: the property is false (or unset), or packing, type conversion or filtering makes a copy. *)
Theorem C20_isolated_partial : forall e mem limit os q,
  Forall (fun o => match o with WWrite m _ _ _ _ _ => aliases m = false | _ => True end) os ->
  wrun e (start_proc mem limit) os = Ok q -> ideal e mem [] os = Ok (snd q).
Proof. exact isolated. Qed.
Print Assumptions C20_isolated_partial.
Example C20_applies :
  Forall (fun o => match o with WWrite m _ _ _ _ _ => aliases m = false | _ => True end) ex_wops /\
  (exists q, wrun ex_ext (start_proc (fun a => a) 20) ex_wops = Ok q) /\
  ideal ex_ext (fun a => a) [] ex_wops = Ok [[0; 1; 2]; [100; 102]; [7; 4; 5; 50; 60]; [7; 50; 60]].
Proof. exact ex_wops_run. Qed.
(** In every mode, the same if the program does not touch the buffers of aliasing writes before
    the next flush. *)
Theorem C20_untouched : forall e mem limit os q, stores_safe [] os ->
  wrun e (start_proc mem limit) os = Ok q -> ideal e mem [] os = Ok (snd q).
Proof. exact buffered_safe. Qed.
Print Assumptions C20_untouched.
Example C20_untouched_applies : stores_safe [] ex_wops2 /\
  (exists q, wrun ex_ext (start_proc (fun a => a) 20) ex_wops2 = Ok q) /\
  ideal ex_ext (fun a => a) [] ex_wops2 = Ok [[0; 1; 2]; [50; 51]].
Proof. exact ex_wops2_run. Qed.
(** Asking for buffering has the opposite effect: the user's buffer is used at the flush. *)
Theorem C20_buffered_refuted :
  exists e mem os q m, wm_buffered m = true /\ In (WWrite m 0 4 4 false false) os /\
    wrun e (start_proc mem BSIZE_UNLIMITED) os = Ok q /\ ideal e mem [] os <> Ok (snd q).
Proof. exact buffered_not_isolated. Qed.
Print Assumptions C20_buffered_refuted.

(** ** C30 Closing the file

    After any history of opens, failed opens, callbacks and closes, through any identifiers, the
    underlying file has been closed once if the program holds no identifier any more and not at all
    otherwise, and the file object is never used after it was deleted.  Provided H5Iget_file_id is
    only called while an identifier of the file is open, H5Dopen does not fail in a file that is not
    log based, and the count fits an int. *)
Theorem C30_closed_once_partial : forall log os, Zlen os < 2 ^ 31 - 1 ->
  opens_succeed log os -> file_id_open (fobj_new log) os ->
  exists f, rrun (fobj_new log) os = Ok f /\ fo_closes f = expected_closes f.
Proof. exact closed_once. Qed.
Print Assumptions C30_closed_once_partial.
Example C30_applies : opens_succeed true ex_rops /\ file_id_open (fobj_new true) ex_rops /\
  exists f, rrun (fobj_new true) ex_rops = Ok f /\ all_closed f.
Proof. exact ex_rops_run. Qed.
(** H5Iget_file_id after H5Fclose: closing the new identifier closes the file under an open dataset,
    whose close is then undefined. *)
Theorem C30_get_file_refuted : exists os f, rrun (fobj_new true) os = Ok f /\
  ~ all_closed f /\ fo_closes f = 1%nat /\ rrun f [RClose 1 true] = UB.
Proof. exact get_file_early. Qed.
Print Assumptions C30_get_file_refuted.
(** A failed H5Dopen in a file that is not log based: the file is never closed. *)
Theorem C30_failed_open_refuted : exists os f, rrun (fobj_new false) os = Ok f /\
  all_closed f /\ fo_closes f = 0%nat.
Proof. exact failed_open_leaks. Qed.
Print Assumptions C30_failed_open_refuted.

(** ** C45 Opening a file twice

    After any history of opens and closes, by any paths, opening a file that is open is refused, and
    opening one that is not succeeds if all files are on one file system. *)
Theorem C45_second_refused : forall fs os p,
  is_open fs (orun fs otable0 os) p -> ot_openf fs (orun fs otable0 os) p = Err.
Proof. exact second_open_refused. Qed.
Print Assumptions C45_second_refused.
Theorem C45_first_accepted_partial : forall fs os p, one_device fs ->
  ~ is_open fs (orun fs otable0 os) p -> exists r, ot_openf fs (orun fs otable0 os) p = Ok r.
Proof. exact first_open_accepted. Qed.
Print Assumptions C45_first_accepted_partial.
Theorem C45_closed_forgotten : forall fs os id,
  let t := orun fs otable0 (os ++ [FClose id]) in forall who, ~ In (id, who) (ot_open t).
Proof. exact closed_forgotten. Qed.
Print Assumptions C45_closed_forgotten.
Example C45_applies : exists fs os p q, one_device fs /\ is_open fs (orun fs otable0 os) p /\
  ~ is_open fs (orun fs otable0 os) q /\ fs q <> None.
Proof. exact ex_oops. Qed.
(** A file of another file system with the same inode number is refused. *)
Theorem C45_other_device_refuted : exists fs os p,
  ~ is_open fs (orun fs otable0 os) p /\ ot_openf fs (orun fs otable0 os) p = Err.
Proof. exact other_device_refused. Qed.
Print Assumptions C45_other_device_refuted.
