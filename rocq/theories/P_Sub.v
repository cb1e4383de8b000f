(** Properties of files with subfiles (C53, C54). *)
From Coq Require Import Ascii String.
From Verif Require Import Base Spec MetaModel IndexModel ReadModel SysModel SysSpec History DefSpec TameSpec Examples SubModel SubSpec SubClaims SubToolModel SubToolSpec SubAgainSpec SubAgainClaims SubHangClaims SubReopenClaims HistoryProofs.
Open Scope list_scope. Open Scope Z_scope.

(** ** C53 Data in subfiles can be read back *)

(** With single-subfile reads, within one session, when between two reads either every group writes or
    none does: every call succeeds and every read of every group returns what the processes of that
    group wrote last, exactly as if the group had a file of its own ([own_part]: the calls the
    group takes part in).  Each group's part is a tame history (TameSpec.v) for the settings of the
    log, the low four bits.  Missing: data of other groups, reads of all subfiles, reopening, uneven
    groups; each is refuted below. *)
Theorem C53_own_group_partial : forall e name cfg nps f0 ops,
  e_coll e = true -> is_sort (e_sort e) -> has cfg CFG_SINGLE_SUBFILE_READ = true ->
  Forall (session_op (length nps)) ops -> balanced (map (fun _ => false) nps) ops ->
  (forall gid np, nth_error nps gid = Some np -> tame e (Z.land cfg 15) np (own_part gid ops)) ->
  exists s outs, sub_run e (sub_init name cfg nps f0) ops = SOk (s, outs) /\ length outs = length ops /\
    forall i doffs calls, nth_error ops i = Some (SRead doffs calls) ->
      exists bufs, nth_error outs i = Some bufs /\ length bufs = length nps /\
        forall gid np cs, nth_error nps gid = Some np -> nth_error calls gid = Some cs ->
          exists bs, nth_error bufs gid = Some bs /\
            Forall2 (correct_read (trace_of true np (own_part gid (firstn (S i) ops)))) cs bs.
Proof. exact own_group. Qed.
Print Assumptions C53_own_group_partial.
Example C53_own_group_applies : has cfg_sub1 CFG_SINGLE_SUBFILE_READ = true /\ has cfg_plain1 CFG_SINGLE_SUBFILE_READ = true /\
  Forall (session_op 2) h_sub /\ balanced [false; false] h_sub /\
  (forall gid np, nth_error [1%nat; 2%nat] gid = Some np -> tame e_dflt (Z.land cfg_sub1 15) np (own_part gid h_sub)) /\
  (forall gid np, nth_error [1%nat; 2%nat] gid = Some np -> tame e_arr (Z.land cfg_plain1 15) np (own_part gid h_sub)).
Proof. exact h_sub_meets. Qed.

(** Without single-subfile reads no read ever returns written data: the buffers of every successful
    read are what they would be had nothing been written. *)
Theorem C53_read_all_subfiles_refuted : forall e name cfg nps f0 ops s outs, has cfg CFG_SINGLE_SUBFILE_READ = false ->
  sub_run e (sub_init name cfg nps f0) ops = SOk (s, outs) ->
  forall gid np, nth_error nps gid = Some np -> legal_history true np (own_part gid ops) ->
  forall i doffs calls bufs cs bs, nth_error ops i = Some (SRead doffs calls) -> nth_error outs i = Some bufs ->
    nth_error calls gid = Some cs -> nth_error bufs gid = Some bs ->
    Forall2 (correct_read (nothing_written (trace_of true np (own_part gid (firstn (S i) ops))))) cs bs.
Proof. exact reads_nothing. Qed.
Print Assumptions C53_read_all_subfiles_refuted.
(** One process, one group: the data just written is not read. *)
Theorem C53_read_refuted : exists ops doffs calls s outs bufs,
  Forall (session_op 1) ops /\ legal_history true 1 (own_part 0 (ops ++ [SRead doffs calls])) /\
  sub_run e_dflt (sub_init "out.h5" cfg_sub [1%nat] f_zero) (ops ++ [SRead doffs calls]) = SOk (s, outs ++ [bufs]) /\
  ~ Forall2 (Forall2 (correct_read (trace_of true 1 (own_part 0 (ops ++ [SRead doffs calls]))))) calls bufs.
Proof. exact lost_refuted. Qed.
Print Assumptions C53_read_refuted.

(** After such a read, writing and flushing again is an error. *)
Theorem C53_flush_after_read_refuted : exists ops, Forall (session_op 1) ops /\ legal_history true 1 (own_part 0 ops) /\
  sub_run e_dflt (sub_init "out.h5" cfg_sub [1%nat] f_zero) ops = SFail.
Proof. exact again_refuted. Qed.
Print Assumptions C53_flush_after_read_refuted.

(** Every time: a group that has written ([writes_bytes]: at least one byte), then reads all subfiles or
    closes and reopens the file ([looks_again]), and writes again, can never store the new data:
    whatever else the groups do meanwhile, the next H5Fflush, H5Dread, or H5Fclose fails. *)
Theorem C53_write_again_refuted : forall e name cfg nps f0 ops1 o ops2 gid s outs, e_coll e = true ->
  Forall (sessions_op (length nps)) (ops1 ++ o :: ops2) -> writes_bytes gid ops1 -> looks_again cfg o -> writes_bytes gid ops2 ->
  sub_run e (sub_init name cfg nps f0) (ops1 ++ o :: ops2) = SOk (s, outs) ->
  (forall o', sessions_op (length nps) o' -> stores o' -> sub_step e s o' = SFail) /\
  (forall doffs, length doffs = length nps -> sub_close doffs s = SFail).
Proof. exact written_again. Qed.
Print Assumptions C53_write_again_refuted.
(** Two groups; the second only looks on. *)
Example C53_write_again_applies : let ops1 := [SCreate dS; SWrite 0 0 0 [B [0] [2]] [1;2]] in let ops2 := [SWrite 0 0 0 [B [2] [1]] [3]] in
  Forall (sessions_op 2) (ops1 ++ SRead [100; 100] [[rd 0]; [rd 0]] :: ops2) /\
  (writes_bytes 0 ops1 /\ looks_again cfg_sub (SRead [100; 100] [[rd 0]; [rd 0]]) /\ writes_bytes 0 ops2) /\
  verdict (sub_run e_dflt (sub_init "out.h5" cfg_sub [1%nat; 1%nat] f_zero) (ops1 ++ SRead [100; 100] [[rd 0]; [rd 0]] :: ops2)) = 0%nat /\
  verdict (sub_run e_dflt (sub_init "out.h5" cfg_sub1 [1%nat] f_zero) (ops1 ++ SReopen [100] [1%nat] :: ops2)) = 0%nat /\
  verdict (sub_run e_dflt (sub_init "out.h5" cfg_sub1 [1%nat] f_zero) (ops1 ++ SRead [100] [[rd 0]] :: ops2 ++ [SFlush [200]])) = 0%nat.
Proof.
  cbv zeta. split; [repeat constructor|]. split; [split; [|split; [reflexivity|]]; do 4 eexists; (split; [cbn; first [left; reflexivity|right; left; reflexivity]|split; discriminate])|].
  split; [vm_compute; reflexivity|]. split; vm_compute; reflexivity.
Qed.

(** With single-subfile reads, data does not survive closing and reopening. *)
Theorem C53_reopen_refuted : exists ops doffs calls s outs bufs,
  legal_history true 1 (own_part 0 (ops ++ [SRead doffs calls])) /\
  sub_run e_dflt (sub_init "out.h5" cfg_sub1 [1%nat] f_zero) (ops ++ [SRead doffs calls]) = SOk (s, outs ++ [bufs]) /\
  ~ Forall2 (Forall2 (correct_read (trace_of true 1 (own_part 0 (ops ++ [SRead doffs calls]))))) calls bufs.
Proof. exact back_refuted. Qed.
Print Assumptions C53_reopen_refuted.

(** Every time: with single-subfile reads, whatever was written before the file was closed and opened
    again, every read after that and before the next write returns fill values only. *)
Theorem C53_forgets_refuted : forall e name cfg nps f0 ops1 doffs0 nps0 ops2 s outs, is_sort (e_sort e) -> has cfg CFG_SINGLE_SUBFILE_READ = true -> Forall no_write ops2 ->
  sub_run e (sub_init name cfg nps f0) (ops1 ++ SReopen doffs0 nps0 :: ops2) = SOk (s, outs) ->
  forall gid np, nth_error nps gid = Some np -> legal_history true np (own_part gid (ops1 ++ SReopen doffs0 nps0 :: ops2)) ->
  forall i doffs calls bufs cs bs, nth_error ops2 i = Some (SRead doffs calls) -> nth_error outs (length ops1 + 1 + i) = Some bufs ->
    nth_error calls gid = Some cs -> nth_error bufs gid = Some bs ->
    Forall2 (correct_read (nothing_written (trace_of true np (own_part gid (ops1 ++ SReopen doffs0 nps0 :: firstn i ops2))))) cs bs.
Proof. exact forgets. Qed.
Print Assumptions C53_forgets_refuted.
Example C53_forgets_applies : let ops1 := [SCreate dS; SWrite 0 0 0 [B [0] [2]] [1;2]; SWrite 1 0 0 [B [2] [2]] [3;4]; SRead [100; 100] [[rd 0]; [rd 0]]] in
  let ops2 := [SRead [300; 300] [[rd 0]; [rd 0]]; SCreate dS; SRead [300; 300] [[rd 0]; [rd 1]]] in
  is_sort (e_sort e_dflt) /\ Forall no_write ops2 /\
  (forall gid, (gid < 2)%nat -> legal_history true 1 (own_part gid (ops1 ++ SReopen [200; 200] [1%nat; 1%nat] :: ops2))) /\
  outs_of (sub_run e_dflt (sub_init "out.h5" cfg_sub1 [1%nat; 1%nat] f_zero) (ops1 ++ SReopen [200; 200] [1%nat; 1%nat] :: ops2)) =
    Some [[]; []; []; [[[1;2;9;9]]; [[9;9;3;4]]]; []; [[[9;9;9;9]]; [[9;9;9;9]]]; []; [[[9;9;9;9]]; [[9;9;9;9]]]].
Proof.
  cbv zeta. split; [exact isort_is_sort|]. split; [repeat constructor|]. split; [|vm_compute; reflexivity].
  intros [|[|gid]] H; [legal|legal|exfalso; inversion H as [|? H1]; inversion H1 as [|? H2]; inversion H2].
Qed.

(** With single-subfile reads, a read after only one of two groups has written never returns. *)
Theorem C53_uneven_refuted : exists ops, Forall (session_op 2) ops /\
  (forall gid, (gid < 2)%nat -> legal_history true 1 (own_part gid ops)) /\
  sub_run e_dflt (sub_init "out.h5" cfg_sub1 [1%nat; 1%nat] f_zero) ops = SHang.
Proof. exact uneven_refuted. Qed.
Print Assumptions C53_uneven_refuted.

(** Every time: with single-subfile reads, the first read of a new file never returns if one group has
    written at least one byte and another has written nothing. *)
Theorem C53_uneven_read_refuted : forall e name cfg nps f0 ops a b s outs doffs calls, e_coll e = true -> has cfg CFG_SINGLE_SUBFILE_READ = true ->
  Forall (writing_op (length nps)) ops -> (b < length nps)%nat -> writes_bytes a ops -> ~ SubToolSpec.wrote b ops ->
  sub_run e (sub_init name cfg nps f0) ops = SOk (s, outs) -> length doffs = length nps -> sub_step e s (SRead doffs calls) = SHang.
Proof. exact uneven_read. Qed.
Print Assumptions C53_uneven_read_refuted.
Example C53_uneven_read_applies : let ops := [SCreate dS; SWrite 0 0 0 [B [0] [2]] [1;2]; SFlush [100; 100]] in
  Forall (writing_op 2) ops /\ writes_bytes 0 ops /\ ~ SubToolSpec.wrote 1 ops /\
  verdict (sub_run e_dflt (sub_init "out.h5" cfg_sub1 [1%nat; 1%nat] f_zero) ops) = 0%nat.
Proof.
  cbv zeta. split; [repeat constructor|]. split; [do 4 eexists; split; [right; left; reflexivity|split; discriminate]|].
  split; [|vm_compute; reflexivity]. intros (rk & did & sels & data & [I|[I|[I|[]]]] & _); discriminate I.
Qed.

(** ** C54 Subfiles have distinct names and are found again *)

Theorem C54_distinct_names : forall name i j, create_path name i = create_path name j -> i = j.
Proof. exact paths_inj. Qed.
Print Assumptions C54_distinct_names.
Example C54_distinct_names_applies : create_path "dir/out.h5" 12 = "dir/out.h5.subfiles/out.h5.12"%string.
Proof. reflexivity. Qed.

(** A file opened by a name without a directory part: the subfile opened is the one created. *)
Theorem C54_same_name_partial : forall name gid, has_slash name = false -> open_path name gid = create_path name gid.
Proof. exact paths_same. Qed.
Print Assumptions C54_same_name_partial.
Example C54_same_name_applies : has_slash "out.h5" = false /\ open_path "out.h5" 3 = "out.h5.subfiles/out.h5.3"%string.
Proof. split; reflexivity. Qed.

(** A file named with a directory part cannot be opened again, nor read without single-subfile
    reads. *)
Theorem C54_directory_refuted : forall e name cfg nps f0 ops s outs,
  has_slash name = true -> nps <> [] -> Forall (session_op (length nps)) ops ->
  sub_run e (sub_init name cfg nps f0) ops = SOk (s, outs) ->
  (has cfg CFG_SINGLE_SUBFILE_READ = false ->
     forall doffs calls s' bufs, length doffs = length nps -> sub_step e s (SRead doffs calls) <> SOk (s', bufs)) /\
  (forall doffs nps' s' bufs, nps' <> [] -> sub_step e s (SReopen doffs nps') <> SOk (s', bufs)).
Proof. exact directory_fails. Qed.
Print Assumptions C54_directory_refuted.
Example C54_directory_applies : has_slash "dir/out.h5" = true /\ Forall (session_op 1) [SCreate dS; SWrite 0 0 0 [B [0] [2]] [1;2]; SFlush [100]] /\
  verdict (sub_run e_dflt (sub_init "dir/out.h5" cfg_sub [1%nat] f_zero) [SCreate dS; SWrite 0 0 0 [B [0] [2]] [1;2]; SFlush [100]]) = 0%nat /\
  verdict (sub_run e_dflt (sub_init "out.h5" cfg_sub [1%nat] f_zero) [SCreate dS; SWrite 0 0 0 [B [0] [2]] [1;2]; SFlush [100]; SReopen [200] [1%nat]]) = 0%nat.
Proof. split; [reflexivity|]. split; [repeat constructor|]. split; vm_compute; reflexivity. Qed.
