(** H5Dread_n calls that do not block.

    H5Dread_n hands the caller's arrays starts and counts to the connector (src/H5VL_log.cpp:103-140), which
    makes a selection that points to them (src/H5VL_log_dataset.cpp:612-621,
    src/H5VL_logi_dataspace.cpp:151-156).  convert_to_deep (src/H5VL_logi_dataspace.cpp:531-553) is called
    nowhere.  A request that is queued keeps the selection (src/H5VL_log_dataseti.cpp:1090, :1138) and reads the
    arrays when H5Fflush serves it. *)
From Verif Require Import Base Spec MetaModel QueueModel FlushModel IndexModel ReadModel SysModel PendModel RealModel NbModel.

(** A call: those of NbModel.v; H5Dread_n with the buffered property by process [rk], for dataset [did], the
    first [n] blocks in the caller's arrays number [arr], into the buffer at [buf]; or the caller storing blocks
    in its arrays.  src/H5VL_log.cpp:103-140. *)
Inductive aop :=
| ACall (o : nop)
| AReadN (rk : nat) (did : Z) (n arr : nat) (buf : Z)
| ASet (arr : nat) (blocks : list block).

(** A queued request: with blocks of its own (the selection of a dataspace is copied,
    src/H5VL_logi_dataspace.cpp:173-300), or with the caller's arrays; [ar_size] is rsize, taken when the request
    is made (src/H5VL_log_dataseti.cpp:1089). *)
Inductive areq :=
| ROwn (rk : nat) (c : rcall)
| RArr (rk : nat) (did : Z) (n arr : nat) (buf size : Z).

(** The file and the memories, the queues, and the caller's arrays.  src/H5VL_log_file.hpp:39-133. *)
Record ast := mkast { a_nst : nst; a_reqs : list areq; a_arrs : nat -> list block }.

(** The request as H5VL_log_nb_flush_read_reqs sees it (src/H5VL_logi_nb.cpp:341-590), with the blocks that are in
    the arrays now.  When their number of elements is no longer that of the request, the fill and the delivery
    disagree about the size of the buffer: UB (simplification: fewer elements would be harmless). *)
Definition see (arrs : nat -> list block) (r : areq) : res (nat * rcall) :=
  match r with
  | ROwn rk c => Ok (rk, c)
  | RArr rk did n arr buf size =>
      let sels := firstn n (arrs arr) in
      if (length sels =? n)%nat && (sel_size sels =? size) then Ok (rk, mkrcall did sels buf (fun _ => 0)) else UB
  end.
(** src/H5VL_logi_nb.cpp:341-590. *)
Fixpoint see_all (arrs : nat -> list block) (l : list areq) : res (list (nat * rcall)) :=
  match l with
  | [] => Ok []
  | r :: rest => do x <- see arrs r; do y <- see_all arrs rest; Ok (x :: y)
  end.

(** One call; the queue is kept in [a_reqs] and given to [nstep] only when H5Fflush serves it.
    src/H5VL_log_dataseti.cpp:1034-1141, src/H5VL_log_filei.cpp:669-688, :711-825. *)
Definition astep (e : env) (st : ast) (o : aop) : res (ast * list (list (list Z))) :=
  match o with
  | ASet arr blocks =>
      Ok (mkast (a_nst st) (a_reqs st) (fun k => if (k =? arr)%nat then blocks else a_arrs st k), [])
  | AReadN rk did n arr buf =>
      let sels := firstn n (a_arrs st arr) in
      match nth_error (g_ranks (s_g (n_sys (a_nst st)))) rk, info_at (g_infos (s_g (n_sys (a_nst st)))) did with
      | Some _, Some (Some _) =>
          if (length sels =? n)%nat then
            Ok (mkast (a_nst st) (match n with O => a_reqs st | _ => a_reqs st ++ [RArr rk did n arr buf (sel_size sels)] end)
                      (a_arrs st), [])
          else UB                                 (* reads beyond the arrays *)
      | _, _ => UB
      end
  | ACall (NRead rk c) =>
      do p <- nstep e (a_nst st) (NRead rk c);
      Ok (mkast (a_nst st) (match rc_sels c with [] => a_reqs st | _ => a_reqs st ++ [ROwn rk c] end) (a_arrs st), snd p)
  | ACall (NOp (OFlush doff)) =>
      do q <- see_all (a_arrs st) (a_reqs st);
      do p <- nstep e (mknst (n_sys (a_nst st)) (n_mem (a_nst st)) q) (NOp (OFlush doff));
      Ok (mkast (fst p) [] (a_arrs st), snd p)
  | ACall (NOp (OReopen doff np)) =>
      do p <- nstep e (a_nst st) (NOp (OReopen doff np));
      Ok (mkast (fst p) [] (a_arrs st), snd p)
  | ACall (NOp o) =>
      do p <- nstep e (a_nst st) (NOp o);
      Ok (mkast (fst p) (a_reqs st) (a_arrs st), snd p)
  end.

(** A history of calls (driver of the model; no code of /repo). *)
Fixpoint arun (e : env) (st : ast) (ops : list aop) : res (ast * list (list (list Z))) :=
  match ops with
  | [] => Ok (st, [])
  | o :: rest =>
      do p <- astep e st o;
      do q <- arun e (fst p) rest;
      Ok (fst q, snd p ++ snd q)
  end.

(** A new file (src/H5VL_log_filei.cpp:201-291); arrays that hold nothing. *)
Definition ainit (cfg : Z) (np : nat) (f0 : bytemap) (mem : nat -> bytemap) : ast :=
  mkast (ninit cfg np f0 mem) [] (fun _ => []).
