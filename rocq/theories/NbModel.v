(** Non-blocking reads in the life of a file.

    H5Dread with the buffered transfer property leaves its request in fp->rreqs of its process
    (src/H5VL_log_dataseti.cpp:1122-1138); the user buffer is not touched.  H5Fflush serves the queue
    after it has flushed pending writes, if any process has requests (src/H5VL_log_filei.cpp:669-688,
    src/H5VL_logi_nb.cpp:522-590).  H5Fclose does not look at the queue
    (src/H5VL_log_filei.cpp:711-825).  Blocking reads do not serve it either: they hand a list of their own
    to H5VL_log_nb_flush_read_reqs (src/H5VL_log_dataseti.cpp:1135-1136).
    As in PendModel.v, types are equal and memory is contiguous, so that the requests write the user
    buffer itself. *)
From Verif Require Import Base Spec MetaModel QueueModel FlushModel IndexModel ReadModel SysModel PendModel RealModel.

(** A call of the API: those of SysModel.v, or a non-blocking read by process [rk].  [rc_mem] of such a
    read is not used: the buffer is at [rc_buf] in the memory of the process.
    src/H5VL_log_dataseti.cpp:1034-1141. *)
Inductive nop := NOp (o : op) | NRead (rk : nat) (c : rcall).

(** The file, the memory of each process, and the queues (each request with its process).
    src/H5VL_log_file.hpp:39-133. *)
Record nst := mknst { n_sys : sys; n_mem : nat -> bytemap; n_rreqs : list (nat * rcall) }.

(** fp->rreqs of one process.  src/H5VL_log_file.hpp:39-133. *)
Definition queue_of (rk : nat) (q : list (nat * rcall)) : list rcall :=
  map snd (filter (fun p => (fst p =? rk)%nat) q).

(** All processes call H5VL_log_nb_flush_read_reqs, each with its own queue (src/H5VL_log_filei.cpp:683-685);
    as in [read_each], the index, equal everywhere, is passed along. *)
Fixpoint serve_all (e : env) (g : gfile) (idx : option index) (mem : nat -> bytemap) (q : list (nat * rcall)) (rks : list nat)
  : res ((nat -> bytemap) * option index) :=
  match rks with
  | [] => Ok (mem, idx)
  | rk :: rest =>
      do p <- serve e g idx (mem rk) (queue_of rk q);
      serve_all e g (snd p) (fun r => if (r =? rk)%nat then fst p else mem r) q rest
  end.

(** Pending metadata is written before the search, as in [step] for [ORead]
    (src/H5VL_logi_nb.cpp:315-339). *)
Definition serve_queues (e : env) (s : sys) (mem : nat -> bytemap) (q : list (nat * rcall)) : res (sys * (nat -> bytemap)) :=
  let g := s_g s in
  let g2 := if g_metadirty g then metaflush g else g in
  let idx := if g_metadirty g then None else s_idx s in
  do p <- serve_all e g2 idx mem q (seq 0 (length (g_ranks g)));
  Ok (mksys g2 (snd p), fst p).

(** One call; the second component: what a call of SysModel.v returns.
    src/H5VL_log_dataseti.cpp:1034-1141, src/H5VL_log_filei.cpp:669-688, :711-825. *)
Definition nstep (e : env) (st : nst) (o : nop) : res (nst * list (list (list Z))) :=
  match o with
  | NRead rk c =>
      (* dsel->nsel == 0 returns at once (src/H5VL_log_dataseti.cpp:1056) *)
      match nth_error (g_ranks (s_g (n_sys st))) rk, info_at (g_infos (s_g (n_sys st))) (rc_did c) with
      | Some _, Some (Some _) =>
          Ok (mknst (n_sys st) (n_mem st)
                    (match rc_sels c with [] => n_rreqs st | _ => n_rreqs st ++ [(rk, c)] end), [])
      | _, _ => UB
      end
  | NOp (OFlush doff) =>
      do p <- step_real e (n_sys st) (OFlush doff);
      match n_rreqs st with
      | [] => Ok (mknst (fst p) (n_mem st) [], [snd p])
      | q => do r <- serve_queues e (fst p) (n_mem st) q;
             Ok (mknst (fst r) (snd r) [], [snd p])
      end
  | NOp (OReopen doff np) =>
      do p <- step_real e (n_sys st) (OReopen doff np);
      Ok (mknst (fst p) (n_mem st) [], [snd p])
  | NOp o =>
      do p <- step_real e (n_sys st) o;
      Ok (mknst (fst p) (n_mem st) (n_rreqs st), [snd p])
  end.

(** A history of calls (driver of the model; no code of /repo). *)
Fixpoint nrun (e : env) (st : nst) (ops : list nop) : res (nst * list (list (list Z))) :=
  match ops with
  | [] => Ok (st, [])
  | o :: rest =>
      do p <- nstep e st o;
      do q <- nrun e (fst p) rest;
      Ok (fst q, snd p ++ snd q)
  end.

(** A new file and the memories the processes start with (src/H5VL_log_filei.cpp:201-291). *)
Definition ninit (cfg : Z) (np : nat) (f0 : bytemap) (mem : nat -> bytemap) : nst := mknst (init cfg np f0) mem [].
