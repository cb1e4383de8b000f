(** Requests of asynchronous operations (src/H5VL_log_req.cpp, src/H5VL_log_reqi.cpp). *)
From Verif Require Import Base.

(** H5VL_request_status_t of HDF5 (H5VLconnector.h).  Used at src/H5VL_log_req.cpp:49-145. *)
Inductive rstat := InProgress | Succeed | Failed | CantCancel | Canceled.

(** Comparison of statuses (src/H5VL_log_req.cpp:56-67). *)
Definition rstat_eqb (a b : rstat) : bool :=
  match a, b with
  | InProgress, InProgress | Succeed, Succeed | Failed, Failed
  | CantCancel, CantCancel | Canceled, Canceled => true
  | _, _ => false
  end.

(** H5VL_log_ureq_t (src/H5VL_log_req.hpp:22-25): one operation of the underlying connector and
    the status last seen. *)
Record part := mkpart { p_req : Z; p_stat : rstat }.

(** H5VL_log_req_t (src/H5VL_log_req.hpp:28-32): identifier of the underlying connector and the
    parts. *)
Record request := mkrequest { r_conn : Z; r_parts : list part }.

(** The default constructor used for every request, e.g. src/H5VL_log_att.cpp:72 and
    src/H5VL_log_dataset.cpp:95 (src/H5VL_log_obji.cpp:57-65): no connector. *)
Definition new_request : request := mkrequest (-1) [].

(** append (src/H5VL_log_reqi.cpp:40-46). *)
Definition append (r : request) (u : Z) : request :=
  mkrequest (r_conn r) (r_parts r ++ [mkpart u InProgress]).

(** The request of an operation with one underlying operation: attributes, groups, links,
    committed datatypes (e.g. src/H5VL_log_group.cpp:71-88). *)
Definition simple_request (u : Z) : request := append new_request u.

(** The request of H5VL_log_dataset_create for a log-based file (src/H5VL_log_dataset.cpp:94-177).
    The attribute helper ignores its request argument (src/H5VL_logi_util.cpp:21-50), so the
    request of the dataset creation is appended four times. *)
Definition create_request (u : Z) : request := append (append (append (append new_request u) u) u) u.

(** The underlying connector: for every live request the answers it gives to successive waits
    (a request whose answers are used up stays in progress); [None] for a request it has
    released.  [conns] are the registered connectors.  Called at src/H5VL_log_req.cpp:56-67. *)
Record under := mkunder { u_conns : list Z; u_reqs : Z -> option (list rstat) }.

(** H5VLrequest_wait of HDF5: an error for an unknown connector; the underlying connector releases
    a request whose operation is over, using it again is undefined.
    Called at src/H5VL_log_req.cpp:56-67. *)
Definition under_wait (w : under) (conn u : Z) : res (under * rstat) :=
  if existsb (Z.eqb conn) (u_conns w) then
    match u_reqs w u with
    | None => UB
    | Some [] => Ok (w, InProgress)
    | Some (s :: rest) =>
        Ok (mkunder (u_conns w)
              (fun v => if v =? u then (if rstat_eqb s InProgress then Some rest else None) else u_reqs w v), s)
    end
  else Err.

(** The loop body of H5VL_log_request_wait (src/H5VL_log_req.cpp:56-67). *)
Definition merge_stat (acc s : rstat) : rstat :=
  if rstat_eqb s Failed then Failed else if rstat_eqb acc Succeed then s else acc.

(** The loop of H5VL_log_request_wait (src/H5VL_log_req.cpp:49-76). *)
Fixpoint wait_parts (w : under) (conn : Z) (acc : rstat) (ps : list part) : res (under * rstat * list part) :=
  match ps with
  | [] => Ok (w, acc, [])
  | p :: rest =>
      do ws <- (if rstat_eqb (p_stat p) InProgress then under_wait w conn (p_req p) else Ok (w, p_stat p));
      let '(w', s) := ws in
      do r <- wait_parts w' conn (merge_stat acc s) rest;
      let '(w'', acc', ps') := r in
      Ok (w'', acc', mkpart (p_req p) s :: ps')
  end.

(** H5VL_log_request_wait (src/H5VL_log_req.cpp:49-76): the status reported and the request that
    is left ([None] when it is deleted). *)
Definition req_wait (w : under) (r : request) : res (under * rstat * option request) :=
  do x <- wait_parts w (r_conn r) Succeed (r_parts r);
  let '(w', s, ps) := x in
  Ok (w', s, if rstat_eqb s InProgress then Some (mkrequest (r_conn r) ps) else None).

(** A user who waits up to [n] times, until a wait reports that the operation is over: the
    statuses reported.  src/H5VL_log_req.cpp:49-76, repeated. *)
Fixpoint wait_times (n : nat) (w : under) (r : request) : res (list rstat) :=
  match n with
  | O => Ok []
  | S n' =>
      do x <- req_wait w r;
      match x with
      | (w', s, Some r') => do l <- wait_times n' w' r'; Ok (s :: l)
      | (_, s, None) => Ok [s]
      end
  end.

(** H5VL_log_request_cancel (src/H5VL_log_req.cpp:128-145): [answers] are the statuses the
    underlying connector gives for the parts; the status argument is overwritten by each of them
    and not written at all without parts. *)
Definition req_cancel (answers : list rstat) (s0 : rstat) : rstat := fold_left (fun _ s => s) answers s0.

(** ** Notification *)

(** Progress of one invocation of H5VL_log_reqi_notify_cb (src/H5VL_log_reqi.cpp:22-38), called by
    the underlying connector with status [s]: at the test of the common status, before storing
    [s], before the decrement of the counter, returned.  Only the counter is atomic. *)
Inductive tpc := TTest (s : rstat) | TStore (s : rstat) | TCount | TDone.

(** H5VL_log_req_notify_ctx_t (src/H5VL_log_req.hpp:15-20), whether it has been deleted, and the
    calls of the user's callback so far. *)
Record notify := mknotify {
  n_cnt : Z; n_stat : rstat; n_freed : bool; n_calls : list rstat; n_threads : list tpc }.

(** H5VL_log_request_notify (src/H5VL_log_req.cpp:90-113) for parts that end with the statuses
    [ends]; the registration of the callbacks itself is not interleaved with them. *)
Definition notify0 (ends : list rstat) : notify :=
  mknotify (Zlen ends) Succeed false [] (map TTest ends).

(** One step of callback [i]; every step before the return uses the shared context.
    src/H5VL_log_reqi.cpp:22-38. *)
Definition nstep (n : notify) (i : nat) : res notify :=
  match nth_error (n_threads n) i with
  | None | Some TDone => Ok n
  | Some t =>
      if n_freed n then UB else
      match t with
      | TTest s =>
          if rstat_eqb s Failed
          then Ok (mknotify (n_cnt n) Failed false (n_calls n) (upd_nth i TCount (n_threads n)))
          else Ok (mknotify (n_cnt n) (n_stat n) false (n_calls n)
                     (upd_nth i (if rstat_eqb (n_stat n) Succeed then TStore s else TCount) (n_threads n)))
      | TStore s => Ok (mknotify (n_cnt n) s false (n_calls n) (upd_nth i TCount (n_threads n)))
      | _ =>
          let c := n_cnt n - 1 in
          Ok (mknotify c (n_stat n) (c =? 0) (if c =? 0 then n_calls n ++ [n_stat n] else n_calls n)
                (upd_nth i TDone (n_threads n)))
      end
  end.

(** The callbacks in the order of a schedule (src/H5VL_log_reqi.cpp:22-38). *)
Fixpoint nrun (n : notify) (sched : list nat) : res notify :=
  match sched with
  | [] => Ok n
  | i :: rest => do n' <- nstep n i; nrun n' rest
  end.
