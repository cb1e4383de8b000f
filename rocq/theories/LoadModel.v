(** Loading and unloading the connector: H5VL_log_init and H5VL_log_obj_term (src/H5VL_log_main.cpp:56-167),
    H5VL_log_register (src/H5VL_log.cpp:17-36), and the values of H5Dwrite_n and H5Dread_n
    (src/H5VL_log_dataset.cpp:41-42).

    Simplified: one process; of the HDF5 library the identifier of this connector with its number of references, the
    property lists that hold one, and the table of optional operations; of MPI whether it is initialised.  Statics keep
    their values when the connector is unloaded (the library is linked to the program). *)
From Verif Require Import Base.

(** MPI before MPI_Init, between MPI_Init and MPI_Finalize, and after. *)
Inductive mpi := MNone | MOn | MOff.

(** The two operations the connector adds (src/H5VL_log_main.cpp:87-92). *)
Inductive opname := WriteN | ReadN.
(** Comparison of the names "H5VL_log.H5Dwrite_n" and "H5VL_log.H5Dread_n" (src/H5VL_log_main.cpp:87-92). *)
Definition same_op (a b : opname) : bool :=
  match a, b with WriteN, WriteN | ReadN, ReadN => true | _, _ => false end.

(** [w_mpi]: MPI; [w_inited]: mpi_inited; [w_flag]: h5dwriten_registered; [w_ops]: HDF5's table of optional
    operations; [w_nextop]: its next value; [w_wn], [w_rn]: H5Dwrite_n_op_val and H5Dread_n_op_val; [w_g]: H5VL_LOG_g,
    None when negative; [w_conn]: the connector's identifier and its references, when registered with HDF5;
    [w_nextid]: the next identifier; [w_fapls]: for each file access property list set to the connector, the identifier it
    holds.  src/H5VL_log_main.cpp:56-57, src/H5VL_log.cpp:18, src/H5VL_log_dataset.cpp:41-42. *)
Record world := mkw { w_mpi : mpi; w_inited : bool; w_flag : bool; w_ops : list (opname * Z); w_nextop : Z;
  w_wn : Z; w_rn : Z; w_g : option Z; w_conn : option (Z * Z); w_nextid : Z; w_fapls : list (Z * Z) }.
(** The values at the start of the program (src/H5VL_log_main.cpp:56-57, src/H5VL_log.cpp:18,
    src/H5VL_log_dataset.cpp:41-42). *)
Definition world0 : world := mkw MNone false false [] 1024 0 0 None None 1 [].

(** What a call returns. *)
Inductive answer := AOk | AFail | AId (id : Z) | AOp (v : Z).
(** [BadMpi]: the connector makes an erroneous MPI call (MPI_Init or MPI_Finalize a second time, communication after
    MPI_Finalize); [BadProg]: the program makes one. *)
Inductive outcome := Done (w : world) (a : answer) | BadMpi | BadProg.

(** H5VLregister_opt_operation: fails for a registered name, and when [fault].
    Called at src/H5VL_log_main.cpp:87-92. *)
Definition reg_op (w : world) (n : opname) (fault : bool) : option (world * Z) :=
  if fault || existsb (fun p => same_op (fst p) n) (w_ops w) then None
  else Some (mkw (w_mpi w) (w_inited w) (w_flag w) ((n, w_nextop w) :: w_ops w) (w_nextop w + 1) (w_wn w) (w_rn w)
                 (w_g w) (w_conn w) (w_nextid w) (w_fapls w), w_nextop w).
(** H5VLunregister_opt_operation: fails for a name that is not registered.
    Called at src/H5VL_log_main.cpp:144-150. *)
Definition unreg_op (w : world) (n : opname) : option world :=
  if existsb (fun p => same_op (fst p) n) (w_ops w)
  then Some (mkw (w_mpi w) (w_inited w) (w_flag w) (filter (fun p => negb (same_op (fst p) n)) (w_ops w)) (w_nextop w)
                 (w_wn w) (w_rn w) (w_g w) (w_conn w) (w_nextid w) (w_fapls w))
  else None.

(** Assignments to the statics.  src/H5VL_log_main.cpp:82-93, src/H5VL_log.cpp:33. *)
Definition set_mpi (w : world) (m : mpi) : world :=
  mkw m (w_inited w) (w_flag w) (w_ops w) (w_nextop w) (w_wn w) (w_rn w) (w_g w) (w_conn w) (w_nextid w) (w_fapls w).
(** src/H5VL_log_main.cpp:82, :156. *)
Definition set_inited (w : world) (b : bool) : world :=
  mkw (w_mpi w) b (w_flag w) (w_ops w) (w_nextop w) (w_wn w) (w_rn w) (w_g w) (w_conn w) (w_nextid w) (w_fapls w).
(** src/H5VL_log_main.cpp:93, :150. *)
Definition set_flag (w : world) (b : bool) : world :=
  mkw (w_mpi w) (w_inited w) b (w_ops w) (w_nextop w) (w_wn w) (w_rn w) (w_g w) (w_conn w) (w_nextid w) (w_fapls w).
(** src/H5VL_log_main.cpp:87-92. *)
Definition set_vals (w : world) (wn rn : Z) : world :=
  mkw (w_mpi w) (w_inited w) (w_flag w) (w_ops w) (w_nextop w) wn rn (w_g w) (w_conn w) (w_nextid w) (w_fapls w).
(** src/H5VL_log.cpp:33. *)
Definition set_g (w : world) (g : option Z) : world :=
  mkw (w_mpi w) (w_inited w) (w_flag w) (w_ops w) (w_nextop w) (w_wn w) (w_rn w) g (w_conn w) (w_nextid w) (w_fapls w).
(** H5I_register and H5I_dec_ref of the HDF5 library, for the connector (src/H5VL_log.cpp:33). *)
Definition set_conn (w : world) (c : option (Z * Z)) (next : Z) : world :=
  mkw (w_mpi w) (w_inited w) (w_flag w) (w_ops w) (w_nextop w) (w_wn w) (w_rn w) (w_g w) c next (w_fapls w).
(** The property lists of the program; H5Pset_vol is called at src/H5VL_log.cpp:64. *)
Definition set_fapls (w : world) (l : list (Z * Z)) : world :=
  mkw (w_mpi w) (w_inited w) (w_flag w) (w_ops w) (w_nextop w) (w_wn w) (w_rn w) (w_g w) (w_conn w) (w_nextid w) l.

(** MPI_Initialized: true also after MPI_Finalize.  Called at src/H5VL_log_main.cpp:82, :156. *)
Definition mpi_initialized (m : mpi) : bool := match m with MNone => false | _ => true end.

(** H5VL_log_init (src/H5VL_log_main.cpp:71-122); the flag says whether it succeeds.  [f1], [f2]: the two
    registrations fail.  The value of an operation is assigned before the next one is registered. *)
Definition conn_init (w : world) (f1 f2 : bool) : world * bool :=
  let i := mpi_initialized (w_mpi w) in
  let w1 := set_inited w i in
  let w2 := if i then w1 else set_mpi w1 MOn in
  if w_flag w2 then (w2, true)
  else match reg_op w2 WriteN f1 with
       | None => (w2, false)
       | Some (w3, v) =>
           let w4 := set_vals w3 v (w_rn w3) in
           match reg_op w4 ReadN f2 with
           | None => (w4, false)
           | Some (w5, v') => (set_flag (set_vals w5 (w_wn w5) v') true, true)
           end
       end.

(** H5VL_log_obj_term (src/H5VL_log_main.cpp:136-167); None when MPI_Finalize is called a second time. *)
Definition conn_term (w : world) : option world :=
  let unreg := if w_flag w
               then match unreg_op w WriteN with
                    | None => (w, false)
                    | Some w1 => match unreg_op w1 ReadN with
                                 | None => (w1, false)
                                 | Some w2 => (set_flag w2 false, true)
                                 end
                    end
               else (w, true) in
  let '(w3, ok) := unreg in
  if negb ok || w_inited w3 then Some w3
  else let i := mpi_initialized (w_mpi w3) in
       let w4 := set_inited w3 i in
       if i then match w_mpi w4 with MOn => Some (set_mpi w4 MOff) | _ => None end
       else Some w4.

(** H5VLregister_connector and H5VLregister_connector_by_name: one more reference to the registered connector, or the
    connector is initialised and gets a new identifier.  Called at src/H5VL_log.cpp:33. *)
Definition hdf_register (w : world) (f1 f2 : bool) : world * answer :=
  match w_conn w with
  | Some (id, n) => (set_conn w (Some (id, n + 1)) (w_nextid w), AId id)
  | None => let '(w1, ok) := conn_init w f1 f2 in
            if ok : bool then (set_conn w1 (Some (w_nextid w1, 1)) (w_nextid w1 + 1), AId (w_nextid w1))
            else (w1, AFail)
  end.

(** One reference less; the last one terminates the connector.  HDF5's H5I_dec_ref, which calls the terminate
    callback (src/H5VL_log_main.cpp:27). *)
Definition drop_ref (w : world) (id : Z) (k : world -> outcome) (fail : outcome) : outcome :=
  match w_conn w with
  | Some (i, n) =>
      if i =? id then
        if n =? 1 then match conn_term w with
                       | None => BadMpi
                       | Some w1 => k (set_conn w1 None (w_nextid w1))
                       end
        else k (set_conn w (Some (i, n - 1)) (w_nextid w))
      else fail
  | None => fail
  end.

(** The calls of a program.  [CRegister]: H5VL_log_register; [CByName]: H5VLregister_connector_by_name; [CClose]: H5VLclose;
    [CSetVol]: H5Pset_vol of a new property list; [CCloseList]: H5Pclose; [CFile]: create or open a file with a property list, use it and
    close it; [CWriteN], [CReadN]: H5Dwrite_n and H5Dread_n, for the value they hand to HDF5; [CExit]: HDF5 closes down. *)
Inductive call := CMpiInit | CMpiFinalize | CRegister (f1 f2 : bool) | CByName (f1 f2 : bool) | CClose (id : Z)
  | CSetVol (p id : Z) | CCloseList (p : Z) | CFile (p : Z) | CWriteN | CReadN | CExit.

(** The identifier a property list holds.  HDF5's property list (src/H5VL_log.cpp:64). *)
Definition held (w : world) (p : Z) : option Z := option_map snd (find (fun q => fst q =? p) (w_fapls w)).
(** The identifier is the one of the registered connector.  HDF5's check of src/H5VL_log.cpp:64. *)
Definition live (w : world) (id : Z) : bool := match w_conn w with Some (i, _) => i =? id | None => false end.

(** H5VL_log_register (src/H5VL_log.cpp:30-36) for [CRegister]; the MPI calls of opening a file
    (src/H5VL_log_file.cpp:120-130) for [CFile]; src/H5VL_log.cpp:92, :123 for [CWriteN] and [CReadN]. *)
Definition exec (w : world) (c : call) : outcome :=
  match c with
  | CMpiInit => match w_mpi w with MNone => Done (set_mpi w MOn) AOk | _ => BadProg end
  | CMpiFinalize => match w_mpi w with MOn => Done (set_mpi w MOff) AOk | _ => BadProg end
  | CRegister f1 f2 =>
      match w_g w with
      | Some id => Done w (AId id)
      | None => let '(w1, a) := hdf_register w f1 f2 in
                Done (set_g w1 (match a with AId id => Some id | _ => None end)) a
      end
  | CByName f1 f2 => let '(w1, a) := hdf_register w f1 f2 in Done w1 a
  | CClose id => drop_ref w id (fun w1 => Done w1 AOk) (Done w AFail)
  | CSetVol p id =>
      match held w p with
      | Some _ => Done w AFail
      | None => match w_conn w with
                | Some (i, n) => if i =? id then Done (set_fapls (set_conn w (Some (i, n + 1)) (w_nextid w)) ((p, id) :: w_fapls w)) AOk
                                 else Done w AFail
                | None => Done w AFail
                end
      end
  | CCloseList p =>
      match held w p with
      | None => Done w AFail
      | Some id => let w1 := set_fapls w (filter (fun q => negb (fst q =? p)) (w_fapls w)) in
                   drop_ref w1 id (fun w2 => Done w2 AOk) (Done w1 AFail)
      end
  | CFile p =>
      match held w p with
      | None => Done w AFail
      | Some id => if live w id then match w_mpi w with MOn => Done w AOk | _ => BadMpi end else Done w AFail
      end
  | CWriteN => Done w (AOp (w_wn w))
  | CReadN => Done w (AOp (w_rn w))
  | CExit => match w_conn w with
             | None => Done w AOk
             | Some _ => match conn_term w with
                         | None => BadMpi
                         | Some w1 => Done (set_fapls (set_conn w1 None (w_nextid w1)) []) AOk
                         end
             end
  end.

(** A program. *)
Fixpoint execs (w : world) (cs : list call) : outcome * list answer :=
  match cs with
  | [] => (Done w AOk, [])
  | c :: rest => match exec w c with
                 | Done w1 a => let '(o, l) := execs w1 rest in (o, a :: l)
                 | o => (o, [])
                 end
  end.
