(** C80 The connector can be loaded and unloaded with its MPI and its operations in order.

    [execs] (LoadModel.v) runs a program of calls: MPI_Init and MPI_Finalize, H5VL_log_register, registration by name,
    H5VLclose, H5Pset_vol, H5Pclose, use of a file, end of the program.  [BadMpi]: the connector makes an erroneous MPI call. *)
From Verif Require Import Base LoadModel LoadSpec LoadProofs LoadClaims LoadRefs.

(** A program that initialises MPI first and finalises it after its last file: MPI is on until the program finalises it, and no
    call of the connector is erroneous, however often it is loaded and whatever fails. *)
Theorem C80_mpi_of_the_program : forall cs cs', forallb (fun c => negb (mpi_call c)) cs = true ->
  forallb (fun c => negb (mpi_call c)) cs' = true -> forallb (fun c => negb (file_call c)) cs' = true ->
  (exists w, ends_in (CMpiInit :: cs) w /\ w_mpi w = MOn) /\
  (exists w, ends_in (CMpiInit :: cs ++ CMpiFinalize :: cs') w /\ w_mpi w = MOff).
Proof. exact mpi_of_program. Qed.
Print Assumptions C80_mpi_of_the_program.
Example C80_mpi_program_example : forallb (fun c => negb (mpi_call c)) prog1 = true /\ forallb (fun c => negb (mpi_call c)) [CCloseList 6; CExit] = true /\
  forallb (fun c => negb (file_call c)) [CCloseList 6; CExit] = true.
Proof. exact (conj eq_refl (conj eq_refl eq_refl)). Qed.

(** A program without MPI: the connector initialises MPI when it is loaded first and finalises it when it is unloaded
    first ([mpi_expected]).  Only the use of a file after that is erroneous. *)
Theorem C80_mpi_of_the_connector_partial : forall cs, forallb no_fault cs = true -> forallb (fun c => negb (mpi_call c)) cs = true ->
  (forall w, ends_in cs w -> w_mpi w = mpi_expected MNone (load_trace world0 cs) /\ (loaded w -> w_mpi w <> MNone)) /\
  (forall w c, ends_in cs w -> no_fault c = true -> mpi_call c = false -> exec w c = BadMpi ->
     file_call c = true /\ mpi_expected MNone (load_trace world0 cs) = MOff).
Proof. exact mpi_of_connector. Qed.
Print Assumptions C80_mpi_of_the_connector_partial.
Example C80_mpi_example : load_trace world0 prog2 = [false; true; true; true; true] /\ mpi_expected MNone (load_trace world0 prog2) = MOn /\
  load_trace world0 (prog2 ++ [CClose 1; CByName false false]) = [false; true; true; true; true; false; true] /\
  mpi_expected MNone (load_trace world0 (prog2 ++ [CClose 1; CByName false false])) = MOff /\
  fst (execs world0 (prog2 ++ [CClose 1; CByName false false; CSetVol 6 2; CFile 6])) = BadMpi.
Proof. exact prog2_ok. Qed.

(** While the connector is loaded H5Dwrite_n and H5Dread_n ask for their own operation, which is registered; nothing is
    registered when it is not. *)
Theorem C80_operations_while_loaded : forall cs w, forallb no_fault cs = true -> ends_in cs w ->
  (loaded w -> exists vw vr, exec w CWriteN = Done w (AOp vw) /\ exec w CReadN = Done w (AOp vr) /\
     In (WriteN, vw) (w_ops w) /\ In (ReadN, vr) (w_ops w) /\ vw <> vr /\ length (w_ops w) = 2%nat) /\
  (~ loaded w -> w_ops w = []).
Proof. exact operations_while_loaded. Qed.
Print Assumptions C80_operations_while_loaded.

(** A program that registers the connector by name and closes each identifier once ([careful]): no call fails, and a property list
    opens files until it is closed. *)
Theorem C80_references_partial : forall cs ans w a, execs world0 (CMpiInit :: cs) = (Done w a, AOk :: ans) -> careful 0 None [] cs ans ->
  ~ In AFail ans /\ forall p, In p (open_lists [] cs) -> exec w (CFile p) = Done w AOk.
Proof. exact counting_program. Qed.
Print Assumptions C80_references_partial.
Example C80_references_example : exists w a, execs world0 (CMpiInit :: prog1) = (Done w a, AOk :: ans1) /\ careful 0 None [] prog1 ans1 /\ open_lists [] prog1 = [6].
Proof. exact prog1_ok. Qed.

(** Refuted with H5VL_log_register, whose identifier doc/api.md tells to close: once the connector is unloaded, every later
    H5VL_log_register returns the closed identifier, which no property list accepts, whatever the program does. *)
Theorem C80_register_again_refuted : exists w,
  ends_in [CMpiInit; CRegister false false; CSetVol 5 1; CClose 1; CFile 5; CCloseList 5] w /\
  forall cs w1 a ans, execs w cs = (Done w1 a, ans) ->
    (forall f1 f2, exec w1 (CRegister f1 f2) = Done w1 (AId 1)) /\ forall q, exec w1 (CSetVol q 1) = Done w1 AFail.
Proof. exact stale_identifier. Qed.
Print Assumptions C80_register_again_refuted.
(** Its identifier obtained twice and closed twice takes the connector away from a property list in use. *)
Theorem C80_closed_twice_refuted : exists w w1,
  execs world0 [CMpiInit; CRegister false false; CSetVol 5 1; CRegister false false; CClose 1; CFile 5] = (Done w AOk, [AOk; AId 1; AOk; AId 1; AOk; AOk]) /\
  exec w (CClose 1) = Done w1 AOk /\ exec w1 (CFile 5) = Done w1 AFail.
Proof. exact closed_twice. Qed.
Print Assumptions C80_closed_twice_refuted.

(** Refuted without MPI in the program: after the first unload no file can be used again ... *)
Theorem C80_second_time_refuted : forall cs w, forallb no_fault cs = true -> forallb (fun c => negb (mpi_call c)) cs = true ->
  ends_in cs w -> mpi_expected MNone (load_trace world0 cs) = MOff ->
  forall cs' w' p, (exists a ans, execs w cs' = (Done w' a, ans)) -> forall w2, exec w' (CFile p) <> Done w2 AOk.
Proof. exact no_second_time. Qed.
Print Assumptions C80_second_time_refuted.
(** ... and while it is loaded the program can neither initialise MPI nor, having finalised it, end without a second MPI_Finalize. *)
Theorem C80_program_mpi_refuted : forall cs w, forallb no_fault cs = true -> forallb (fun c => negb (mpi_call c)) cs = true ->
  ends_in cs w -> mpi_expected MNone (load_trace world0 cs) = MOn ->
  exec w CMpiInit = BadProg /\ exists w1, exec w CMpiFinalize = Done w1 AOk /\ exec w1 CExit = BadMpi.
Proof. exact program_mpi. Qed.
Print Assumptions C80_program_mpi_refuted.

(** Refuted when HDF5 refuses an operation once: the connector can never be loaded again. *)
Theorem C80_one_failure_refuted : exists w, execs world0 [CMpiInit; CByName false true] = (Done w AOk, [AOk; AFail]) /\
  forall cs w1 a ans f1 f2, execs w cs = (Done w1 a, ans) ->
    (exists w2, exec w1 (CByName f1 f2) = Done w2 AFail) /\ (exists w2, exec w1 (CRegister f1 f2) = Done w2 AFail).
Proof. exact one_failure. Qed.
Print Assumptions C80_one_failure_refuted.
(** A load that fails leaves MPI initialised, and nobody finalises it. *)
Theorem C80_failed_load_refuted : exists w, execs world0 [CByName true false; CByName false false; CClose 1] = (Done w AOk, [AFail; AId 1; AOk]) /\
  w_mpi w = MOn /\ ~ loaded w.
Proof. exact failed_load. Qed.
Print Assumptions C80_failed_load_refuted.
(** Before the connector is loaded H5Dwrite_n and H5Dread_n ask for operation 0, one of HDF5's own. *)
Theorem C80_before_loading_refuted : exec world0 CWriteN = Done world0 (AOp 0) /\ exec world0 CReadN = Done world0 (AOp 0).
Proof. exact before_loading. Qed.
Print Assumptions C80_before_loading_refuted.
