(** Property C65: the order in which the processes' bytes reach the file during a flush.

    [flush_bytes doff g]: the bytes each process writes, with their addresses, when the queues of
    [g] are flushed; [arrival procs l]: [l] is an order of arrival of all of them, bytes of different
    processes mixed in any way; [arrive f l]: the file after they arrived. *)
From Verif Require Import Base Spec MetaModel QueueModel FlushModel IndexModel SysModel History
  LogSpec AlignModel SchedModel SchedSpec SchedClaims Examples.

(** ** C65 The order of arrival does not matter

    After any sequence of calls: no byte of the file is written twice by a flush, and every order
    of arrival leaves the file that the sequential flush of the model leaves, which is the one all
    other theorems speak of. *)
Theorem C65_data_any_order : forall e cfg np f0 ops s outs doff l,
  run e (init cfg np f0) ops = Ok (s, outs) -> arrival (flush_bytes doff (s_g s)) l ->
  NoDup (map fst l) /\ forall x, arrive (g_file (s_g s)) l x = g_file (flush_writes doff (s_g s)) x.
Proof. exact flush_order. Qed.
Print Assumptions C65_data_any_order.

(** The same for the metadata dataset, whatever its storage held before, when the writes name
    existing datasets and have blocks of their rank. *)
Theorem C65_metadata_any_order : forall e cfg np f0 ops s outs l,
  regular [] ops -> run e (init cfg np f0) ops = Ok (s, outs) -> arrival (meta_flush_bytes (s_g s)) l ->
  NoDup (map fst l) /\
  forall f, get (arrive f l) 0 (Z.to_nat (Zsum (meta_sizes (g_ranks (s_g s))))) = md_content (g_ranks (s_g s)).
Proof. exact meta_order. Qed.
Print Assumptions C65_metadata_any_order.
Example C65_applies : regular [] h_two /\ exists m1 m2, flushed_parts 100 h_two =
  Ok ([[(100,1);(101,1);(102,2);(103,2)]; [(104,3);(105,3);(106,4);(107,4);(108,5);(109,5)]], [m1; m2]) /\
  length m1 = 84%nat /\ length m2 = 120%nat.
Proof. exact h_two_bytes. Qed.

(** With the stripe-aligned layout the order matters: two processes write the same stripe. *)
Theorem C65_aligned_refuted :
  let w1 := flat_map (fun p => bytes_at (fst p) (snd p)) (ost_write 4 2 0 100 0 [[1;2;3;4;5;6;7;8;9;10;11;12]]) in
  let w2 := flat_map (fun p => bytes_at (fst p) (snd p)) (ost_write 4 2 0 100 12 [[21;22;23;24]]) in
  arrival [w1; w2] (w1 ++ w2) /\ arrival [w1; w2] (w2 ++ w1) /\
  get (arrive (fun _ => 0) (w1 ++ w2)) 124 4 = [21;22;23;24] /\
  get (arrive (fun _ => 0) (w2 ++ w1)) 124 4 = [9;10;11;12].
Proof. exact aligned_order. Qed.
Print Assumptions C65_aligned_refuted.
