(** What a failed write may not change. *)
From Verif Require Import Base Spec MetaModel QueueModel FailModel.

(** What a process has to say about its writes: the requests in order with their metadata and data,
    how many of them are in the log, and the bytes of metadata. *)
Definition queue (r : res rank) : res (list wreq * nat * Z) :=
  do st <- r; Ok (k_wreqs st, k_nflushed st, k_mdsize st).

(** Whatever is written later, the queue is the same from [st'] as from [st]. *)
Definition same_future (z : zlib) (cfg : Z) (infos : list (option dinfo)) (st st' : rank) : Prop :=
  forall ws, queue (ds_writes z cfg infos st ws) = queue (ds_writes z cfg infos st' ws).
