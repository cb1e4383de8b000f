(** Vocabulary for statements about reads of overlapping file ranges. *)
From Verif Require Import Base Spec MetaModel QueueModel FlushModel IndexModel ReadModel.

(** A row asks for the bytes [ro_f .. ro_f + ro_len) of the file, to be put at [ro_m] in memory. *)
Definition row_end (r : row) : Z := ro_f r + ro_len r.
(** [b] begins and ends no earlier than [a]. *)
Definition no_earlier (a b : row) : Prop := ro_f a <= ro_f b /\ row_end a <= row_end b.
(** No row lies inside another one: the one that begins later ends no earlier. *)
Definition not_inside (rows : list row) : Prop := forall a b, In a rows -> In b rows -> ro_f a <= ro_f b -> row_end a <= row_end b.
(** The memory of the rows is apart. *)
Definition memory_apart (a b : row) : Prop := ro_m a + ro_len a <= ro_m b \/ ro_m b + ro_len b <= ro_m a.
Definition in_memory (r : row) (x : Z) : Prop := ro_m r <= x < ro_m r + ro_len r.

(** The read of [p] elements from element [a] on of a logged block of [n] elements of [es] bytes, which
    lies at [foff] in the file; the elements go to memory [m]. *)
Definition line (foff es n a p m : Z) : sret := mksret es 1 foff (n * es) 0 (n * es) m [n] [a] [p] [0] [p].
