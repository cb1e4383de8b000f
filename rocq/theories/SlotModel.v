(** The tables of datasets made by the utilities h5ldump and h5lreplay. *)
From Verif Require Import Base MetaModel.

(** A slot that is not filled in, because the visit skips the name of the dataset
    (utils/h5ldump/h5ldump_visit.cpp:76-79, utils/h5lreplay/h5lreplay_copy.cpp:37-46) or the dataset was deleted:
    std::vector::resize (utils/h5ldump/h5ldump_visit.cpp:55, utils/h5lreplay/h5lreplay.cpp:219) sets it to zero, no
    dimensions and elements of size 0. *)
Definition zero_info : dinfo := mkdinfo 0 [] [] [] None.
(** utils/h5ldump/h5ldump_visit.cpp:55. *)
Definition table_slot (inf : option dinfo) : dinfo := match inf with Some d => d | None => zero_info end.
