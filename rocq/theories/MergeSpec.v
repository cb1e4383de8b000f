(** What metadata merging has to achieve. *)
From Verif Require Import Base Spec MetaModel LocalSpec MergeModel.

(** The dataset an entry of the metadata log belongs to. *)
Definition entry_did (w : wreq) : Z := h_did (w_hdr w).

(** The writes of one round: every dataset at most once, within the limits of an entry. *)
Definition round_ok (cfg : Z) (infos : list (option dinfo)) (ws : list (Z * (list block * list Z))) : Prop :=
  NoDup (map fst ws) /\
  forall did sels data, In (did, (sels, data)) ws ->
     0 <= did < 2 ^ 31 /\ 0 < Zlen sels < 2 ^ 31 /\ coordinate (Zlen data) /\
     exists d, nth_error infos (Z.to_nat did) = Some (Some d) /\
       (has cfg CFG_SEL_ENCODE = false \/ (di_ndim d <= 1)%nat) /\
       Forall (well_shaped (di_ndim d)) sels.

(** The entries [q] are those of the writes [ws]: one per write and no other. *)
Definition entries_of (z : zlib) (infos : list (option dinfo)) (ws : list (Z * (list block * list Z)))
                      (q : list wreq) : Prop :=
  NoDup (map entry_did q) /\
  (forall w, In w q -> exists sels, In (entry_did w, (sels, w_data w)) ws) /\
  (forall did sels data d, In (did, (sels, data)) ws ->
     nth_error infos (Z.to_nat did) = Some (Some d) ->
     exists w, In w q /\ w_data w = data /\
       forall foff pre post, coordinate foff -> Zlen (wreq_bytes w) < 2 ^ 31 ->
         exists m, decode z d (pre ++ wreq_bytes (published w foff (Zlen data)) ++ post) (Zlen pre) = Ok m /\
           describes m did foff (Zlen data) (di_esize d) sels /\
           me_dsize m = di_esize d * count_elems sels).
