(** Concrete entries: the hypotheses of the entry properties are satisfiable, and witnesses of
    refutations. *)
From Verif Require Import Base Spec MetaModel QueueModel LocalSpec EndianModel EndianProofs MetaClaims.

Definition m_z : zlib := mkzlib (fun l _ => (true, l)) (fun l _ => l).
Definition m_d3 : dinfo := mkdinfo 2 [4;6;5] [4;6;5] (dsteps_of [4;6;5]) None.
Definition m_sels : list block :=
  [mkblock [0;1;2] [4;2;3]; mkblock [3;5;0] [1;1;4]; mkblock [1;1;1] [2;5;2]].
Definition m_d2 : dinfo := mkdinfo 1 [4;4] [4;4] (dsteps_of [4;4]) None.
Definition m_wide : list block := [mkblock [0;0] [2;4]; mkblock [3;0] [1;1]].
Definition m_dr : dinfo := mkdinfo 1 [3;4;5] [UNLIMITED;4;5] (dsteps_of [3;4;5]) None.
Definition m_rec : list block := [mkblock [2;0;1] [1;4;3]; mkblock [2;3;0] [1;1;4]].

Ltac meta_tac := repeat (apply conj || apply Forall_nil || apply Forall_cons || apply Forall2_nil || apply Forall2_cons);
  try (vm_compute; congruence); try (vm_compute; intuition congruence); try reflexivity.

Lemma m_plain_ok : described m_d3 /\ Forall (well_shaped (di_ndim m_d3)) m_sels /\
  0 < Zlen m_sels < 2 ^ 31 /\ has 8 CFG_SEL_ENCODE = false /\ has 8 CFG_SEL_DEFLATE = false /\
  ~ extendible m_d3 /\
  Zlen (wreq_bytes (published (mk_wreq 8 3 m_d3 0 m_sels) 100 92)) < 2 ^ 31.
Proof. meta_tac. Qed.

Lemma m_short_ok : described m_d3 /\ Forall (well_shaped (di_ndim m_d3)) m_sels /\
  sized (di_dims m_d3) /\ Forall (in_array (di_dims m_d3)) m_sels /\
  ~ extendible m_d3 /\ Forall (inner_short (di_dims m_d3)) m_sels /\
  has 10 CFG_SEL_ENCODE = true /\ has 10 CFG_SEL_DEFLATE = false /\
  Zlen (wreq_bytes (published (mk_wreq 10 3 m_d3 0 m_sels) 100 92)) < 2 ^ 31.
Proof. unfold sized. meta_tac. cbn. auto 40 with arith. Qed.

Lemma m_rec_ok : described m_dr /\ Forall (well_shaped (di_ndim m_dr)) m_rec /\
  extendible m_dr /\ in_record 2 m_rec /\
  sized (di_dims m_dr) /\ Forall (in_array (di_dims m_dr)) m_rec /\
  Forall (fun b => inner_short (tl (di_dims m_dr)) (tail_block b)) m_rec /\
  Zlen (wreq_bytes (published (mk_wreq 10 3 m_dr 0 m_rec) 100 16)) < 2 ^ 31.
Proof. unfold sized, in_record. meta_tac. cbn. auto 40 with arith. Qed.

Lemma wide_entry_refuted : exists z cfg did d sels foff fsize m,
  described d /\ Forall (well_shaped (di_ndim d)) sels /\ sized (di_dims d) /\
  Forall (in_array (di_dims d)) sels /\ ~ extendible d /\ has cfg CFG_SEL_DEFLATE = false /\
  decode z d (wreq_bytes (published (mk_wreq cfg did d 0 sels) foff fsize)) 0 = Ok m /\
  ~ describes m did foff fsize (di_esize d) sels.
Proof.
  exists m_z, 10, 3, m_d2, m_wide, 100, 9.
  eexists. split; [meta_tac|]. split; [meta_tac|].
  split; [unfold sized; split; [cbn; auto 40 with arith|reflexivity]|]. split; [meta_tac|].
  split; [vm_compute; congruence|]. split; [reflexivity|]. split; [vm_compute; reflexivity|].
  intros (_ & _ & _ & H & _). vm_compute in H. discriminate.
Qed.

Lemma record_size_refuted : exists z cfg did d sels r foff fsize m,
  described d /\ Forall (well_shaped (di_ndim d)) sels /\ sized (di_dims d) /\
  Forall (in_array (di_dims d)) sels /\ extendible d /\ in_record r sels /\ length sels = 1%nat /\
  decode z d (wreq_bytes (published (mk_wreq cfg did d 0 sels) foff fsize)) 0 = Ok m /\
  describes m did foff fsize (di_esize d) sels /\
  me_dsize m <> di_esize d * count_elems sels.
Proof.
  exists m_z, 10, 3, m_dr, [mkblock [2;0;1] [1;4;3]], 2, 100, 12.
  eexists. split; [meta_tac|]. split; [meta_tac|].
  split; [unfold sized; split; [cbn; auto 40 with arith|reflexivity]|]. split; [meta_tac|].
  split; [reflexivity|]. split; [unfold in_record; meta_tac|]. split; [reflexivity|].
  split; [vm_compute; reflexivity|]. split.
  - unfold describes. vm_compute. auto.
  - vm_compute. congruence.
Qed.

Lemma be_entry_refuted : exists cfg did d sels foff fsize,
  described d /\ Forall (well_shaped (di_ndim d)) sels /\ coordinate foff /\ coordinate fsize /\
  wreq_bytes_be cfg did d sels foff fsize <>
  wreq_bytes (published (mk_wreq cfg did d 0 sels) foff fsize).
Proof.
  exists 10, 3, m_d3, m_sels, 2048, 92. split; [meta_tac|]. split; [meta_tac|].
  split; [meta_tac|]. split; [meta_tac|]. vm_compute. congruence.
Qed.
