(** The subfile of a group is the file the group would have written on its own. *)
From Coq Require Import Ascii String ZifyNat.
From Verif Require Import Base BaseProofs Spec MetaModel QueueModel FlushModel IndexModel ReadModel SysModel SysSpec History HistoryProofs ClaimProofs AnyProofs
  SubModel SubSpec SubProofs SubClaims DumpModel ReplayDataModel SubToolModel SubToolSpec.
Open Scope list_scope. Open Scope Z_scope.

Definition clean (g : gfile) : gfile := mkg (g_cfg g) (g_infos g) (g_ranks g) (g_file g) (g_mdsets g) (g_nldset g) false.
Definition sim (sg : sgroup) (s : sys) : Prop :=
  clean (s_g (sg_sys sg)) = clean (s_g s) /\ sg_nld sg = g_nldset (s_g s) /\ sg_nmd sg = length (g_mdsets (s_g s)).

Lemma clean_eq : forall g g', clean g = clean g' -> g_cfg g = g_cfg g' /\ g_infos g = g_infos g' /\ g_ranks g = g_ranks g' /\ g_file g = g_file g' /\
  g_mdsets g = g_mdsets g' /\ g_nldset g = g_nldset g'.
Proof. intros [] [] H. unfold clean in H. cbn in *. injection H as -> -> -> -> -> ->. repeat split. Qed.

Lemma step_sim : forall e o sg s s1 x, match o with OCreate _ | OSetExtent _ _ | OWrite _ _ _ _ => True | _ => False end ->
  sim sg s -> step e s o = Ok (s1, x) -> exists sg1, group_step e o sg = SOk sg1 /\ sim sg1 s1.
Proof.
  intros e o [[g i] nl nm] [g' i'] s1 x Ho (H1 & H2 & H3) HS. cbn [sg_sys sg_nld sg_nmd s_g] in *. unfold group_step. cbn [sg_sys sg_nld sg_nmd].
  destruct (clean_eq _ _ H1) as (C1 & C2 & C3 & C4 & C5 & C6). destruct g as [c inf rk fi md nld d], g' as [c' inf' rk' fi' md' nld' d']. cbn in C1, C2, C3, C4, C5, C6. subst c' inf' rk' fi' md' nld'.
  destruct o as [dd|did dims|r did sels data| | |]; try tauto; cbn [step s_g s_idx g_cfg g_infos g_ranks] in *.
  - destruct (create_info c dd) as [d1| |]; try discriminate. cbn [bind lift sbind] in *. injection HS as <- <-. eexists. split; [reflexivity|]. repeat split; auto.
  - destruct (info_at inf did) as [[d1|]|]; try discriminate. destruct (set_extent c d1 dims) as [d2 [|]]; try discriminate. cbn [lift sbind] in *. injection HS as <- <-.
    eexists. split; [reflexivity|]. repeat split; auto.
  - destruct (nth_error rk r) as [st|]; try discriminate. destruct (ds_write (e_zlib e) c inf st did sels data) as [st'| |]; try discriminate. cbn [bind lift sbind] in *. injection HS as <- <-.
    eexists. split; [reflexivity|]. repeat split; auto.
Qed.

(** ** Flushing *)
Lemma no_pending_rank : forall st, num_pending st = 0%nat -> unflushed st = [] /\ rank_assign st = st.
Proof.
  intros [ws n md h zb] H. unfold num_pending in H. cbn in H. unfold rank_assign, unflushed, flushed. cbn.
  rewrite skipn_all2 by lia. split; [reflexivity|]. cbn. rewrite firstn_all2 by lia. rewrite app_nil_r. reflexivity.
Qed.
Lemma no_pending : forall g, any_pending g = false -> group_size g = 0 /\ map rank_assign (g_ranks g) = g_ranks g.
Proof.
  intros g H. unfold any_pending, group_size in *. induction (g_ranks g) as [|st l IH]; [split; reflexivity|]. cbn [existsb map Zsum fold_right] in *.
  apply Bool.orb_false_iff in H. destruct H as [H1 H2]. apply Bool.negb_false_iff, Nat.eqb_eq in H1. destruct (no_pending_rank _ H1) as [U R]. destruct (IH H2) as [I1 I2].
  split; [|rewrite R, I2; reflexivity]. rewrite U. unfold Zsum in I1. rewrite I1. reflexivity.
Qed.
Lemma flush_clean : forall doff g g', clean g = clean g' -> clean (flush_writes doff g) = clean (flush_writes doff g').
Proof.
  intros doff g g' H. destruct (clean_eq _ _ H) as (C1 & C2 & C3 & C4 & C5 & C6). unfold flush_writes. rewrite C1, C2, C3, C4, C5, C6.
  destruct (_ =? 0); reflexivity.
Qed.
Lemma flush_nld : forall doff g, group_size g = 0 -> g_nldset (flush_writes doff g) = g_nldset g.
Proof. intros doff g H. unfold flush_writes. fold (group_size g). rewrite H. reflexivity. Qed.
Lemma flush_md : forall doff g, g_mdsets (flush_writes doff g) = g_mdsets g.
Proof. intros. unfold flush_writes. destruct (_ =? 0); reflexivity. Qed.
Lemma group_size_clean : forall g g', clean g = clean g' -> group_size g = group_size g'.
Proof. intros g g' H. unfold group_size. destruct (clean_eq _ _ H) as (_ & _ & -> & _). reflexivity. Qed.
Lemma pending_clean : forall g g', clean g = clean g' -> any_pending g = any_pending g'.
Proof. intros g g' H. unfold any_pending. destruct (clean_eq _ _ H) as (_ & _ & -> & _). reflexivity. Qed.

Lemma flush_sim : forall all doff sg s i, sim sg s -> exists sg1, flush_group all doff sg = SOk sg1 /\ sim sg1 (mksys (flush_writes doff (s_g s)) i).
Proof.
  intros all doff sg s i (H1 & H2 & H3). unfold flush_group. pose proof (group_size_clean _ _ H1) as HG.
  destruct (Z.eqb_spec (group_size (s_g (sg_sys sg))) 0) as [E|E].
  - eexists. split; [reflexivity|]. unfold sim. cbn [sg_sys s_g sg_nld sg_nmd]. split; [|split].
    + rewrite <- (flush_clean doff _ _ H1). unfold flush_writes. fold (group_size (s_g (sg_sys sg))). rewrite E. reflexivity.
    + rewrite flush_nld by congruence. exact H2.
    + rewrite flush_md. exact H3.
  - destruct (clean_eq _ _ H1) as (_ & _ & _ & _ & _ & C). destruct (Z.ltb_spec (sg_nld sg) (g_nldset (s_g (sg_sys sg)))); [lia|].
    eexists. split; [reflexivity|]. unfold sim. cbn [sg_sys s_g sg_nld sg_nmd]. split; [|split].
    + apply flush_clean. exact H1.
    + unfold flush_writes. fold (group_size (s_g s)). destruct (Z.eqb_spec (group_size (s_g s)) 0); [congruence|]. cbn [g_nldset]. lia.
    + rewrite flush_md. exact H3.
Qed.
Lemma flush_idle : forall doff s, any_pending (s_g s) = false -> clean (flush_writes doff (s_g s)) = clean (s_g s).
Proof.
  intros doff s H. destruct (no_pending _ H) as [G R]. unfold flush_writes. fold (group_size (s_g s)). rewrite G. cbn [Z.eqb]. rewrite R. reflexivity.
Qed.
Lemma sim_clean : forall sg s s', sim sg s -> clean (s_g s) = clean (s_g s') -> sim sg s'.
Proof. intros sg s s' (H1 & H2 & H3) C. destruct (clean_eq _ _ C) as (_ & _ & _ & _ & C5 & C6). repeat split; congruence. Qed.

(** All groups, each after a step of its own. *)
Definition sims (gs : list sgroup) (st : nat -> sys) : Prop := forall k sg, nth_error gs k = Some sg -> sim sg (st k).
Lemma flush_sims : forall s doffs st, length doffs = length (sf_groups s) -> sims (sf_groups s) st ->
  exists s', sub_flush doffs s = SOk s' /\ length (sf_groups s') = length (sf_groups s) /\ sf_name s' = sf_name s /\ sf_created s' = sf_created s /\ sf_cfg s' = sf_cfg s /\
    sims (sf_groups s') (fun k => mksys (flush_writes (nth k doffs 0) (s_g (st k))) None).
Proof.
  intros s doffs st HL HS. unfold sub_flush.
  destruct (smap_all _ _ (fun p => flush_group (size_all s) (fst p) (snd p)) (combine doffs (sf_groups s))) as (gs & G1 & G2 & G3).
  { apply all_exists. intros k p Hp. apply combine_from in Hp. destruct Hp as [P1 P2]. destruct (flush_sim (size_all s) (fst p) _ _ None (HS _ _ P2)) as (sg1 & F & _). eauto. }
  rewrite G1. cbn [sbind]. eexists. split; [reflexivity|]. unfold with_groups. cbn [sf_groups sf_name sf_created sf_cfg]. rewrite combine_length in G2.
  split; [lia|]. split; [reflexivity|]. split; [reflexivity|]. split; [reflexivity|].
  intros k sg' Hk. assert (Hlt : (k < length (sf_groups s))%nat) by (apply nth_error_lt in Hk; lia).
  destruct (nth_error_lt_some _ _ _ Hlt) as [sg Hsg]. destruct (nth_error_lt_some _ doffs k ltac:(lia)) as [d Hd].
  destruct (G3 k (d, sg) (combine_at _ _ _ _ _ _ _ Hd Hsg)) as (sg1 & N1 & N2). cbn [fst snd] in N2. assert (sg1 = sg') by congruence. subst sg1.
  destruct (flush_sim (size_all s) d sg (st k) None (HS _ _ Hsg)) as (sg1 & F1 & F2). assert (sg1 = sg') by congruence. subst sg1.
  rewrite (nth_error_nth doffs k 0 Hd). exact F2.
Qed.

Lemma sub_step_sim : forall e s o st, writing_op (length (sf_groups s)) o -> sims (sf_groups s) st ->
  (forall k, (k < length (sf_groups s))%nat -> exists p, run e (st k) (own k o) = Ok p) ->
  exists s' out, sub_step e s o = SOk (s', out) /\ length (sf_groups s') = length (sf_groups s) /\ sf_name s' = sf_name s /\ sf_created s' = sf_created s /\ sf_cfg s' = sf_cfg s /\
    forall k sg', nth_error (sf_groups s') k = Some sg' -> exists p, run e (st k) (own k o) = Ok p /\ sim sg' (fst p).
Proof.
  intros e s o st Ho HS HR.
  assert (LOC : forall op0 so, (forall k, own k so = [op0]) -> match op0 with OCreate _ | OSetExtent _ _ | OWrite _ _ _ _ => True | _ => False end ->
    (forall k, (k < length (sf_groups s))%nat -> exists p, run e (st k) (own k so) = Ok p) ->
    exists gs, smap (group_step e op0) (sf_groups s) = SOk gs /\ length gs = length (sf_groups s) /\
      forall k sg', nth_error gs k = Some sg' -> exists p, run e (st k) (own k so) = Ok p /\ sim sg' (fst p)).
  { intros op0 so Hown Hop HR'.
    assert (K : forall k sg, nth_error (sf_groups s) k = Some sg -> exists sg' p, group_step e op0 sg = SOk sg' /\ run e (st k) (own k so) = Ok p /\ sim sg' (fst p)).
    { intros k sg Hk. destruct (HR' k) as [p Hp]; [apply nth_error_lt in Hk; lia|]. rewrite Hown in Hp |- *. cbn [run] in Hp |- *.
      destruct (step e (st k) op0) as [[s1 x]| |] eqn:E; try discriminate. cbn [bind fst snd] in *.
      destruct (step_sim _ _ _ _ _ _ Hop (HS _ _ Hk) E) as (sg' & G1 & G2). exists sg'. eexists. split; [exact G1|]. split; [reflexivity|]. exact G2. }
    destruct (smap_all _ _ (group_step e op0) (sf_groups s)) as (gs & G1 & G2 & G3).
    { apply all_exists. intros k sg Hk. destruct (K k sg Hk) as (sg' & p & K1 & _). eauto. }
    exists gs. split; [exact G1|]. split; [exact G2|]. intros k sg' Hk. destruct (nth_error_lt_some _ (sf_groups s) k) as [sg Hsg]; [apply nth_error_lt in Hk; lia|].
    destruct (G3 k sg Hsg) as (b & B1 & B2). destruct (K k sg Hsg) as (sg2 & p & K1 & K2 & K3). exists p. split; [exact K2|]. congruence. }
  destruct o as [d|did dims|g rk did sels data|doffs|doffs calls|doffs nps]; cbn [sub_step writing_op session_op] in *; try tauto.
  - destruct (LOC (OCreate d) (SCreate d) (fun _ => eq_refl) Logic.I HR) as (gs & G1 & G2 & G3). rewrite G1. cbn [sbind]. eexists _, _. split; [reflexivity|]. cbn [with_groups sf_groups sf_name sf_created sf_cfg]. auto.
  - destruct (LOC (OSetExtent did dims) (SSetExtent did dims) (fun _ => eq_refl) Logic.I HR) as (gs & G1 & G2 & G3). rewrite G1. cbn [sbind]. eexists _, _. split; [reflexivity|]. cbn [with_groups sf_groups sf_name sf_created sf_cfg]. auto.
  - destruct (nth_error_lt_some _ _ _ Ho) as [sg Hsg]. rewrite Hsg. destruct (HR g Ho) as [p Hp]. cbn [own] in Hp. rewrite Nat.eqb_refl in Hp. cbn [run] in Hp.
    destruct (step e (st g) (OWrite rk did sels data)) as [[s1 x]| |] eqn:E; try discriminate. cbn [bind fst snd] in Hp.
    destruct (step_sim e (OWrite rk did sels data) _ _ _ _ Logic.I (HS _ _ Hsg) E) as (sg' & G1 & G2). rewrite G1. cbn [sbind]. eexists _, _. split; [reflexivity|].
    cbn [with_groups sf_groups sf_name sf_created sf_cfg]. rewrite upd_nth_length'. repeat (split; [reflexivity|]). intros k sg2 Hk. cbn [own].
    destruct (Nat.eqb_spec g k) as [->|N].
    + rewrite nth_error_upd_nth_eq in Hk by auto. injection Hk as <-. cbn [run]. rewrite E. cbn [bind fst snd]. eexists. split; [reflexivity|]. exact G2.
    + rewrite nth_error_upd_nth_ne in Hk by auto. cbn [run]. eexists. split; [reflexivity|]. cbn [fst]. apply HS. exact Hk.
  - cbn [own run step bind fst snd]. destruct (sub_pending s) eqn:EP.
    + destruct (flush_sims s doffs st Ho HS) as (s' & F1 & F2 & F3 & F4 & F5 & F6). rewrite F1. cbn [sbind]. eexists _, _. split; [reflexivity|]. repeat (split; [assumption|]).
      intros k sg' Hk. eexists. split; [reflexivity|]. cbn [fst]. eapply sim_clean; [apply (F6 _ _ Hk)|]. cbn [s_g].
      destruct (any_pending (s_g (st k))) eqn:EA; [reflexivity|]. apply flush_idle. exact EA.
    + cbn [sbind]. eexists _, _. split; [reflexivity|]. repeat (split; [reflexivity|]). intros k sg' Hk. eexists. split; [reflexivity|]. cbn [fst].
      pose proof (HS _ _ Hk) as S1. eapply sim_clean; [exact S1|]. cbn [s_g].
      rewrite <- (pending_clean _ _ (proj1 S1)), (sub_pending_spec _ EP _ _ Hk). reflexivity.
Qed.

Lemma sub_run_sim : forall e ops s st, Forall (writing_op (length (sf_groups s))) ops -> sims (sf_groups s) st ->
  (forall k, (k < length (sf_groups s))%nat -> exists p, run e (st k) (own_part k ops) = Ok p) ->
  exists s' outs, sub_run e s ops = SOk (s', outs) /\ length (sf_groups s') = length (sf_groups s) /\ sf_name s' = sf_name s /\ sf_created s' = sf_created s /\ sf_cfg s' = sf_cfg s /\
    forall k sg', nth_error (sf_groups s') k = Some sg' -> exists p, run e (st k) (own_part k ops) = Ok p /\ sim sg' (fst p).
Proof.
  intros e. induction ops as [|o ops IH]; intros s st HF HS HR.
  - exists s, []. repeat (split; [reflexivity|]). intros k sg' Hk. exists (st k, []). split; [reflexivity|]. apply HS. exact Hk.
  - inversion HF as [|? ? Ho HF']; subst. unfold own_part in HR |- *. cbn [flat_map] in HR |- *.
    assert (HA : forall k, (k < length (sf_groups s))%nat -> exists p q, run e (st k) (own k o) = Ok p /\ run e (fst p) (flat_map (own k) ops) = Ok q).
    { intros k Hk. destruct (HR k Hk) as [p Hp]. rewrite run_app in Hp. destruct (run e (st k) (own k o)) as [[s1 o1]| |]; try discriminate. cbn [bind fst snd] in Hp.
      destruct (run e s1 (flat_map (own k) ops)) as [q| |] eqn:E; try discriminate. exists (s1, o1), q. auto. }
    destruct (sub_step_sim e s o st Ho HS) as (s1 & out & S1 & S2 & S3 & S4 & S5 & S6). { intros k Hk. destruct (HA k Hk) as (p & q & A & _). eauto. }
    cbn [sub_run]. rewrite S1. cbn [sbind fst snd].
    set (st1 := fun k => match run e (st k) (own k o) with Ok p => fst p | _ => st k end).
    destruct (IH s1 st1) as (s' & outs & R1 & R2 & R3 & R4 & R5 & R6).
    + rewrite S2. exact HF'.
    + intros k sg Hk. destruct (S6 _ _ Hk) as (p & P1 & P2). unfold st1. rewrite P1. exact P2.
    + rewrite S2. intros k Hk. destruct (HA k Hk) as (p & q & A & B). unfold st1. rewrite A. eauto.
    + rewrite R1. cbn [sbind fst snd]. eexists _, _. split; [reflexivity|]. repeat (split; [congruence|]). intros k sg' Hk.
      destruct (R6 _ _ Hk) as (q & Q1 & Q2). assert (Hlt : (k < length (sf_groups s))%nat) by (apply nth_error_lt in Hk; lia).
      destruct (HA k Hlt) as (p & q' & A & B). unfold st1 in Q1. rewrite A in Q1. rewrite run_app, A. cbn [bind fst snd]. unfold own_part in Q1. rewrite Q1. cbn [bind fst snd].
      eexists. split; [reflexivity|]. exact Q2.
Qed.
