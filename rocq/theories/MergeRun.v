(** Metadata merging in whole histories. *)
From Verif Require Import Base BaseProofs Spec MetaModel QueueModel FlushModel IndexModel ReadModel SysModel
  SysSpec GeomProofs MetaProofs QueueProofs IndexProofs SearchProofs ReadProofs HitProofs MdProofs StoreProofs
  FlushProofs ReadOneProofs SysProofs MergeModel MergeSysModel MergeSysSpec MergeSysProofs.
From Verif Require MergeProofs.
From Coq Require Import ZifyNat ZifyN Permutation.

Definition minv (e : env) (cfg : Z) (cv : conv) (s : msys) (sp : sstate) (h : hstate) (since : list (nat * Z)) (n : Z) : Prop :=
  exists sp0 h0 n0 C ms grs,
    inv e cfg cv (ms_sys s) sp0 h0 n0 C ms grs /\
    (hs_hi h0 = hs_hi h /\ length (hs_seen h) = length (ss_pend sp)) /\
    n0 + Z.of_nat (length (concat (ss_pend sp))) <= n /\
    ss_sets sp0 = ss_sets sp /\ same_store (ss_store sp0) (ss_store sp) /\
    ss_pend sp0 = map (fun _ => []) (ss_pend sp) /\
    ms_slots s = map (slots_of (length (ss_sets sp))) (ss_pend sp) /\
    Forall (Forall (pw_ok e (ss_sets sp))) (ss_pend sp) /\
    Forall (fun l => NoDup (map pw_did l)) (ss_pend sp) /\
    (forall rk l w, nth_error (ss_pend sp) rk = Some l -> In w l -> In (rk, pw_did w) since).

Lemma fold_snoc : forall A (Q l : list A), fold_left (fun l w => l ++ [w]) Q l = l ++ Q.
Proof. induction Q; intros l; cbn; [rewrite app_nil_r; auto|]. rewrite IHQ, <- app_assoc. reflexivity. Qed.

Lemma pw_ok_range : forall e sets w, pw_ok e sets w -> 0 <= pw_did w /\ (Z.to_nat (pw_did w) < length sets)%nat.
Proof. intros e sets w (H1 & _ & d & H2 & _). split; [lia|]. apply nth_error_Some. congruence. Qed.

Lemma drain_push : forall n pend ranks, Forall (Forall (fun w => pw_sels w <> [])) pend -> length pend = length ranks ->
  map (fun p => rank_drain (fst p) (snd p)) (combine (map (slots_of n) pend) ranks) =
  map (fun p => fold_left (fun st w => push_req st (merge_entry (mreq_of w))) (fst p) (snd p)) (combine (map (by_set n) pend) ranks).
Proof.
  intros n. induction pend as [|l pend IH]; intros [|st ranks] HF HL; try discriminate; [reflexivity|].
  inversion HF; subst. cbn [map combine fst snd]. rewrite IH by (auto; cbn in HL; lia). f_equal.
  unfold rank_drain. destruct (drain_slots n l) as (-> & _); auto. clear. revert st. induction (by_set n l) as [|w Q IHQ]; intros st; [reflexivity|]. cbn. apply IHQ.
Qed.

Lemma filter_concat : forall f (L : list (list pwrite)), filter f (concat L) = concat (map (filter f) L).
Proof. induction L; [reflexivity|]. cbn. rewrite filter_app, IHL. reflexivity. Qed.

Lemma num_pending_pushes : forall Q st, (k_nflushed st <= length (k_wreqs st))%nat ->
  num_pending (fold_left (fun st w => push_req st (merge_entry (mreq_of w))) Q st) = (num_pending st + length Q)%nat.
Proof.
  induction Q as [|w Q IH]; intros st H; [cbn; lia|]. cbn [fold_left length]. rewrite IH.
  - unfold num_pending, push_req. cbn [k_wreqs k_nflushed]. rewrite app_length. cbn. lia.
  - unfold push_req. cbn [k_wreqs k_nflushed]. rewrite app_length. lia.
Qed.

Lemma any_pending_drain : forall n pend g, Forall (Forall (fun w => pw_sels w <> [])) pend -> length pend = length (g_ranks g) ->
  Forall (fun st => (k_nflushed st <= length (k_wreqs st))%nat) (g_ranks g) ->
  any_pending_m g (map (slots_of n) pend) = any_pending (drain_all g (map (slots_of n) pend)).
Proof.
  intros n pend g HF HL HN. unfold any_pending_m, any_pending, drain_all. cbn [set_ranks g_ranks]. rewrite drain_push by auto.
  revert HF HL HN. generalize (g_ranks g) as ranks. induction pend as [|l pend IH]; intros [|st ranks] HF HL HN; try discriminate; [reflexivity|].
  inversion HF; inversion HN; subst. cbn [map combine existsb fst snd]. rewrite IH by (auto; cbn in HL; lia). f_equal.
  unfold num_pending_m. destruct (drain_slots n l) as (_ & _ & ->); auto. rewrite num_pending_pushes by auto. reflexivity.
Qed.

Lemma minv_drain : forall e cfg cv s sp h since n, minv e cfg cv s sp h since n -> has cfg CFG_SEL_ENCODE = false -> n < 2 ^ 30 ->
  exists sp1 h1 C ms grs,
    inv e cfg cv (mksys (drain_all (s_g (ms_sys s)) (ms_slots s)) (s_idx (ms_sys s))) sp1 h1 n C ms grs /\
    hs_hi h1 = hs_hi h /\ ss_sets sp1 = ss_sets sp /\ ss_pend sp1 = map (by_set (length (ss_sets sp))) (ss_pend sp) /\
    same_store (ss_store (sflush sp1)) (ss_store (sflush sp)) /\
    pend_bytes sp1 = pend_bytes sp /\ (concat (ss_pend sp1) = [] <-> concat (ss_pend sp) = []) /\
    any_pending_m (s_g (ms_sys s)) (ms_slots s) = any_pending (drain_all (s_g (ms_sys s)) (ms_slots s)) /\
    map (fun l => snd (merge_drain l)) (ms_slots s) = map (slots_of (length (ss_sets sp))) (map (fun _ => []) (ss_pend sp)) /\
    (concat (ss_pend sp) = [] -> drain_all (s_g (ms_sys s)) (ms_slots s) = s_g (ms_sys s) /\
       ms_slots s = map (slots_of (length (ss_sets sp))) (map (fun _ => []) (ss_pend sp))).
Proof.
  intros e cfg cv s sp h since n (sp0 & h0 & n0 & C & ms & grs & I & (Hh & _) & Hn0 & Hset & Hst & Hpd & Hsl & Hok & Hnd & _) He Hn.
  set (N := length (ss_sets sp)) in *.
  assert (Hne : Forall (Forall (fun w => pw_sels w <> [])) (ss_pend sp)).
  { eapply Forall_impl; [|exact Hok]. intros l. apply Forall_impl. intros w (_ & Q & _). exact Q. }
  assert (Hrg : Forall (Forall (fun w => 0 <= pw_did w /\ (Z.to_nat (pw_did w) < N)%nat)) (ss_pend sp)).
  { eapply Forall_impl; [|exact Hok]. intros l. apply Forall_impl. intros w. apply pw_ok_range. }
  assert (HLr : length (ss_pend sp) = length (g_ranks (s_g (ms_sys s)))).
  { pose proof (Forall2_length _ _ _ _ _ (v_ranks _ _ _ _ _ _ _ _ _ _ I)) as L1. pose proof (v_pend _ _ _ _ _ _ _ _ _ _ I) as L2.
    apply (f_equal (@length _)) in L2. rewrite Hpd, !map_length in L2. lia. }
  set (Qs := map (by_set N) (ss_pend sp)).
  assert (HP : Permutation (concat Qs) (concat (ss_pend sp))).
  { unfold Qs. clear - Hnd Hrg. induction (ss_pend sp) as [|l L IH]; [reflexivity|]. inversion Hnd; inversion Hrg; subst. cbn.
    apply Permutation_app; [apply by_set_perm; auto|auto]. }
  assert (HL : length (concat Qs) = length (concat (ss_pend sp))) by (apply Permutation_length; exact HP).
  assert (Hd : drain_all (s_g (ms_sys s)) (ms_slots s) = fold_left gpush (flat_ps 0 Qs) (s_g (ms_sys s))).
  { rewrite fold_gpush. unfold drain_all. f_equal. rewrite Hsl, drain_push by auto.
    pose proof (upd_with_all _ _ (fun st w => push_req st (merge_entry (mreq_of w))) rank0 Qs (g_ranks (s_g (ms_sys s))) [] ltac:(unfold Qs; rewrite map_length; exact HLr)) as U.
    cbn [app length] in U. symmetry. exact U. }
  assert (Hsp : fold_left spush (flat_ps 0 Qs) sp0 = mkss (ss_sets sp) (ss_store sp0) Qs).
  { rewrite fold_spush, Hset. f_equal. rewrite Hpd.
    pose proof (upd_with_all _ _ (fun l w => l ++ [w]) [] Qs (map (fun _ => @nil pwrite) (ss_pend sp)) [] ltac:(unfold Qs; rewrite !map_length; reflexivity)) as U.
    cbn [app length] in U. rewrite U. unfold Qs. clear. induction (ss_pend sp) as [|l L IH]; [reflexivity|]. cbn [map combine fst snd]. rewrite IH, fold_snoc. reflexivity. }
  destruct (inv_pushes e cfg cv (flat_ps 0 Qs) (ms_sys s) sp0 h0 n0 C ms grs I He) as (h1 & grs1 & E1 & I1).
  { apply Forall_forall. intros p Hp. apply flat_ps_in in Hp. destruct Hp as [P1 P2]. unfold Qs in P1. rewrite map_length in P1. split; [lia|].
    rewrite Hset. apply (Permutation_in _ HP) in P2. apply in_concat in P2. destruct P2 as (l & P2 & P3).
    rewrite Forall_forall in Hok. pose proof (Hok l P2) as H. rewrite Forall_forall in H. auto. }
  { rewrite flat_ps_length, HL. lia. }
  rewrite <- Hd, Hsp in I1. rewrite flat_ps_length, HL in I1.
  exists (mkss (ss_sets sp) (ss_store sp0) Qs), h1, C, ms, grs1. cbn [ss_sets ss_store ss_pend].
  split; [eapply inv_n; [|exact I1]; lia|]. split; [congruence|]. split; [reflexivity|]. split; [reflexivity|]. split; [|split; [|split; [|split; [|split]]]].
  - unfold sflush. cbn [ss_store ss_sets ss_pend]. apply apply_same; auto. intros did. rewrite !filter_concat. f_equal. unfold Qs. rewrite map_map.
    clear - Hnd Hrg. induction (ss_pend sp) as [|l L IH]; [reflexivity|]. inversion Hnd; inversion Hrg; subst. cbn [map]. rewrite by_set_filter by auto. f_equal; auto.
  - unfold pend_bytes. cbn [ss_pend]. clear - HP. induction HP; cbn [map]; unfold Zsum in *; cbn [fold_right]; lia.
  - split; intros E.
    + destruct (concat (ss_pend sp)) as [|x l]; [reflexivity|]. rewrite E in HL. discriminate.
    + destruct (concat Qs) as [|x l]; [reflexivity|]. rewrite E in HL. discriminate.
  - rewrite Hsl. apply any_pending_drain; auto. pose proof (v_ranks _ _ _ _ _ _ _ _ _ _ I) as HR. clear - HR.
    induction HR as [|st gr l l' H1 H2 IH]; constructor; auto. destruct H1 as ([Q _ _] & N & _). apply qrep_length in Q. rewrite app_length, map_length in Q. unfold pwr in *. lia.
  - rewrite Hsl, !map_map. apply map_ext_in. intros l Hl. rewrite Forall_forall in Hne. destruct (drain_slots N l (Hne l Hl)) as (_ & -> & _).
    unfold slots_of. cbn. clear. generalize 0%nat. induction N; intros k; [reflexivity|]. cbn. f_equal. auto.
  - intros E. assert (HA : Forall (fun l => l = []) (ss_pend sp)).
    { clear - E. induction (ss_pend sp) as [|l L IH]; constructor; cbn in E; apply app_eq_nil in E; tauto. }
    assert (EQ : concat Qs = []) by (apply Permutation_nil; rewrite <- E; symmetry; exact HP).
    split.
    + rewrite Hd. assert (EF : flat_ps 0 Qs = []) by (apply length_zero_iff_nil; rewrite flat_ps_length, EQ; reflexivity). rewrite EF. reflexivity.
    + rewrite Hsl, map_map. apply map_ext_in. intros l Hl. rewrite Forall_forall in HA. rewrite (HA l Hl). reflexivity.
Qed.

Lemma flush_m_eq : forall e cfg cv s sp h since n doff, minv e cfg cv s sp h since n -> has cfg CFG_SEL_ENCODE = false -> n < 2 ^ 30 ->
  let g' := drain_all (s_g (ms_sys s)) (ms_slots s) in
  flush_m doff (s_g (ms_sys s)) (ms_slots s) =
    (if any_pending g' then flush_writes doff g' else g', map (slots_of (length (ss_sets sp))) (map (fun _ => []) (ss_pend sp))).
Proof.
  intros e cfg cv s sp h since n doff HM He Hn g'. destruct (minv_drain _ _ _ _ _ _ _ _ HM He Hn) as (sp1 & h1 & C & ms & grs & I & _ & _ & _ & _ & _ & Hc & Ha & Hs & Hz).
  unfold flush_m. fold g' in Ha, I, Hz |- *. rewrite Ha. destruct (any_pending g') eqn:E.
  - rewrite Hs. reflexivity.
  - pose proof (inv_pend _ _ _ _ _ _ _ _ _ _ I) as (_ & P2 & P3). cbn [s_g] in P3. rewrite P3 in E.
    destruct (all_pd grs) as [|a l] eqn:Eg; [|discriminate]. destruct Hz as [Hz1 Hz2]; [apply Hc; exact P2|]. rewrite <- Hz2, Hz1. reflexivity.
Qed.

(** ** One call *)
Lemma NoDup_app_intro_one : forall A (l : list A) x, NoDup l -> ~ In x l -> NoDup (l ++ [x]).
Proof.
  intros A l x H Hx. apply (Permutation_NoDup (l := x :: l)); [|constructor; auto]. apply Permutation_cons_append.
Qed.
Lemma find_w_snoc : forall l w i, find_w (l ++ [w]) i = match find_w l i with Some x => Some x | None => if (Z.to_nat (pw_did w) =? i)%nat then Some w else None end.
Proof.
  unfold find_w. induction l as [|x l IH]; intros w i; cbn [app find].
  - destruct (Z.to_nat (pw_did w) =? i)%nat; reflexivity.
  - destruct (Z.to_nat (pw_did x) =? i)%nat; auto.
Qed.
Lemma map_seq_upd : forall A (f g : nat -> A) j n k, (k <= j)%nat -> (forall i, i <> j -> f i = g i) ->
  map f (seq k n) = upd_nth (j - k) (f j) (map g (seq k n)).
Proof.
  intros A f g j. induction n as [|n IH]; intros k Hk H; [destruct (j - k)%nat; reflexivity|]. cbn [seq map].
  destruct (Nat.eq_dec k j) as [->|E].
  - rewrite Nat.sub_diag. cbn [upd_nth]. f_equal. apply map_ext_in. intros i Hi. apply in_seq in Hi. apply H. lia.
  - replace (j - k)%nat with (S (j - S k)) by lia. cbn [upd_nth]. rewrite (H k) by auto. f_equal. apply IH; [lia|auto].
Qed.
Lemma slots_of_write : forall n l w, find_w l (Z.to_nat (pw_did w)) = None ->
  slots_of n (l ++ [w]) = upd_nth (Z.to_nat (pw_did w)) (Some (mreq_of w)) (slots_of n l).
Proof.
  intros n l w H. unfold slots_of.
  rewrite (map_seq_upd _ (fun i => option_map mreq_of (find_w (l ++ [w]) i)) (fun i => option_map mreq_of (find_w l i)) (Z.to_nat (pw_did w)) n 0).
  - rewrite Nat.sub_0_r. f_equal. rewrite find_w_snoc, H, Nat.eqb_refl. reflexivity.
  - lia.
  - intros i Hi. rewrite find_w_snoc. destruct (find_w l i); auto. destruct (Nat.eqb_spec (Z.to_nat (pw_did w)) i); [congruence|reflexivity].
Qed.
Lemma slots_of_create : forall n l, Forall (fun w => (Z.to_nat (pw_did w) < n)%nat) l -> slots_of (S n) l = slots_of n l ++ [None].
Proof.
  intros n l H. unfold slots_of. rewrite seq_S, map_app. cbn [Nat.add map]. do 2 f_equal.
  destruct (find_w l n) as [w|] eqn:E; [|reflexivity]. apply find_w_In in E. rewrite Forall_forall in H. pose proof (H w (proj1 E)). cbn beta in H0. lia.
Qed.
Lemma slots_of_nth : forall n l i, (i < n)%nat -> nth_error (slots_of n l) i = Some (option_map mreq_of (find_w l i)).
Proof.
  intros n l i H. unfold slots_of. rewrite nth_error_map. rewrite (nth_error_nth' (seq 0 n) 0%nat) by (rewrite seq_length; exact H).
  rewrite seq_nth by exact H. reflexivity.
Qed.

Section Step.
Context (e : env) (cfg : Z) (cv : conv) (Hm : merging cfg) (Hcoll : e_coll e = true) (Hsort : is_sort (e_sort e)).

Lemma mwrite_step : forall s sp h since n rk did sels data ops,
  minv e cfg cv s sp h since n -> once_each since (OWrite rk did sels data :: ops) ->
  ok_write e 0 cv sp h rk did sels data ->
  exists s' since', mstep e s (OWrite rk did sels data) = Ok (s', []) /\ once_each since' ops /\
    minv e cfg cv s' (fst (sstep (e_coll e) sp (OWrite rk did sels data))) (hstep e sp h (OWrite rk did sels data)) since' (n + 1).
Proof.
  destruct Hm as (M1 & M2 & M3 & M4 & M5).
  intros s sp h since n rk did sels data ops (sp0 & h0 & n0 & C & ms & grs & I & (Hh & Hsn) & Hn0 & Hset & Hst & Hpd & Hsl & Hok & Hnd & Hsi) Hon (seen & Hseen & Hw).
  assert (Hrk : (rk < length (ss_pend sp))%nat) by (rewrite <- Hsn; apply nth_error_Some; congruence).
  destruct (nth_error (ss_pend sp) rk) as [l|] eqn:El; [|apply nth_error_None in El; lia].
  cbn [mstep]. rewrite Hsl, nth_error_map, El. cbn [option_map]. rewrite (v_cfg _ _ _ _ _ _ _ _ _ _ I).
  set (N := length (ss_sets sp)) in *.
  cbn [sstep fst hstep]. destruct sels as [|b sels'].
  - cbn [merge_write bind]. exists (mkmsys (ms_sys s) (ms_slots s)), since. rewrite upd_nth_same by (rewrite nth_error_map, El; reflexivity). rewrite <- Hsl.
    split; [reflexivity|]. split; [exact Hon|].
    exists sp0, h0, n0, C, ms, grs. cbn [ms_sys ms_slots hs_hi hs_seen]. rewrite upd_nth_length. repeat (split; [assumption || (split; assumption) || lia|]). exact Hsi.
  - set (sels := b :: sels') in *. destruct Hon as [Hon1 Hon2].
    destruct (Hw ltac:(discriminate)) as (d & W1 & W2 & W3 & W4 & W5 & W6 & W7 & W8).
    assert (W1' : set_of sp0 did = Some d) by (unfold set_of in *; rewrite Hset; exact W1).
    destruct (set_of_info _ _ _ _ _ _ _ _ _ _ _ _ I W1') as (D0 & D1 & d' & D2 & D3 & D4 & D5 & D6 & D7 & D8 & D9 & D10).
    set (w := mkpw did sels data).
    assert (Hpw : pw_ok e (ss_sets sp) w).
    { split; [cbn; lia|]. split; [discriminate|]. exists d. cbn [w pw_did pw_sels pw_data]. rewrite <- Hset. auto. }
    destruct (pw_ok_range _ _ _ Hpw) as [_ Hlt]. fold N in Hlt. cbn [w pw_did] in Hlt.
    assert (Hfind : find_w l (Z.to_nat did) = None).
    { destruct (find_w l (Z.to_nat did)) as [x|] eqn:E; [|reflexivity]. apply find_w_In in E. destruct E as [E1 E2]. exfalso. apply Hon1.
      pose proof (Hsi rk l x El E1) as Q. assert (HR : pw_ok e (ss_sets sp) x).
      { rewrite Forall_forall in Hok. pose proof (Hok l (nth_error_In _ _ El)) as Q2. rewrite Forall_forall in Q2. apply Q2. exact E1. }
      apply pw_ok_range in HR. assert (pw_did x = did) by lia. congruence. }
    unfold merge_write. change (match sels with [] => Ok (slots_of N l) | _ :: _ => if Z.lxor cfg CFG_METADATA_MERGE =? 0 then UB else
        match nth_error (g_infos (s_g (ms_sys s))) (Z.to_nat did), nth_error (slots_of N l) (Z.to_nat did) with
        | Some (Some dip), Some slot => let m := match slot with Some m => m | None => merge_init cfg did dip end in
           Ok (upd_nth (Z.to_nat did) (Some (merge_append dip m sels data)) (slots_of N l)) | _, _ => UB end end) with
       (if Z.lxor cfg CFG_METADATA_MERGE =? 0 then UB else
        match nth_error (g_infos (s_g (ms_sys s))) (Z.to_nat did), nth_error (slots_of N l) (Z.to_nat did) with
        | Some (Some dip), Some slot => let m := match slot with Some m => m | None => merge_init cfg did dip end in
           Ok (upd_nth (Z.to_nat did) (Some (merge_append dip m sels data)) (slots_of N l)) | _, _ => UB end).
    destruct (Z.eqb_spec (Z.lxor cfg CFG_METADATA_MERGE) 0) as [E|_]; [apply Z.lxor_eq in E; congruence|].
    rewrite D2, slots_of_nth, Hfind by exact Hlt. cbn [option_map].
    rewrite MergeProofs.init_plain by (split; auto). rewrite MergeProofs.append_plain by reflexivity. cbn [m_did m_nsel m_tail m_data app Z.add].
    change (mkmreq did FLAG_MUL_SEL (Zlen sels) (words (encode_words None 0 sels)) data) with (mreq_of w).
    cbn [bind]. eexists _, ((rk, did) :: since). split; [reflexivity|]. split; [exact Hon2|].
    rewrite (nth_error_nth _ _ _ El). fold w.
    exists sp0, h0, n0, C, ms, grs. cbn [ms_sys ms_slots hs_hi hs_seen ss_sets ss_store ss_pend]. rewrite !upd_nth_length. fold N.
    split; [exact I|]. split; [split; [exact Hh|exact Hsn]|].
    split.
    { assert (HC : length (concat (upd_nth rk (l ++ [w]) (ss_pend sp))) = S (length (concat (ss_pend sp)))).
      { pose proof (upd_nth_flat_map _ _ (fun x : list pwrite => x) (ss_pend sp) rk l (l ++ [w]) El) as [U1 U2].
        rewrite !flat_map_concat_map, !map_id in U1, U2. rewrite U1, U2, !app_length. cbn [length]. lia. }
      rewrite HC. lia. }
    split; [exact Hset|]. split; [exact Hst|]. split.
    { rewrite Hpd, map_upd_nth. symmetry. apply upd_nth_same. rewrite nth_error_map, El. reflexivity. }
    split.
    { rewrite map_upd_nth. f_equal. symmetry. apply (slots_of_write N l w). exact Hfind. }
    split.
    { apply Forall_forall. intros x Hx. apply In_nth_error in Hx. destruct Hx as [k Hx]. destruct (Nat.eq_dec rk k) as [<-|Ek].
      - rewrite nth_error_upd_nth_eq in Hx by exact Hrk. injection Hx as <-. apply Forall_app. split; [|constructor; auto].
        rewrite Forall_forall in Hok. apply Hok. eapply nth_error_In; eauto.
      - rewrite nth_error_upd_nth_ne in Hx by exact Ek. rewrite Forall_forall in Hok. apply Hok. eapply nth_error_In; eauto. }
    split.
    { apply Forall_forall. intros x Hx. apply In_nth_error in Hx. destruct Hx as [k Hx]. destruct (Nat.eq_dec rk k) as [<-|Ek].
      - rewrite nth_error_upd_nth_eq in Hx by exact Hrk. injection Hx as <-. rewrite map_app. cbn [map].
        apply NoDup_app_intro_one; [rewrite Forall_forall in Hnd; apply Hnd; eapply nth_error_In; eauto|].
        intros Q. apply in_map_iff in Q. destruct Q as (y & Q1 & Q2). apply Hon1. pose proof (Hsi rk l y El Q2) as Q3. cbn [w pw_did] in Q1. rewrite Q1 in Q3. exact Q3.
      - rewrite nth_error_upd_nth_ne in Hx by exact Ek. rewrite Forall_forall in Hnd. apply Hnd. eapply nth_error_In; eauto. }
    intros k x y Hx Hy. destruct (Nat.eq_dec rk k) as [<-|Ek].
    + rewrite nth_error_upd_nth_eq in Hx by exact Hrk. injection Hx as <-. apply in_app_or in Hy. destruct Hy as [Hy|[<-|[]]]; [right; eauto|left; reflexivity].
    + rewrite nth_error_upd_nth_ne in Hx by exact Ek. right. eauto.
Qed.

Lemma mcreate_step : forall s sp h since n d, minv e cfg cv s sp h since n -> ok_create 0 d ->
  exists s', mstep e s (OCreate d) = Ok (s', []) /\
    minv e cfg cv s' (fst (sstep (e_coll e) sp (OCreate d))) (hstep e sp h (OCreate d)) since (n + 1).
Proof.
  destruct Hm as (M1 & M2 & M3 & M4 & M5).
  intros s sp h since n d (sp0 & h0 & n0 & C & ms & grs & I & Hh & Hn0 & Hset & Hst & Hpd & Hsl & Hok & Hnd & Hsi) (K1 & K2 & _ & K4).
  destruct (step_create _ _ _ _ _ _ _ _ _ _ d I) as (sy & S1 & S2).
  { split; [exact K1|]. split; [exact K2|]. split; [rewrite M3; discriminate|exact K4]. }
  cbn [mstep]. rewrite S1. cbn [bind fst snd]. eexists. split; [reflexivity|].
  eexists _, h0, n0, C, ms, grs. cbn [ms_sys ms_slots sstep fst hstep]. split; [exact S2|]. split; [exact Hh|]. cbn [ss_sets ss_store ss_pend].
  split; [lia|]. split; [rewrite Hset; reflexivity|]. split; [exact Hst|]. split; [exact Hpd|]. split; [|split; [|split; [exact Hnd|exact Hsi]]].
  - rewrite Hsl, map_map. apply map_ext_in. intros l Hl. rewrite app_length. cbn [length]. rewrite Nat.add_1_r. symmetry. apply slots_of_create.
    rewrite Forall_forall in Hok. eapply Forall_impl; [|exact (Hok l Hl)]. intros w Hw. apply pw_ok_range in Hw. tauto.
  - eapply Forall_impl; [|exact Hok]. intros l. apply Forall_impl. intros w (W1 & W2 & dd & W3 & W4). split; [exact W1|]. split; [exact W2|]. exists dd.
    split; [|exact W4]. rewrite nth_error_app1; [exact W3|]. apply nth_error_Some. congruence.
Qed.

Lemma mextent_step : forall s sp h since n did dims, minv e cfg cv s sp h since n -> ok_extent sp did dims ->
  exists s', mstep e s (OSetExtent did dims) = Ok (s', []) /\
    minv e cfg cv s' (fst (sstep (e_coll e) sp (OSetExtent did dims))) (hstep e sp h (OSetExtent did dims)) since (n + 1).
Proof.
  destruct Hm as (M1 & M2 & M3 & M4 & M5).
  intros s sp h since n did dims (sp0 & h0 & n0 & C & ms & grs & I & Hh & Hn0 & Hset & Hst & Hpd & Hsl & Hok & Hnd & Hsi) (d & K1 & K2 & K3).
  assert (K1' : set_of sp0 did = Some d) by (unfold set_of in *; rewrite Hset; exact K1).
  destruct (step_extent _ _ _ _ _ _ _ _ _ _ did dims I) as (sy & S1 & S2); [exists d; auto|].
  cbn [mstep]. rewrite S1. cbn [bind fst snd]. rewrite (v_cfg _ _ _ _ _ _ _ _ _ _ I), M3. eexists. split; [reflexivity|].
  eexists _, h0, n0, C, ms, grs. split; [exact S2|]. cbn [ms_sys ms_slots sstep fst hstep]. rewrite K1, K1'. split; [exact Hh|]. cbn [ss_sets ss_store ss_pend].
  split; [lia|]. split; [rewrite Hset; reflexivity|]. split; [exact Hst|]. split; [exact Hpd|]. rewrite upd_nth_length. split; [exact Hsl|]. split; [|split; [exact Hnd|exact Hsi]].
  eapply Forall_impl; [|exact Hok]. intros l. apply Forall_impl. intros w (W1 & W2 & dd & W3 & W4). split; [exact W1|]. split; [exact W2|].
  assert (K5 : nth_error (ss_sets sp) (Z.to_nat did) = Some d) by (unfold set_of in K1; destruct (did <? 0); [discriminate|exact K1]).
  destruct (Nat.eq_dec (Z.to_nat did) (Z.to_nat (pw_did w))) as [E|E].
  - exists (resize d dims). rewrite <- E. split; [apply nth_error_upd_nth_eq; apply nth_error_Some; congruence|].
    assert (dd = d) by congruence. subst dd. unfold di_ndim in *. cbn [resize di_dims di_esize]. rewrite K2. exact W4.
  - exists dd. split; [|exact W4]. rewrite nth_error_upd_nth_ne by exact E. exact W3.
Qed.

Lemma Ok_fst : forall A B (a b : A) (c d : B), Ok (a, c) = Ok (b, d) -> a = b.
Proof. congruence. Qed.
Lemma map_const_repeat : forall A B (x : B) (l : list A), map (fun _ => x) l = repeat x (length l).
Proof. induction l; [reflexivity|]. cbn. f_equal. exact IHl. Qed.
Lemma concat_repeat_nil : forall A k, concat (repeat (@nil A) k) = [].
Proof. induction k; auto. Qed.

Lemma map_repeat_eq : forall A B (f : A -> B) x k, map f (repeat x k) = repeat (f x) k.
Proof. induction k; [reflexivity|]. cbn. f_equal. exact IHk. Qed.

(** Nothing pending. *)
Lemma minv_clean : forall sy sp1 sp h1 h n C ms grs k,
  inv e cfg cv sy sp1 h1 n C ms grs -> hs_hi h1 = hs_hi h -> length (hs_seen h) = k ->
  ss_sets sp1 = ss_sets sp -> same_store (ss_store sp1) (ss_store sp) ->
  ss_pend sp1 = repeat [] k -> ss_pend sp = repeat [] k ->
  minv e cfg cv (mkmsys sy (repeat (repeat None (length (ss_sets sp))) k)) sp h [] n.
Proof.
  intros sy sp1 sp h1 h n C ms grs k I H1 H2 H3 H4 H5 H6. exists sp1, h1, n, C, ms, grs. cbn [ms_sys ms_slots]. rewrite H6, repeat_length, concat_repeat_nil.
  split; [exact I|]. split; [auto|]. split; [cbn; lia|]. split; [exact H3|]. split; [exact H4|]. split; [rewrite H5, map_const_repeat, repeat_length; reflexivity|].
  split; [|split; [|split]].
  - rewrite map_repeat_eq. f_equal. unfold slots_of. cbn [find_w find option_map]. rewrite map_const_repeat, seq_length. reflexivity.
  - apply Forall_forall. intros l Hl. apply repeat_spec in Hl. subst. constructor.
  - apply Forall_forall. intros l Hl. apply repeat_spec in Hl. subst. constructor.
  - intros rk l w Hl Hw. apply nth_error_In, repeat_spec in Hl. subst. destruct Hw.
Qed.

Lemma slots_empty : forall (sp : sstate), map (slots_of (length (ss_sets sp))) (map (fun _ => []) (ss_pend sp)) =
  repeat (repeat None (length (ss_sets sp))) (length (ss_pend sp)).
Proof.
  intros sp. rewrite map_map. replace (slots_of (length (ss_sets sp)) []) with (repeat (@None mreq) (length (ss_sets sp))).
  - apply map_const_repeat.
  - unfold slots_of. cbn [find_w find option_map]. rewrite map_const_repeat, seq_length. reflexivity.
Qed.

Lemma minv_seen : forall s sp h since n, minv e cfg cv s sp h since n -> length (hs_seen h) = length (ss_pend sp).
Proof. intros s sp h since n (sp0 & h0 & n0 & C & ms & grs & _ & (_ & H) & _). exact H. Qed.
Lemma hflush_seen : forall sp h doff, hs_seen (hflush sp h doff) = hs_seen h.
Proof. intros sp h doff. unfold hflush. destruct (_ =? _); reflexivity. Qed.
Lemma hflush_hi : forall sp h sp' h' doff, hs_hi h = hs_hi h' -> pend_bytes sp = pend_bytes sp' -> hs_hi (hflush sp h doff) = hs_hi (hflush sp' h' doff).
Proof. intros sp h sp' h' doff H1 H2. unfold hflush. rewrite H2. destruct (_ =? _); auto. Qed.

Lemma mflush_step : forall s sp h since n doff, minv e cfg cv s sp h since n -> n < 2 ^ 30 -> ok_flush sp h doff ->
  exists s', mstep e s (OFlush doff) = Ok (s', []) /\
    minv e cfg cv s' (fst (sstep (e_coll e) sp (OFlush doff))) (hstep e sp h (OFlush doff)) [] (n + 1).
Proof.
  pose proof Hm as (M1 & M2 & M3 & M4 & M5). intros s sp h since n doff HM Hn Hf.
  destruct (minv_drain _ _ _ _ _ _ _ _ HM M3 Hn) as (sp1 & h1 & C & ms & grs & I & Q1 & Q2 & Q3 & Q4 & Q5 & Q6 & Q7 & Q8 & Q9).
  assert (Hf1 : ok_flush sp1 h1 doff) by (unfold ok_flush; rewrite Q5, Q1; exact Hf).
  destruct (inv_flush_log _ _ _ _ _ _ _ _ _ _ doff I Hf1) as (C' & I').
  cbn [mstep]. rewrite (flush_m_eq _ _ _ _ _ _ _ _ doff HM M3 Hn). cbn [fst snd]. eexists. split; [reflexivity|].
  rewrite slots_empty. cbn [sstep fst hstep s_g s_idx] in *. change (length (ss_sets sp)) with (length (ss_sets (sflush sp))).
  eapply minv_clean; [eapply inv_n; [|exact I']; lia|apply hflush_hi; auto|rewrite hflush_seen; eapply minv_seen; eauto|exact Q2|exact Q4| |].
  - unfold sflush. cbn [ss_pend]. rewrite map_const_repeat, Q3, map_length. reflexivity.
  - unfold sflush. cbn [ss_pend]. apply map_const_repeat.
Qed.

Lemma mread_step : forall s sp h since n doff calls, minv e cfg cv s sp h since n -> n < 2 ^ 30 -> ok_read e sp h doff calls ->
  exists s', mstep e s (ORead doff calls) = Ok (s', snd (sstep (e_coll e) sp (ORead doff calls))) /\
    minv e cfg cv s' (fst (sstep (e_coll e) sp (ORead doff calls))) (hstep e sp h (ORead doff calls)) [] (n + 1).
Proof.
  pose proof Hm as (M1 & M2 & M3 & M4 & M5). intros s sp h since n doff calls HM Hn Hr.
  destruct (minv_drain _ _ _ _ _ _ _ _ HM M3 Hn) as (sp1 & h1 & C & ms & grs & I & Q1 & Q2 & Q3 & Q4 & Q5 & Q6 & Q7 & Q8 & Q9).
  assert (Hr1 : ok_read e sp1 h1 doff calls).
  { destruct Hr as (R1 & R2 & R3 & R4). split; [|split; [|split; [exact R3|]]].
    - rewrite Hcoll in *. unfold ok_flush. rewrite Q5, Q1. exact R1.
    - rewrite Q1, Q6. exact R2.
    - eapply Forall_impl; [|exact R4]. intros c (C1 & d & C2 & C3). split; [exact C1|]. exists d. split; [|exact C3]. unfold set_of in *. rewrite Q2. exact C2. }
  destruct (step_read _ _ _ _ _ _ _ _ _ _ doff calls I Hsort Hr1 ltac:(lia)) as (sy & C' & ms' & grs' & S1 & S2 & _).
  cbn [mstep]. rewrite Hcoll. rewrite (flush_m_eq _ _ _ _ _ _ _ _ doff HM M3 Hn). cbn [fst snd].
  cbn [step sstep snd fst] in S1, S2 |- *. cbn [s_g s_idx] in S1. rewrite Hcoll in S1, S2. cbn [andb] in S1. cbn [hstep] in S2 |- *. rewrite Hcoll in S2 |- *.
  set (g' := drain_all (s_g (ms_sys s)) (ms_slots s)) in *. set (g1 := if any_pending g' then flush_writes doff g' else g') in *.
  destruct (read_each e (if g_metadirty g1 then metaflush g1 else g1) (if g_metadirty g1 then None else s_idx (ms_sys s)) calls) as [q| |]; try discriminate.
  cbn [bind] in S1 |- *. injection S1 as S1 S1'.
  eexists. split; [f_equal; f_equal; rewrite S1'|].
  - apply map_ext. intros c. unfold sflush at 1 2. rewrite Q2. apply sread_same. rewrite <- Q2 at 1. exact Q4.
  - rewrite S1, slots_empty. change (length (ss_sets sp)) with (length (ss_sets (sflush sp))).
    eapply minv_clean; [eapply inv_n; [|exact S2]; lia|apply hflush_hi; auto|rewrite hflush_seen; eapply minv_seen; eauto|exact Q2|exact Q4| |].
    + unfold sflush. cbn [ss_pend]. rewrite map_const_repeat, Q3, map_length. reflexivity.
    + unfold sflush. cbn [ss_pend]. apply map_const_repeat.
Qed.

Lemma mreopen_step : forall s sp h since n doff np, minv e cfg cv s sp h since n -> n < 2 ^ 30 -> ok_reopen sp h doff np ->
  exists s', mstep e s (OReopen doff np) = Ok (s', []) /\
    minv e cfg cv s' (fst (sstep (e_coll e) sp (OReopen doff np))) (hstep e sp h (OReopen doff np)) [] (n + 1).
Proof.
  pose proof Hm as (M1 & M2 & M3 & M4 & M5). intros s sp h since n doff np HM Hn (R1 & R2 & R3).
  destruct (minv_drain _ _ _ _ _ _ _ _ HM M3 Hn) as (sp1 & h1 & C & ms & grs & I & Q1 & Q2 & Q3 & Q4 & Q5 & Q6 & Q7 & Q8 & Q9).
  assert (Hr1 : ok_reopen sp1 h1 doff np) by (split; [exact R1|]; split; [exact R2|]; unfold ok_flush; rewrite Q5, Q1; exact R3).
  destruct (step_reopen _ _ _ _ _ _ _ _ _ _ doff np I Hr1 ltac:(lia)) as (sy & C' & ms' & grs' & S1 & S2 & _).
  cbn [mstep]. cbn [step s_g s_idx] in S1. change (g_cfg (drain_all (s_g (ms_sys s)) (ms_slots s))) with (g_cfg (s_g (ms_sys s))) in S1.
  change (g_infos (drain_all (s_g (ms_sys s)) (ms_slots s))) with (g_infos (s_g (ms_sys s))) in S1.
  destruct (reopen_infos (g_cfg (s_g (ms_sys s))) (g_infos (s_g (ms_sys s)))) as [infos| |]; try discriminate. cbn [bind] in S1 |- *. apply Ok_fst in S1.
  eexists. split; [reflexivity|]. rewrite S1. cbn [sstep fst hstep] in *.
  assert (HL : length infos = length (ss_sets sp)).
  { pose proof (Forall2_length _ _ _ _ _ (v_infos _ _ _ _ _ _ _ _ _ _ S2)) as L. rewrite <- S1 in L. cbn [s_g g_infos ss_sets] in L. rewrite L, Q2. reflexivity. }
  rewrite HL. change (length (ss_sets sp)) with (length (ss_sets (mkss (ss_sets sp) (ss_store (sflush sp)) (repeat [] np)))).
  eapply minv_clean; [eapply inv_n; [|exact S2]; lia|cbn [hs_hi]; apply hflush_hi; auto|cbn [hs_seen]; apply repeat_length|exact Q2|exact Q4|reflexivity|reflexivity].
Qed.

Lemma mrun_ok : forall ops s sp h since n, minv e cfg cv s sp h since n -> once_each since ops -> ok_run e 0 cv sp h ops ->
  n + Z.of_nat (length ops) < 2 ^ 30 ->
  exists s', mrun e s ops = Ok (s', snd (srun (e_coll e) sp ops)).
Proof.
  induction ops as [|o ops IH]; intros s sp h since n HM Ho Hok Hn; [exists s; reflexivity|]. cbn [length] in Hn. destruct Hok as [H1 H2].
  assert (HS : exists s' since', mstep e s o = Ok (s', snd (sstep (e_coll e) sp o)) /\ once_each since' ops /\
     minv e cfg cv s' (fst (sstep (e_coll e) sp o)) (hstep e sp h o) since' (n + 1)).
  { destruct o as [d|did dims|rk did sels data|doff|doff calls|doff np]; cbn [ok_op] in H1.
    - destruct (mcreate_step _ _ _ _ _ d HM H1) as (s' & A & B). exists s', since. auto.
    - destruct (mextent_step _ _ _ _ _ did dims HM H1) as (s' & A & B). exists s', since. auto.
    - destruct (mwrite_step _ _ _ _ _ rk did sels data ops HM Ho H1) as (s' & since' & A & B & D). exists s', since'. auto.
    - destruct (mflush_step _ _ _ _ _ doff HM ltac:(lia) H1) as (s' & A & B). exists s', []. auto.
    - destruct (mread_step _ _ _ _ _ doff calls HM ltac:(lia) H1) as (s' & A & B). exists s', []. auto.
    - destruct (mreopen_step _ _ _ _ _ doff np HM ltac:(lia) H1) as (s' & A & B). exists s', []. auto. }
  destruct HS as (s1 & since' & A & B & D). destruct (IH _ _ _ _ _ D B H2 ltac:(lia)) as (s2 & R).
  exists s2. cbn [mrun srun]. rewrite A. cbn [bind fst snd]. rewrite R. cbn [bind fst snd].
  destruct (sstep (e_coll e) sp o) as [sp1 out]. cbn [fst snd] in *. destruct (srun (e_coll e) sp1 ops) as [sp2 outs]. reflexivity.
Qed.
End Step.

Theorem mrun_spec : forall e cfg cv np f0 ops, merging cfg -> e_coll e = true -> ok_history e 0 cv np ops -> once_each [] ops ->
  exists s, mrun e (minit cfg np f0) ops = Ok (s, snd (srun (e_coll e) (sinit np) ops)).
Proof.
  intros e cfg cv np f0 ops Hm Hc (_ & H1 & H2 & H3 & H4 & H5) Ho.
  eapply (mrun_ok e cfg cv Hm Hc H4 ops) with (n := 0); [|exact Ho|exact H5|exact H3].
  eapply (minv_clean e cfg cv Hc); [apply inv_init; auto| | | | | |]; cbn; try reflexivity.
  - apply repeat_length.
  - intros did c. reflexivity.
Qed.
