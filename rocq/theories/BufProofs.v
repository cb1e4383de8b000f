(** Proofs about internal buffers and buffered writes. *)
From Coq Require Import ZifyNat.
From Verif Require Import Base BaseProofs BufModel BufSpec.

Lemma Zsum_app : forall a b, Zsum (a ++ b) = Zsum a + Zsum b.
Proof. induction a; intros; cbn; [auto|]. fold (Zsum (a0 ++ b)). fold (Zsum a0). rewrite IHa. lia. Qed.

Lemma take_live_sum : forall a l n r, take_live a l = Some (n, r) ->
  Zsum (map snd l) = n + Zsum (map snd r) /\ In (a, n) l /\ incl r l /\
  (forall P, Forall P l -> Forall P r).
Proof.
  induction l as [|[b m] t IH]; cbn; intros n r H; [discriminate|].
  destruct (Nat.eqb_spec a b).
  - inversion H; subst. repeat split; auto.
    + intros x Hx; right; auto.
    + intros P F; inversion F; auto.
  - destruct (take_live a t) as [[m' r']|]; [|discriminate]. inversion H; subst; clear H.
    destruct (IH _ _ eq_refl) as (A & B & C & D). cbn.
    fold (Zsum (map snd t)) (Zsum (map snd r')). repeat split.
    + lia.
    + auto.
    + intros x [E|E]; [left; auto|right; auto].
    + intros P F; inversion F; subst; constructor; auto.
Qed.

Lemma Zsum1 : forall x, Zsum [x] = x.
Proof. intros; cbn; lia. Qed.

Lemma brun_sum : forall os s s', brun s os = Ok s' ->
  bf_used s = u64 (outstanding s) -> bf_used s' = u64 (outstanding s').
Proof.
  induction os as [|o os IH]; cbn; intros s s' H E; [inversion H; subst; auto|].
  destruct o as [n oom|a].
  - unfold balloc in H. destruct (_ && _) in H; [eapply IH; eauto|].
    destruct oom; [eapply IH; eauto|]. eapply IH; [apply H|]. cbn [bf_live bf_used bf_limit bf_next snd].
    unfold outstanding in *; cbn [bf_live bf_used bf_limit bf_next]. rewrite map_app, Zsum_app. cbn [map snd]; rewrite Zsum1. rewrite E. unfold u64.
    rewrite Zplus_mod_idemp_l; try reflexivity; f_equal; lia.
  - destruct (bfree s (Some a)) as [s1| |] eqn:B; cbn in B; try discriminate;
      destruct (take_live a (bf_live s)) as [[n r]|] eqn:T; try discriminate.
    inversion B; subst; clear B. eapply IH; [apply H|]. cbn [bf_live bf_used bf_limit bf_next snd].
    destruct (take_live_sum _ _ _ _ T) as (S1 & _). unfold outstanding in *; cbn [bf_live bf_used bf_limit bf_next].
    rewrite E, S1. unfold u64. rewrite Zminus_mod_idemp_l; f_equal; lia.
Qed.

Lemma Zsum_nonneg : forall l, Forall (fun x => 0 <= x) l -> 0 <= Zsum l.
Proof. induction 1; cbn; [lia|]. fold (Zsum l). lia. Qed.

Lemma u64_id : forall x, 0 <= x < 2 ^ 64 -> u64 x = x.
Proof. intros; unfold u64; apply Z.mod_small; lia. Qed.

(** The state of the accounting when there is a limit. *)
Definition within (L : Z) (s : bufs) : Prop :=
  bf_limit s = L /\ bf_used s = outstanding s /\ outstanding s <= L /\
  Forall (fun x => 0 <= x) (map snd (bf_live s)).

Lemma brun_within : forall L os s s', 0 <= L < 2 ^ 63 -> sizes_below (2 ^ 63) os ->
  within L s -> brun s os = Ok s' -> within L s'.
Proof.
  intros L os; induction os as [|o os IH]; cbn; intros s s' HL Hs W H; [inversion H; subst; auto|].
  inversion Hs as [|? ? H1 H2]; subst.
  destruct W as (W1 & W2 & W3 & W4).
  assert (P := Zsum_nonneg _ W4). fold (outstanding s) in P.
  destruct o as [n oom|a].
  - unfold balloc in H.
    assert (HU : u64 (bf_used s + n) = bf_used s + n) by (apply u64_id; lia).
    assert (HV : u64 (bf_limit s) = L) by (rewrite W1; apply u64_id; lia).
    destruct (_ && _) eqn:C in H; [eapply (IH s); auto; repeat split; auto|].
    destruct oom; [eapply (IH s); auto; repeat split; auto|].
    apply (IH _ _ HL H2) in H; auto. unfold within, outstanding; cbn [bf_live bf_used bf_limit bf_next snd].
    rewrite map_app, Zsum_app. cbn [map snd]; rewrite Zsum1. fold (outstanding s).
    rewrite HU, HV in C. apply Bool.andb_false_iff in C.
    repeat split; auto.
    + lia.
    + destruct C as [C|C].
      * apply Bool.negb_false_iff, Z.eqb_eq in C. unfold BSIZE_UNLIMITED in C. lia.
      * apply Z.ltb_ge in C. lia.
    + apply Forall_app; split; auto. repeat constructor. lia.
  - destruct (bfree s (Some a)) as [s1| |] eqn:B; cbn in B; try discriminate;
      destruct (take_live a (bf_live s)) as [[n r]|] eqn:T; try discriminate.
    inversion B; subst; clear B.
    destruct (take_live_sum _ _ _ _ T) as (S1 & S2 & S3 & _).
    apply (IH _ _ HL H2) in H; auto.
    assert (R : Forall (fun x => 0 <= x) (map snd r)).
    { rewrite Forall_forall in *. intros x Hx. apply in_map_iff in Hx. destruct Hx as (y & E & I).
      apply W4. apply in_map_iff. exists y. auto. }
    assert (N : 0 <= n).
    { rewrite Forall_forall in W4. apply W4. apply in_map_iff. exists (a, n). auto. }
    assert (Q := Zsum_nonneg _ R).
    unfold within, outstanding in *; cbn [bf_live bf_used bf_limit bf_next]. repeat split; auto; [|lia].
    rewrite u64_id; lia.
Qed.

(** * Writes *)

(** The internal blocks of the pending writes are exactly the live ones. *)
Definition owned (ps : list place) : list nat :=
  flat_map (fun p => match p with POwn a _ => [a] | PUser _ _ => [] end) ps.

Definition tidy (s : bufs) (ps : list place) : Prop :=
  Permutation (owned ps) (map fst (bf_live s)) /\
  NoDup (map fst (bf_live s)) /\ Forall (fun p => (fst p < bf_next s)%nat) (bf_live s) /\
  bf_used s = u64 (outstanding s).

Lemma take_live_some : forall a l, In a (map fst l) -> exists n r, take_live a l = Some (n, r) /\
  Permutation (map fst l) (a :: map fst r).
Proof.
  induction l as [|[b n] t IH]; cbn; intros H; [tauto|].
  destruct (Nat.eqb_spec a b); [subst; eauto|].
  destruct H as [H|H]; [congruence|]. destruct (IH H) as (m & r & E & P).
  rewrite E. do 2 eexists; split; [reflexivity|]. cbn. rewrite P. apply perm_swap.
Qed.

Lemma bfree_ok : forall a s, In a (map fst (bf_live s)) -> NoDup (map fst (bf_live s)) ->
  Forall (fun p => (fst p < bf_next s)%nat) (bf_live s) -> bf_used s = u64 (outstanding s) ->
  exists s', bfree s (Some a) = Ok s' /\ Permutation (map fst (bf_live s)) (a :: map fst (bf_live s')) /\
    NoDup (map fst (bf_live s')) /\ Forall (fun p => (fst p < bf_next s')%nat) (bf_live s') /\
    bf_used s' = u64 (outstanding s').
Proof.
  intros a s I N F U. destruct (take_live_some _ _ I) as (n & r & T & P). cbn. rewrite T.
  destruct (take_live_sum _ _ _ _ T) as (S1 & _ & _ & S4).
  eexists; split; [reflexivity|]; cbn [bf_live bf_used bf_limit bf_next]. split; [auto|]. split.
  - eapply Permutation_NoDup in P; eauto. inversion P; auto.
  - split; [auto|]. unfold outstanding in *; cbn [bf_live bf_used bf_limit bf_next]. rewrite U, S1. unfold u64.
    rewrite Zminus_mod_idemp_l; f_equal; lia.
Qed.

Lemma free_all_ok : forall ps s rest, tidy s (ps ++ rest) ->
  exists s', free_all s ps = Ok s' /\ tidy s' rest.
Proof.
  induction ps as [|p ps IH]; intros s rest (P & N & F & U); cbn.
  - exists s; split; auto. repeat split; auto.
  - destruct p as [ad k|a b].
    + apply IH. repeat split; auto.
    + destruct (bfree_ok a s) as (s1 & E & P1 & N1 & F1 & U1); auto.
      { eapply Permutation_in; [exact P|]. cbn. auto. }
      cbn in E. rewrite E. cbn. apply IH. repeat split; auto.
      cbn in P. rewrite P1 in P. eapply Permutation_cons_inv; exact P.
Qed.

Lemma balloc_tidy : forall oom s n r ps b, tidy s ps -> balloc oom s n = Ok r ->
  tidy (snd r) (ps ++ [POwn (fst r) b]).
Proof.
  intros oom s n r ps b (P & N & F & U) H. unfold balloc in H.
  destruct (_ && _) in H; [discriminate|]. destruct oom; [discriminate|]. inversion H; subst; clear H.
  unfold tidy; cbn. unfold owned. rewrite flat_map_app, map_app. cbn. fold (owned ps).
  repeat split.
  - apply Permutation_app; auto.
  - apply Permutation_NoDup with (l := bf_next s :: map fst (bf_live s)).
    + apply Permutation_cons_append.
    + constructor; auto. rewrite in_map_iff. intros ((x & y) & E & I). rewrite Forall_forall in F.
      specialize (F _ I). cbn in *. lia.
  - apply Forall_app; split.
    + eapply Forall_impl; [|exact F]. cbn; intros; lia.
    + repeat constructor.
  - unfold outstanding in *; cbn [bf_live bf_used bf_limit bf_next]. rewrite map_app, Zsum_app, U. cbn [map snd]; rewrite Zsum1. unfold u64.
    rewrite Zplus_mod_idemp_l; try reflexivity; f_equal; lia.
Qed.

Lemma bfree_last : forall s ps a b, tidy s (ps ++ [POwn a b]) ->
  exists s', bfree s (Some a) = Ok s' /\ tidy s' ps.
Proof.
  intros s ps a b (P & N & F & U).
  destruct (bfree_ok a s) as (s1 & E & P1 & N1 & F1 & U1); auto.
  { eapply Permutation_in; [exact P|]. unfold owned. rewrite flat_map_app. apply in_or_app. right; cbn; auto. }
  exists s1; split; auto. repeat split; auto. rewrite P1 in P.
  unfold owned in P. rewrite flat_map_app in P. cbn in P. fold (owned ps) in P.
  apply Permutation_cons_inv with (a := a). rewrite <- P. apply Permutation_cons_append.
Qed.

(** What a successful write leaves pending: its own copy of the data, or the user's memory. *)
Lemma place_data_spec : forall e mem s m addr n al o1 o2 r ps,
  tidy s ps -> place_data e mem s m addr n al o1 o2 = Ok r ->
  tidy (snd r) (ps ++ [fst r]) /\
  exists v, handed_over e mem m addr n = Ok v /\
    (if aliases m then fst r = PUser addr n /\ v = get mem addr n
     else exists a, fst r = POwn a v).
Proof.
  intros e mem s m addr n al o1 o2 r ps T H. unfold place_data in H. unfold handed_over, aliases.
  destruct (wm_buffered m && wm_sametype m && wm_all m) eqn:C; cbn [bind] in H.
  - apply andb_true_iff in C. destruct C as [C C3]. apply andb_true_iff in C. destruct C as [C1 C2].
    rewrite C2, C3 in *. destruct (wm_filter m) eqn:Fm; cbn [negb andb].
    + destruct (we_filter e (get mem addr n)) as [out| |] eqn:W; cbn [bind] in H; try discriminate.
      destruct (balloc o2 s (Zlen out)) as [q| |] eqn:B; cbn [bind] in H; try discriminate.
      inversion H; subst; cbn [fst snd]. split; [eapply balloc_tidy; eauto|]. eauto.
    + inversion H; subst; cbn [fst snd]. split; [|eauto].
      destruct T as (P & N & F & U). repeat split; auto. unfold owned. rewrite flat_map_app.
      cbn. rewrite app_nil_r. exact P.
  - destruct (balloc o1 s al) as [q| |] eqn:B; cbn [bind] in H; try discriminate.
    cbn beta iota zeta in H.
    set (raw := if wm_all m then get mem addr n else we_pack e mem addr) in *.
    set (val := if wm_sametype m then raw else we_convert e raw) in *.
    assert (T1 := balloc_tidy _ _ _ _ _ val T B).
    destruct (wm_filter m) eqn:Fm; cbn [negb andb].
    + destruct (we_filter e val) as [out| |] eqn:W; cbn [bind] in H; try discriminate.
      destruct (bfree_last _ _ _ _ T1) as (s2 & E & T2). cbn [bind] in H. rewrite E in H. cbn [bind] in H.
      destruct (balloc o2 s2 (Zlen out)) as [q2| |] eqn:B2; cbn [bind] in H; try discriminate.
      inversion H; subst; cbn [fst snd]. split; [eapply balloc_tidy; eauto|]. eauto.
    + inversion H; subst; cbn [fst snd]. split; [auto|]. eauto.
Qed.

(** A pending write is safe when its bytes are what was handed over and, if it aliases user memory,
    the range is recorded. *)
Definition agrees (mem : bytemap) (ranges : list (Z * nat)) (p : place) (v : list Z) : Prop :=
  place_bytes mem p = v /\
  match p with PUser ad k => In (ad, k) ranges | POwn _ _ => True end.

Lemma get_put_disjoint : forall mem ad k addr bytes,
  (ad + Z.of_nat k <= addr \/ addr + Zlen bytes <= ad) ->
  get (put mem addr bytes) ad k = get mem ad k.
Proof.
  intros mem ad k addr bytes H. unfold get. apply map_ext_in. intros i I. apply in_seq in I.
  unfold put. destruct (_ && _) eqn:C; auto.
  apply andb_true_iff in C. destruct C as [C1 C2]. apply Z.leb_le in C1. apply Z.ltb_lt in C2. lia.
Qed.

Lemma Forall2_weaken : forall A B (P Q : A -> B -> Prop) l l',
  (forall a b, P a b -> Q a b) -> Forall2 P l l' -> Forall2 Q l l'.
Proof. induction 2; constructor; auto. Qed.

Lemma wrun_ideal : forall e os p ranges vals q,
  stores_safe ranges os -> tidy (wp_bufs p) (wp_pend p) ->
  Forall2 (agrees (wp_mem p) ranges) (wp_pend p) vals ->
  wrun e p os = Ok q -> ideal e (wp_mem p) vals os = Ok (snd q).
Proof.
  induction os as [|o os IH]; intros p ranges vals q S T A H; cbn in *.
  - inversion H; auto.
  - destruct o as [m addr n al o1 o2|addr bytes|]; cbn in *.
    + destruct (place_data e (wp_mem p) (wp_bufs p) m addr n al o1 o2) as [r| |] eqn:P; cbn in H; try discriminate.
      destruct (wrun e _ os) as [q'| |] eqn:R in H; cbn in H; try discriminate. inversion H; subst; clear H.
      destruct (place_data_spec _ _ _ _ _ _ _ _ _ _ _ T P) as (T' & v & V & K).
      rewrite V. cbn. eapply (IH _ _ _ _ S) in R; cbn; eauto.
      cbn. apply Forall2_app.
      * eapply Forall2_weaken; [|exact A]. intros pl w (B1 & B2). split; auto.
        destruct pl; auto. destruct (aliases m); cbn; auto.
      * constructor; [|constructor]. destruct (aliases m).
        -- destruct K as (K1 & K2). rewrite K1. split; cbn; auto.
        -- destruct K as (a & K). rewrite K. split; cbn; auto.
    + destruct (wrun e _ os) as [q'| |] eqn:R in H; cbn in H; try discriminate. inversion H; subst; clear H.
      destruct S as (S1 & S2). eapply (IH _ _ _ _ S2) in R; cbn; eauto.
      cbn. eapply Forall2_weaken; [|exact A]. intros pl w (B1 & B2). split; auto.
      destruct pl as [ad k|]; cbn in *; auto. rewrite get_put_disjoint; auto.
      rewrite Forall_forall in S1. apply (S1 (ad, k)); auto.
    + destruct (free_all (wp_bufs p) (wp_pend p)) as [s| |] eqn:F; cbn in H; try discriminate.
      destruct (wrun e _ os) as [q'| |] eqn:R in H; cbn in H; try discriminate. inversion H; subst; clear H.
      destruct (free_all_ok (wp_pend p) (wp_bufs p) []) as (s' & F' & T').
      { rewrite app_nil_r; auto. }
      rewrite F in F'. inversion F'; subst.
      eapply (IH _ _ [] _ S) in R; cbn in *; eauto. rewrite R. cbn. f_equal. f_equal.
      clear - A. induction A as [|x y l l' H1 H2 IH2]; cbn; auto. f_equal; auto. destruct H1; auto.
Qed.

Lemma wrun_tidy : forall e os p q, tidy (wp_bufs p) (wp_pend p) ->
  wrun e p os = Ok q -> tidy (wp_bufs (fst q)) (wp_pend (fst q)).
Proof.
  induction os as [|o os IH]; intros p q T H; cbn in *; [inversion H; auto|].
  destruct (wstep e p o) as [r| |] eqn:S; cbn in H; try discriminate.
  destruct (wrun e (fst r) os) as [q'| |] eqn:R in H; cbn in H; try discriminate. inversion H; subst; cbn.
  eapply IH; [|exact R]. clear R H IH.
  destruct o as [m addr n al o1 o2|addr bytes|]; cbn in S.
  - destruct (place_data e (wp_mem p) (wp_bufs p) m addr n al o1 o2) as [r'| |] eqn:P; cbn in S; try discriminate.
    inversion S; subst; cbn. eapply place_data_spec; eauto.
  - inversion S; subst; cbn; auto.
  - destruct (free_all (wp_bufs p) (wp_pend p)) as [s| |] eqn:F; cbn in S; try discriminate.
    inversion S; subst; cbn. destruct (free_all_ok (wp_pend p) (wp_bufs p) []) as (s' & F' & T').
    { rewrite app_nil_r; auto. } rewrite F in F'. inversion F'; subst; auto.
Qed.

Lemma place_data_no_ub : forall e mem s m addr n al o1 o2 ps,
  tidy s ps -> (forall b, we_filter e b <> UB) -> place_data e mem s m addr n al o1 o2 <> UB.
Proof.
  intros e mem s m addr n al o1 o2 ps T W H. unfold place_data in H.
  assert (BU : forall o x y, balloc o x y <> UB).
  { intros o x y. unfold balloc. destruct (negb _ && _); [discriminate|]. destruct o; discriminate. }
  destruct (wm_buffered m && wm_sametype m && wm_all m); cbn [bind] in H.
  - destruct (wm_filter m); [|discriminate].
    destruct (we_filter e (get mem addr n)) eqn:Q; cbn [bind] in H; try discriminate; [|apply W in Q; auto].
    destruct (balloc o2 s (Zlen a)) eqn:B; cbn [bind] in H; try discriminate. apply BU in B; auto.
  - destruct (balloc o1 s al) as [q| |] eqn:B; cbn [bind] in H; try discriminate; [|apply BU in B; auto].
    cbn beta iota zeta in H.
    set (val := if wm_sametype m then _ else _) in *.
    assert (T1 := balloc_tidy _ _ _ _ _ val T B).
    destruct (wm_filter m); [|discriminate].
    destruct (we_filter e val) eqn:Q; cbn [bind] in H; try discriminate; [|apply W in Q; auto].
    destruct (bfree_last _ _ _ _ T1) as (s2 & E & T2). rewrite E in H. cbn [bind] in H.
    destruct (balloc o2 s2 (Zlen a)) eqn:B2; cbn [bind] in H; try discriminate. apply BU in B2; auto.
Qed.

Lemma wrun_no_ub : forall e os p, (forall b, we_filter e b <> UB) ->
  tidy (wp_bufs p) (wp_pend p) -> wrun e p os <> UB.
Proof.
  induction os as [|o os IH]; intros p W T H; cbn in H; [discriminate|].
  destruct (wstep e p o) as [r| |] eqn:S; cbn in H; try discriminate.
  - assert (T' : tidy (wp_bufs (fst r)) (wp_pend (fst r))).
    { assert (Q : wrun e p [o] = Ok (fst r, snd r ++ [])) by (cbn; rewrite S; reflexivity).
      apply wrun_tidy in Q; auto. }
    specialize (IH (fst r) W T'). destruct (wrun e (fst r) os) eqn:R; cbn in H; try discriminate; auto.
  - destruct o as [m addr n al o1 o2|addr bytes|]; cbn in S.
    + destruct (place_data e (wp_mem p) (wp_bufs p) m addr n al o1 o2) as [r'| |] eqn:P; cbn in S; try discriminate.
      eapply place_data_no_ub in P; eauto.
    + discriminate.
    + destruct (free_all_ok (wp_pend p) (wp_bufs p) []) as (s' & F' & T').
      { rewrite app_nil_r; auto. } rewrite F' in S. discriminate.
Qed.
