(** The conversion of selections against the specification of selections. *)
From Verif Require Import Base BaseProofs Spec ReadModel GeomProofs HitProofs ReadProofs HistoryProofs ClaimProofs SelModel SelSpec ReorderProofs SelProofs SelProofs2 SelProofs3.
From Coq Require Import ZifyNat.

Lemma sel_coords_cbs : forall l, sel_coords (map to_block l) = cbs l.
Proof. intros. unfold sel_coords, cbs. rewrite flat_map_map. reflexivity. Qed.

Lemma row_major_unique : forall a b, row_major a -> row_major b -> (forall c, In c a <-> In c b) -> a = b.
Proof.
  unfold row_major. induction a as [|x a IH]; intros [|y b] HA HB H; auto.
  - exfalso. apply (H y). left; auto.
  - exfalso. apply (H x). left; auto.
  - apply SS_cons_iff in HA, HB. destruct HA as [HA FA], HB as [HB FB]. rewrite Forall_forall in FA, FB.
    assert (x = y).
    { destruct (proj1 (H x) (or_introl eq_refl)) as [|Hx]; auto. destruct (proj2 (H y) (or_introl eq_refl)) as [|Hy]; auto.
      exfalso. apply (before_irrefl x). eapply before_trans; [apply FA; exact Hy|apply FB; exact Hx]. }
    subst y. f_equal. apply IH; auto. intros c. split; intros Hc.
    + destruct (proj1 (H c) (or_intror Hc)) as [<-|]; auto. exfalso. apply (before_irrefl x). apply FA; auto.
    + destruct (proj2 (H c) (or_intror Hc)) as [<-|]; auto. exfalso. apply (before_irrefl x). apply FB; auto.
Qed.

(** *** Blocks *)
Lemma In_cbs_to_count : forall n l c, Forall (entry_ok n) l -> (In c (cbs (map to_count l)) <-> exists e, In e l /\ within e c).
Proof.
  intros n l c HF. unfold cbs. rewrite flat_map_map, in_flat_map. rewrite Forall_forall in HF.
  split; intros (e & He & H); exists e; split; auto; eapply In_to_count; eauto.
Qed.
Lemma NoDup_app_intro : forall A (a b : list A), NoDup a -> NoDup b -> (forall x, In x a -> In x b -> False) -> NoDup (a ++ b).
Proof.
  induction a; cbn; intros b HA HB H; auto. inversion HA; subst. constructor; [|apply IHa; eauto].
  intros HI. apply in_app_or in HI. destruct HI; [auto|eauto].
Qed.
Lemma NoDup_cbs : forall n l, Forall (entry_ok n) l -> ForallOrdPairs apart l -> NoDup (cbs (map to_count l)).
Proof.
  intros n l HF HA. induction HA as [|e l HE HA IH]; [constructor|]. inversion HF; subst. cbn [map cbs flat_map]. fold (cbs (map to_count l)).
  apply NoDup_app_intro; auto.
  - apply coords_of_NoDup. destruct (to_count_eok n e) as (? & ? & ?); auto. lia.
  - intros c Hc Hc'. apply (In_to_count n) in Hc; auto. apply (In_cbs_to_count n) in Hc'; auto. destruct Hc' as (f & Hf & Hc').
    rewrite Forall_forall in HE. apply (HE f Hf c); auto.
Qed.

Lemma all_ones_spec : forall l, all_ones l = true -> Forall (fun x => x = 1) l.
Proof. intros l H. apply Forall_forall. intros x Hx. unfold all_ones in H. rewrite forallb_forall in H. apply Z.eqb_eq, H; auto. Qed.
Lemma as_one_block_ok : forall n r b, length (r_start r) = n -> length (r_stride r) = n -> length (r_count r) = n -> length (r_block r) = n ->
  as_one_block r = Some b -> length (b_start b) = length (b_count b) /\ forall c, in_block b c <-> in_regular r c.
Proof.
  intros n [st sd ct bk] b L1 L2 L3 L4 H. unfold as_one_block, in_regular, in_block in *. cbn [r_start r_stride r_count r_block] in *.
  destruct ((all_ones sd && all_ones bk) || all_ones ct) eqn:E; [|discriminate]. injection H as <-. cbn [b_start b_count].
  split; [destruct (all_ones bk); lia|].
  assert (G : (Forall (fun x => x = 1) sd /\ Forall (fun x => x = 1) bk) \/ Forall (fun x => x = 1) ct).
  { apply orb_prop in E. destruct E as [E|E]; [left; apply andb_prop in E; destruct E; split; apply all_ones_spec; auto|right; apply all_ones_spec; auto]. }
  assert (A : (Forall (fun x => x = 1) bk -> Forall (fun x => x = 1) sd \/ Forall (fun x => x = 1) ct ->
     forall c, inside st ct c <-> in_regular4 st sd ct bk c) /\
    (Forall (fun x => x = 1) ct -> forall c, inside st bk c <-> in_regular4 st sd ct bk c)).
  { clear E G. split.
    - revert sd ct bk n L1 L2 L3 L4. induction st as [|s st IH]; intros [|d sd] [|m ct] [|k bk] n L1 L2 L3 L4 H1 H2 [|x c]; cbn in *; try lia; try tauto.
      inversion H1; subst. rewrite (IH sd ct bk (length st)); auto; try lia.
      2:{ destruct H2 as [H2|H2]; inversion H2; auto. }
      split; intros [G1 G2]; split; auto.
      + destruct H2 as [H2|H2]; inversion H2; subst; [exists (x - s), 0; lia|]. exists 0, 0. lia.
      + destruct G1 as (i & j & Hi & Hj & ->). destruct H2 as [H2|H2]; inversion H2; subst; [lia|]. assert (i = 0) by lia. subst i. lia.
    - revert sd ct bk n L1 L2 L3 L4. induction st as [|s st IH]; intros [|d sd] [|m ct] [|k bk] n L1 L2 L3 L4 H1 [|x c]; cbn in *; try lia; try tauto.
      inversion H1; subst. rewrite (IH sd ct bk (length st)); auto; try lia. split; intros [G1 G2]; split; auto.
      + exists 0, (x - s). lia.
      + destruct G1 as (i & j & Hi & Hj & ->). assert (i = 0) by lia. subst i. lia. }
  destruct A as [A1 A2]. intros c. destruct (all_ones bk) eqn:EB.
  - apply all_ones_spec in EB. apply A1; auto. destruct G as [[]|]; auto.
  - destruct G as [[G1 G2]|G]; [|apply A2; auto]. exfalso.
    assert (all_ones bk = true); [|congruence]. unfold all_ones. apply forallb_forall. rewrite Forall_forall in G2. intros x Hx. apply Z.eqb_eq. auto.
Qed.

(** *** Points *)
Lemma pts_perm : forall order pts, is_order order -> Permutation pts (map (fun i => nth i pts []) (order pts)) /\
  StronglySorted nolater (map (fun i => nth i pts []) (order pts)).
Proof.
  intros order pts HO. destruct (HO pts) as [HP HS]. split.
  - rewrite <- (map_nth_seq _ pts []) at 1. apply Permutation_map. exact HP.
  - apply SS_map. exact HS.
Qed.
Lemma cbs_points : forall pts, cbs (map (fun p => (p, map (fun _ => 1) p)) pts) = pts.
Proof. induction pts as [|p pts IH]; cbn; auto. unfold cb. cbn [fst snd]. rewrite coords_of_ones. cbn. f_equal. exact IH. Qed.
Lemma points_eok : forall n pts, Forall (fun p => length p = n) pts -> Forall (eok n) (map (fun p => (p, map (fun _ => 1) p)) pts) /\
  (forall d, Forall (thin d) (map (fun p => (p, map (fun _ => 1) p)) pts)).
Proof.
  intros n pts H. split; [|intros d]; apply Forall_map; (eapply Forall_impl; [|exact H]); intros p Hp.
  - unfold eok. cbn [fst snd]. rewrite map_length. repeat split; auto. apply Forall_forall. intros x Hx. apply in_map_iff in Hx. destruct Hx as (_ & <- & _). lia.
  - unfold thin. cbn [snd]. rewrite firstn_map. apply Forall_forall. intros x Hx. apply in_map_iff in Hx. destruct Hx as (_ & <- & _). lia.
Qed.
Lemma norm_points_ok : forall order n pts, is_order order -> Forall (fun p => length p = n) pts ->
  cbs (norm_points order n pts) = map (fun i => nth i pts []) (order pts).
Proof.
  intros order n pts HO HF. unfold norm_points. destruct (pts_perm order pts HO) as [HP _].
  assert (HF' : Forall (fun p => length p = n) (map (fun i => nth i pts []) (order pts))) by (eapply Permutation_Forall; eauto).
  destruct (points_eok n _ HF') as [E1 E2]. rewrite merge_blocks_thin by auto. apply cbs_points.
Qed.
Lemma sorted_beq_unique : forall n l l', Permutation l l' -> Forall (fun p => length p = n) l -> StronglySorted (fun a b => a = b \/ before a b) l -> StronglySorted nolater l' -> l' = l.
Proof.
  intros n. induction l as [|x l IH]; intros l' HP HL HS HS'.
  - apply Permutation_nil in HP. auto.
  - destruct l' as [|y l']; [apply Permutation_sym, Permutation_nil in HP; discriminate|]. inversion HL; subst.
    apply SS_cons_iff in HS. destruct HS as [HS HF]. apply SS_cons_iff in HS'. destruct HS' as [HS' HF'].
    assert (y = x).
    { assert (Hy : In y (x :: l)) by (apply (Permutation_in _ (Permutation_sym HP)); left; auto). destruct Hy as [|Hy]; auto.
      assert (Hx : In x (y :: l')) by (apply (Permutation_in _ HP); left; auto). destruct Hx as [|Hx]; auto.
      rewrite Forall_forall in HF, HF'. specialize (HF y Hy). specialize (HF' x Hx). destruct HF as [|HF]; auto.
      apply before_lessthan in HF. unfold nolater in HF'. congruence. }
    subst. f_equal. apply IH; auto. eapply Permutation_cons_inv; eauto.
Qed.

(** *** The whole conversion *)
Lemma eok_coords : forall n e, eok n e -> coords_of (fst e) (snd e) <> [].
Proof.
  intros n [s m] (H1 & H2 & H3). cbn [fst snd] in *. rewrite <- H2 in H1. clear H2 n. revert s H1. induction H3 as [|x m Hx HF IH]; intros [|a s] HL; cbn in HL; try lia; [discriminate|].
  cbn [coords_of]. rewrite (zseq_shift x) by auto. cbn [flat_map]. specialize (IH s ltac:(lia)). destruct (coords_of s m); [congruence|discriminate].
Qed.
Lemma coords_all : forall dims c, In c (coords_of (map (fun _ => 0) dims) dims) <-> Forall2 (fun d x => 0 <= x < d) dims c.
Proof.
  intros dims c. rewrite In_coords_of by apply map_length. revert c. induction dims as [|d dims IH]; intros [|x c]; cbn; try tauto.
  - split; auto.
  - split; [tauto|intros H; inversion H].
  - split; [tauto|intros H; inversion H].
  - rewrite IH. split; [intros [H1 H2]; constructor; auto; lia|intros H; inversion H; subst; split; auto; lia].
Qed.
Lemma extent_zero : forall dims c, Forall (fun d => 0 <= d) dims -> Zprod dims = 0 -> ~ Forall2 (fun d x => 0 <= x < d) dims c.
Proof.
  intros dims c HF H HC. assert (0 < Zprod dims); [|lia]. apply Zprod_pos. clear - HC. induction HC; constructor; auto. lia.
Qed.
Lemma hyper_zero : forall reg blocks, hyper_ok 0 reg blocks -> exists b, blocks = [b].
Proof.
  intros reg blocks (H1 & H2 & H3 & _). destruct blocks as [|b [|b2 bl]]; [congruence|eauto|]. exfalso.
  inversion H3 as [|? ? HA _]; subst. inversion HA; subst. inversion H2 as [|? ? E1 E2]; subst. inversion E2 as [|? ? E3 _]; subst.
  destruct E1 as (A1 & A2 & _), E3 as (B1 & B2 & _). apply (H4 []); unfold within; destruct (fst b), (fst b2); try discriminate; constructor.
Qed.

Lemma normalize_ok : forall order dims s, is_order order -> sel_ok dims s -> exists sels, normalize order dims s = Ok sels /\
  (forall c, In c (sel_coords sels) <-> selected dims s c) /\
  (match s with HPoints pts => Permutation (sel_coords sels) pts | _ => NoDup (sel_coords sels) end) /\
  (sel_in_order s -> match s with HPoints pts => sel_coords sels = pts | _ => row_major (sel_coords sels) end) /\
  Forall (fun b => length (b_start b) = length dims /\ length (b_count b) = length dims /\ coords b <> []) sels.
Proof.
  intros order dims s HO HS. destruct s as [| |pts|reg blocks]; cbn [normalize sel_ok selected sel_in_order] in *.
  - exists []. cbn. repeat split; auto; try tauto; constructor.
  - destruct (Z.eqb_spec (Zprod dims) 0) as [E|E].
    + exists []. split; [reflexivity|]. split; [|repeat split; constructor]. intros c. cbn. split; [tauto|]. intros H. exfalso. eapply extent_zero; eauto.
    + exists [mkblock (map (fun _ => 0) dims) dims]. split; [reflexivity|].
      assert (EC : sel_coords [mkblock (map (fun _ => 0) dims) dims] = coords_of (map (fun _ => 0) dims) dims).
      { unfold sel_coords, coords. cbn [flat_map b_start b_count]. apply app_nil_r. }
      rewrite EC. split; [intros c; apply coords_all|]. split; [apply coords_of_NoDup; apply map_length|].
      split; [intros _; apply coords_row_major, map_length|]. constructor; [|constructor]. unfold coords. cbn [b_start b_count]. rewrite map_length. split; [auto|]. split; [auto|].
      apply (eok_coords (length dims) (_, _)). split; [apply map_length|]. split; [auto|]. cbn [snd]. apply Forall_forall. intros d Hd.
      rewrite Forall_forall in HS. specialize (HS d Hd). destruct (Z.eq_dec d 0); [|lia]. subst d. exfalso. apply E. clear - Hd. induction dims; cbn in *; [tauto|].
      destruct Hd; subst; [lia|]. unfold Zprod in *. cbn. rewrite IHdims by auto. lia.
  - destruct HS as [HF HD]. destruct (pts_perm order pts HO) as [HP HSS].
    assert (EC := norm_points_ok order (length dims) pts HO HF).
    assert (G : exists sels, (match pts with [] => Ok [] | _ :: _ => Ok (map to_block (norm_points order (length dims) pts)) end) = Ok sels /\ sel_coords sels = cbs (norm_points order (length dims) pts) /\
       Forall (fun b => length (b_start b) = length dims /\ length (b_count b) = length dims /\ coords b <> []) sels).
    { destruct pts as [|p pts].
      - exists []. rewrite EC. apply Permutation_nil in HP. rewrite HP. repeat split; constructor.
      - eexists. split; [reflexivity|]. split; [apply sel_coords_cbs|]. apply Forall_map. unfold norm_points.
        assert (HF' : Forall (fun q => length q = length dims) (map (fun i => nth i (p :: pts) []) (order (p :: pts)))) by (eapply Permutation_Forall; eauto).
        destruct (points_eok (length dims) _ HF') as [E1 _]. eapply Forall_impl; [|apply merge_blocks_ok; exact E1]. intros e He. pose proof (eok_coords _ _ He). destruct He as (?&?&?). cbn. auto. }
    destruct G as (sels & E1 & E2 & E3). exists sels. split; [exact E1|]. rewrite E2, EC. split; [|split; [apply Permutation_sym; auto|split; [|exact E3]]].
    + intros c. split; intros Hc; [apply (Permutation_in _ (Permutation_sym HP)) in Hc|apply (Permutation_in _ HP) in Hc]; auto.
    + intros HB. eapply sorted_beq_unique; eauto.
  - pose proof HS as (H1 & H2 & H3 & H4).
    destruct (match reg with Some r => as_one_block r | None => None end) as [b|] eqn:EB.
    + destruct reg as [r|]; [|discriminate]. destruct (H4 r eq_refl) as (L1 & L2 & L3 & L4 & HC).
      destruct (as_one_block_ok (length dims) r b) as [B1 B2]; auto. exists [b]. split; [reflexivity|].
      assert (EC : sel_coords [b] = coords b) by (unfold sel_coords; cbn; apply app_nil_r). rewrite EC. unfold coords.
      split; [intros c; rewrite In_coords_of by auto; rewrite <- HC; apply B2|]. split; [apply coords_of_NoDup; auto|]. split; [intros _; apply coords_row_major; auto|].
      constructor; [|constructor]. unfold as_one_block in EB. destruct (all_ones (r_stride r) && all_ones (r_block r) || all_ones (r_count r)); [|discriminate]. injection EB as <-.
      cbn [b_start b_count] in *. split; auto. split; [destruct (all_ones (r_block r)); auto|].
      destruct blocks as [|e0 bl]; [congruence|]. inversion H2; subst.
      assert (HE : exists c, within e0 c).
      { pose proof (eok_coords _ _ (to_count_eok _ _ H5)) as HX. destruct (coords_of (fst (to_count e0)) (snd (to_count e0))) as [|c cs] eqn:EX; [congruence|].
        exists c. eapply In_to_count; eauto. unfold cb. rewrite EX. left; auto. }
      destruct HE as [c Hc]. assert (HR : in_regular r c) by (apply HC; exists e0; split; [left; auto|auto]). apply B2 in HR. unfold in_block in HR. cbn [b_start b_count] in HR.
      unfold coords. cbn [b_start b_count]. apply In_coords_of in HR; auto. intros EX. rewrite EX in HR. destruct HR.
    + assert (ND : NoDup (cbs (map to_count blocks))) by (eapply NoDup_cbs; eauto).
      assert (ONE : forall b, blocks = [b] -> exists sels, Ok [to_block (to_count b)] = Ok sels /\ (forall c, In c (sel_coords sels) <-> exists e, In e blocks /\ within e c) /\
         NoDup (sel_coords sels) /\ (listed_in_order blocks -> row_major (sel_coords sels)) /\
         Forall (fun b => length (b_start b) = length dims /\ length (b_count b) = length dims /\ coords b <> []) sels).
      { intros b ->. exists [to_block (to_count b)]. split; [reflexivity|]. change [to_block (to_count b)] with (map to_block (map to_count [b])). rewrite sel_coords_cbs.
        split; [intros c; eapply In_cbs_to_count; eauto|]. split; auto. inversion H2; subst. destruct (to_count_eok _ _ H5) as (T1 & T2 & T3). split.
        - intros _. cbn [map cbs flat_map]. rewrite app_nil_r. apply coords_row_major. lia.
        - constructor; [pose proof (eok_coords _ _ (to_count_eok _ _ H5)); cbn in T1, T2 |- *; auto|constructor]. }
      destruct blocks as [|b [|b2 bl]]; [congruence|apply ONE; reflexivity|].
      destruct dims as [|d dims]; [destruct (hyper_zero _ _ HS); discriminate|]. cbn [length] in *. set (l := b :: b2 :: bl) in *.
      destruct (norm_hyper_ok order (length dims) l HO H2) as [N1 N2].
      exists (map to_block (norm_hyper order (S (length dims)) l)). split; [reflexivity|]. rewrite sel_coords_cbs.
      split; [|split; [|split]].
      * intros c. rewrite <- (In_cbs_to_count (S (length dims)) l c H2). split; intros Hc; [apply (Permutation_in _ N1)|apply (Permutation_in _ (Permutation_sym N1))]; auto.
      * eapply Permutation_NoDup; [apply Permutation_sym; exact N1|auto].
      * intros HL. apply norm_hyper_row_major; auto.
      * apply Forall_map. eapply Forall_impl; [|exact N2]. intros e He. pose proof (eok_coords _ _ He). destruct He as (?&?&?). cbn. auto.
Qed.

Lemma normalize_enumerates : forall order dims s cs, is_order order -> sel_ok dims s -> sel_in_order s -> enumerates dims s cs ->
  exists sels, normalize order dims s = Ok sels /\ sel_coords sels = cs /\
    Forall (fun b => length (b_start b) = length dims /\ length (b_count b) = length dims /\ coords b <> []) sels.
Proof.
  intros order dims s cs HO HS HI HE. destruct (normalize_ok order dims s HO HS) as (sels & N1 & N2 & _ & N3 & N4). exists sels. split; auto. split; auto.
  specialize (N3 HI). destruct s; cbn [enumerates] in HE; [| |subst; auto|]; destruct HE as [E1 E2]; apply row_major_unique; auto; intros c; rewrite N2, E2; tauto.
Qed.
