(** Lemmas behind the theorems of P_Coll. *)
From Verif Require Import Base BaseProofs CollModel CollSpec CollProofs.
From Coq Require Import Lia ZifyNat.

Lemma agree_ends : forall cf progs, r_sub cf = false -> same_outcomes progs ->
  always_ends one (world cf one progs) /\
  forall ps, reaches one (world cf one progs) ps -> ~ hangs one ps.
Proof.
  intros cf progs Hs Hsame.
  assert (He : always_ends one (world cf one progs)).
  { apply all_agree; auto. intros p q Hp Hq. now rewrite (Hsame p q Hp Hq). }
  split; [exact He|]. now apply ends_no_hang.
Qed.

Lemma pass_ends : forall cf progs, r_sub cf = false -> r_pass cf = true -> same_emptiness progs ->
  always_ends one (world cf one progs) /\
  forall ps, reaches one (world cf one progs) ps -> ~ hangs one ps.
Proof.
  intros cf progs Hs Hp Hsame.
  assert (He : always_ends one (world cf one progs)).
  { apply all_agree; auto. unfold masked. rewrite Hp. exact Hsame. }
  split; [exact He|]. now apply ends_no_hang.
Qed.

Lemma no_read_plain : forall p, Forall no_read p -> map plain (outcomes false p) = outcomes false p.
Proof.
  induction p as [|c p IH]; intros Hp; [reflexivity|]. inversion Hp as [|? ? Hc Hp']; subst.
  destruct c; cbn in Hc; try contradiction; cbn [outcomes map plain]; rewrite ?IH; auto.
Qed.
Lemma writers_end : forall cf progs, r_sub cf = false -> Forall (Forall no_read) progs -> same_calls progs ->
  always_ends one (world cf one progs) /\
  forall ps, reaches one (world cf one progs) ps -> ~ hangs one ps.
Proof.
  intros cf progs Hs Hn Hsame. apply agree_ends; auto.
  rewrite Forall_forall in Hn. intros p q Hp Hq. specialize (Hsame p q Hp Hq). cbn beta in Hsame.
  now rewrite !no_read_plain in Hsame by auto.
Qed.

(** ** Disagreement *)
Lemma clash : forall ps i j c o v k c' o' v' k',
  (i < length ps)%nat -> (j < length ps)%nat ->
  nth i ps Ret = Coll c o v k -> nth j ps Ret = Coll c' o' v' k' -> (c <> c' \/ o <> o') -> hangs one ps.
Proof.
  intros ps i j c o v k c' o' v' k' Hi Hj Ei Ej Hne. split.
  - intros Hd. unfold all_done in Hd. rewrite Forall_forall in Hd.
    specialize (Hd _ (nth_In ps Ret Hi)). rewrite Ei in Hd. discriminate.
  - intros ps' (d & p & (Hm & Hr) & _).
    assert (Hall : forall x, (x < length ps)%nat -> In x (members one (length ps) d)).
    { intros x Hx. apply in_members. split; [auto|]. destruct d as [g|]; [|reflexivity].
      destruct (members one (length ps) (Some g)) as [|y m] eqn:E; [congruence|].
      assert (Hy : In y (members one (length ps) (Some g))) by (rewrite E; now left).
      apply in_members in Hy as [_ Hy]. exact Hy. }
    destruct (Hr i (Hall i Hi)) as (vi & ki & Pi). destruct (Hr j (Hall j Hj)) as (vj & kj & Pj).
    rewrite Ei in Pi. rewrite Ej in Pj. injection Pi as -> -> _ _. injection Pj as -> -> _ _.
    destruct Hne; congruence.
Qed.

Lemma writes_run : forall cf np root ws rest l, Forall is_write ws ->
  exists l', process cf np root (ws ++ rest) l = process cf np root rest l' /\
    l_dirty l' = l_dirty l /\ l_reads l' = l_reads l /\ l_hits l' = l_hits l.
Proof.
  induction ws as [|w ws IH]; intros rest l Hw; [exists l; auto|].
  inversion Hw as [|? ? H1 H2]; subst. destruct w; cbn in H1; try contradiction. cbn [app process exec].
  destruct (nsel =? 0).
  - apply IH; auto.
  - edestruct IH as (l' & -> & Hd & Hr & Hh); [exact H2|]. exists l'. cbn in Hd, Hr, Hh. auto.
Qed.

Lemma nth_world : forall cf progs i, (i < length progs)%nat ->
  nth i (world cf one progs) Ret = process cf (Z.of_nat (length progs)) (i =? 0)%nat (nth i progs []) local0.
Proof. intros. rewrite world_one. rewrite nth_map_seq; auto. Qed.
Lemma world_length : forall cf progs, length (world cf one progs) = length progs.
Proof. intros. rewrite world_one. now rewrite map_length, seq_length. Qed.

Lemma empty_hangs : forall cf progs i j n f n' f', r_coll cf = true \/ r_pass cf = false ->
  (i < length progs)%nat -> (j < length progs)%nat ->
  reads_then_flushes (nth i progs []) n f -> reads_then_flushes (nth j progs []) n' f' ->
  n = 0 -> n' <> 0 -> hangs one (world cf one progs).
Proof.
  intros cf progs i j n f n' f' Hcf Hi Hj (ws & rest & Ei & Hw) (ws' & rest' & Ej & Hw') -> Hn'.
  pose proof (nth_world cf progs i Hi) as Pi. pose proof (nth_world cf progs j Hj) as Pj.
  rewrite Ei in Pi. rewrite Ej in Pj.
  destruct (writes_run cf (Z.of_nat (length progs)) (i =? 0)%nat ws (CRead 0 f :: CFlush :: rest) local0 Hw) as (l & El & Hd & _).
  destruct (writes_run cf (Z.of_nat (length progs)) (j =? 0)%nat ws' (CRead n' f' :: CFlush :: rest') local0 Hw') as (l' & El' & Hd' & _).
  rewrite El in Pi. rewrite El' in Pj. cbn [process exec] in Pi, Pj. cbn [Z.eqb] in Pi.
  destruct (Z.eqb_spec n' 0) as [|_]; [contradiction|].
  rewrite <- (world_length cf) in Hi, Hj.
  destruct (r_coll cf).
  - eapply clash; [exact Hi|exact Hj|exact Pi|exact Pj|]. right. discriminate.
  - destruct Hcf as [Hcf|Hcf]; [discriminate|].
    unfold perform_read in Pj. rewrite Hd', Hcf in Pj. cbn [l_dirty local0] in Pj.
    destruct f'; (eapply clash; [exact Hi|exact Hj|exact Pi|exact Pj|]; left; discriminate).
Qed.

Lemma found_hangs : forall cf progs i j n f n' f', r_coll cf = false -> r_pass cf = false ->
  (i < length progs)%nat -> (j < length progs)%nat ->
  reads_then_flushes (nth i progs []) n f -> reads_then_flushes (nth j progs []) n' f' ->
  n <> 0 -> n' <> 0 -> f <> f' -> hangs one (world cf one progs).
Proof.
  intros cf progs i j n f n' f' Hc Hp Hi Hj (ws & rest & Ei & Hw) (ws' & rest' & Ej & Hw') Hn Hn' Hf.
  pose proof (nth_world cf progs i Hi) as Pi. pose proof (nth_world cf progs j Hj) as Pj.
  rewrite Ei in Pi. rewrite Ej in Pj.
  destruct (writes_run cf (Z.of_nat (length progs)) (i =? 0)%nat ws (CRead n f :: CFlush :: rest) local0 Hw) as (l & El & Hd & _).
  destruct (writes_run cf (Z.of_nat (length progs)) (j =? 0)%nat ws' (CRead n' f' :: CFlush :: rest') local0 Hw') as (l' & El' & Hd' & _).
  rewrite El in Pi. rewrite El' in Pj. cbn [process exec] in Pi, Pj.
  destruct (Z.eqb_spec n 0) as [|_]; [contradiction|].
  destruct (Z.eqb_spec n' 0) as [|_]; [contradiction|].
  rewrite Hc in Pi, Pj. unfold perform_read in Pi, Pj. rewrite Hd, Hp in Pi. rewrite Hd', Hp in Pj.
  cbn [l_dirty local0] in Pi, Pj.
  rewrite <- (world_length cf) in Hi, Hj.
  destruct f, f'; try congruence; (eapply clash; [exact Hi|exact Hj|exact Pi|exact Pj|]; right; discriminate).
Qed.

Lemma later_run : forall cf np root rs rest l, Forall is_later rs -> fine l ->
  exists l', process cf np root (rs ++ rest) l = process cf np root rest l' /\
    l_dirty l' = l_dirty l /\ l_pending l' = l_pending l /\ l_bytes l' = l_bytes l /\ fine l' /\
    (l_hits l' = true <-> l_hits l = true \/ exists n, In (CReadLater n true) rs /\ n <> 0).
Proof.
  induction rs as [|r rs IH]; intros rest l Hr Hl.
  - exists l. split; [reflexivity|]. split; [reflexivity|]. split; [reflexivity|]. split; [reflexivity|].
    split; [exact Hl|]. split; [auto|]. intros [H|(n & [] & _)]; auto.
  - inversion Hr as [|? ? H1 H2]; subst. destruct r; cbn in H1; try contradiction. cbn [app process exec].
    destruct (Z.eqb_spec nsel 0) as [->|Hn].
    + edestruct IH as (l' & -> & Hd & Hp & Hb & Hf & Hh); [exact H2|exact Hl|]. exists l'.
      split; [reflexivity|]. repeat (split; [assumption|]). rewrite Hh. split.
      * intros [H|(n & Hi & Hne)]; [now left|right; exists n; split; [now right|auto]].
      * intros [H|(n & [Hi|Hi] & Hne)]; [now left|congruence|right; eauto].
    + edestruct IH as (l' & -> & Hd & Hp & Hb & Hf & Hh); [exact H2| |].
      2:{ exists l'. split; [reflexivity|]. cbn [l_dirty l_pending l_bytes l_hits] in *.
          repeat (split; [assumption|]). rewrite Hh. split.
          - intros [H|(n & Hi & Hne)].
            + apply orb_true_iff in H as [H| ->]; [now left|right; exists nsel; split; [now left|auto]].
            + right; exists n; split; [now right|auto].
          - intros [H|(n & [Hi|Hi] & Hne)]; [left; now rewrite H|left|right; eauto].
            injection Hi as _ ->. apply orb_true_r. }
      destruct Hl as [Hl1 Hl2]. split; cbn [l_reads l_hits]; lia.
Qed.

Lemma waiting_hangs : forall cf progs found i j, r_pass cf = false ->
  (forall x, (x < length progs)%nat -> buffers_then_flushes (nth x progs []) (found x)) ->
  (i < length progs)%nat -> (j < length progs)%nat -> found i = true -> found j = false ->
  exists ps, reaches one (world cf one progs) ps /\ hangs one ps.
Proof.
  intros cf progs found i j Hp Hall Hi Hj Fi Fj.
  set (w := world cf one progs).
  assert (Hat : forall x, (x < length progs)%nat -> exists l rest, fine l /\ l_pending l = 0 /\ l_dirty l = false /\
     (l_hits l = found x) /\
     nth x w Ret = process cf (Z.of_nat (length progs)) (x =? 0)%nat (CFlush :: rest) l).
  { intros x Hx. destruct (Hall x Hx) as (rs & rest & E & Hr & Hf).
    pose proof (nth_world cf progs x Hx) as Px. rewrite E in Px.
    destruct (later_run cf (Z.of_nat (length progs)) (x =? 0)%nat rs (CFlush :: rest) local0 Hr) as (l & El & Hd & Hpe & _ & Hfl & Hh).
    { split; cbn; [lia|discriminate]. }
    exists l, rest. rewrite El in Px. repeat (split; [assumption|]). split; [|exact Px].
    cbn [l_hits local0] in Hh.
    destruct (l_hits l), (found x); auto.
    - symmetry. apply Hf. destruct (proj1 Hh eq_refl) as [H|H]; [discriminate|exact H].
    - apply Hh. right. now apply Hf. }
  exists (advance one None (Max 2) w). split.
  - eapply reaches_step; [|apply reaches_here]. exists None, (Max 2). split; [|reflexivity].
    split; unfold w; rewrite world_length.
    + intros Hm. assert (H : In i (members one (length progs) None)) by (apply in_members; auto).
      rewrite Hm in H. contradiction.
    + intros x Hx. apply in_members in Hx as [Hx _]. destruct (Hat x Hx) as (l & rest & _ & _ & _ & _ & E).
      unfold w in E. rewrite E. cbn [process exec]. unfold at_op. cbn [cm]. eauto.
  - assert (Hlen : length (advance one None (Max 2) w) = length progs)
      by (rewrite advance_length; unfold w; apply world_length).
    assert (Hw0 : fold_right Z.max 0 (col (vals one w None) 0) = 0).
    { unfold col, vals. rewrite map_map. unfold w at 2. rewrite world_length.
      assert (Hz : forall L, (forall x, In x L -> (x < length progs)%nat) ->
        fold_right Z.max 0 (map (fun x => nth 0 (val (nth x w Ret)) 0) L) = 0).
      { induction L as [|x L IH]; intros HL; [reflexivity|]. cbn [map fold_right].
        rewrite IH by (intros; apply HL; now right).
        destruct (Hat x (HL x (or_introl eq_refl))) as (l & rest & _ & Hpe & _ & _ & E).
        rewrite E. cbn [process exec val nth]. lia. }
      apply Hz. intros x Hx. now apply in_members in Hx. }
    assert (Hr0 : 0 < fold_right Z.max 0 (col (vals one w None) 1)).
    { destruct (Hat i Hi) as (l & rest & Hfl & _ & _ & Hh & E).
      assert (Hge : l_reads l <= fold_right Z.max 0 (col (vals one w None) 1)).
      { apply max_ge. unfold col, vals. rewrite map_map. unfold w at 2. rewrite world_length.
        apply in_map_iff. exists i. split; [|apply in_members; auto].
        rewrite E. reflexivity. }
      destruct Hfl as [_ Hfl]. specialize (Hfl (eq_trans Hh Fi)). lia. }
    assert (Hafter : forall x, (x < length progs)%nat -> exists k,
       nth x (advance one None (Max 2) w) Ret = Coll Group (if found x then SetView else ReadAll) [] k).
    { intros x Hx. rewrite nth_advance by (unfold w; rewrite world_length; auto). cbn [inc].
      destruct (Hat x Hx) as (l & rest & _ & _ & Hd & Hh & E). rewrite E.
      cbn [process exec next result seq map nth].
      rewrite Hw0. cbn [Z.ltb Z.compare]. rewrite (proj2 (Z.ltb_lt _ _) Hr0).
      unfold perform_read. rewrite Hd, Hp, Hh. destruct (found x); eauto. }
    destruct (Hafter i Hi) as (k & Ei). destruct (Hafter j Hj) as (k' & Ej). rewrite Fi in Ei. rewrite Fj in Ej.
    eapply clash; [rewrite Hlen; exact Hi|rewrite Hlen; exact Hj|exact Ei|exact Ej|]. right. discriminate.
Qed.
