(** Writers with subfiling: lemmas behind P_Coll. *)
From Verif Require Import Base BaseProofs CollModel CollSpec CollProofs CollClaims CollSubProofs.
From Coq Require Import Lia ZifyNat.

Fixpoint metas (cs : list call) : Z :=
  match cs with
  | CWrite n b m :: t => (if n =? 0 then 0 else m) + metas t
  | _ :: t => metas t
  | [] => 0
  end.
Lemma metas_nonneg : forall cs, Forall sensible cs -> 0 <= metas cs.
Proof.
  induction 1 as [|c cs Hc Hcs IH]; cbn; [lia|]. destruct c; auto.
  destruct (Z.eqb_spec nsel 0); [lia|]. cbn in Hc. lia.
Qed.
Lemma metas_wrote : forall cs, Forall sensible cs -> (0 < metas cs <-> wrote cs).
Proof.
  induction 1 as [|c cs Hc Hcs IH].
  - cbn. split; [lia|]. intros (n & b & m & [] & _).
  - pose proof (metas_nonneg cs Hcs) as Hp.
    assert (Hother : (forall n b m, c <> CWrite n b m) -> (wrote (c :: cs) <-> wrote cs)).
    { intros Hne. split; intros (n & b & m & Hi & Hn).
      - destruct Hi as [Hi|Hi]; [exfalso; eapply Hne; eauto|]. exists n, b, m. auto.
      - exists n, b, m. split; [now right|auto]. }
    destruct c; try (cbn [metas]; rewrite Hother by discriminate; exact IH).
    cbn [metas]. cbn in Hc. destruct (Z.eqb_spec nsel 0) as [->|Hne].
    + rewrite Z.add_0_l, IH. split; intros (n & b & m & Hi & Hn).
      * exists n, b, m. split; [now right|auto].
      * destruct Hi as [Hi|Hi]; [congruence|]. exists n, b, m. auto.
    + split; intros _; [|lia]. exists nsel, bytes, meta. split; [now left|auto].
Qed.
Lemma metas_app : forall a b, metas (a ++ b) = metas a + metas b.
Proof. induction a as [|c a IH]; intros b; [reflexivity|]. destruct c; cbn [app metas]; rewrite IH; lia. Qed.

Lemma settle_app : forall cf np root cs tail l, Forall writes_or_flushes cs ->
  process cf np root (cs ++ tail) l = process cf np root (fst (settle cs l) ++ tail) (snd (settle cs l)) /\
  l_meta (snd (settle cs l)) + metas (fst (settle cs l)) = l_meta l + metas cs /\
  l_reads (snd (settle cs l)) = l_reads l /\ l_hits (snd (settle cs l)) = l_hits l /\
  Forall writes_or_flushes (fst (settle cs l)).
Proof.
  intros cf np root. induction cs as [|c cs IH]; intros tail l Hw; [cbn; auto|].
  inversion Hw as [|? ? Hc Hcs]; subst. destruct c; cbn in Hc; try contradiction.
  - cbn [settle app process exec metas].
    specialize (IH tail (if nsel =? 0 then l
                else mklocal (l_pending l + 1) (l_bytes l + bytes) (l_meta l + meta) (l_reads l) (l_hits l) (l_dirty l)) Hcs).
    destruct IH as (IH1 & IH2 & IH3 & IH4 & IH5). rewrite IH2, IH3, IH4.
    destruct (nsel =? 0); (split; [exact IH1|]); cbn [l_meta l_reads l_hits];
      (split; [lia|]); (split; [reflexivity|]); (split; [reflexivity|]); exact IH5.
  - cbn [settle fst snd]. auto.
Qed.

Section Groups.
Context (grp : nat -> nat) (n : nat).
Hypothesis Hn : (0 < n)%nat.
Context (cf : rconf).
Hypothesis Hsub : r_sub cf = true.

Notation run i cs l := (process cf (np_of grp n i) (pos grp i =? 0)%nat cs l).

Lemma max_zero : forall (x : nat -> Z) L, (forall i, In i L -> x i = 0) -> fold_right Z.max 0 (map x L) = 0.
Proof.
  induction L as [|i L IH]; intros H; [reflexivity|]. cbn [map fold_right].
  rewrite IH by (intros; apply H; now right). rewrite H by now left. reflexivity.
Qed.

Lemma body_run : forall t b l tail,
  (forall i, (i < n)%nat -> Forall writes_or_flushes (b i)) ->
  (forall i, (i < n)%nat -> outcomes false (b i) = t) ->
  (forall i, (i < n)%nat -> l_reads (l i) = 0 /\ l_hits (l i) = false) ->
  exists L, R grp n (fun i => run i (b i ++ tail i) (l i)) (fun i => run i (tail i) (L i)) /\
    forall i, (i < n)%nat -> l_meta (L i) = l_meta (l i) + metas (b i).
Proof.
  induction t as [|k t IH]; intros b l tail Hw Ht Hl.
  - exists (fun i => snd (settle (b i) (l i))). split.
    + eapply R_ext; [|apply R_refl]. intros i Hi. cbn beta.
      destruct (settle_app cf (np_of grp n i) (pos grp i =? 0)%nat (b i) (tail i) (l i) (Hw i Hi)) as (E & _ & _ & Hh & Hwf).
      rewrite E. pose proof (settle_outcomes (b i) (l i)) as Ho. rewrite Hh in Ho. rewrite (proj2 (Hl i Hi)), (Ht i Hi) in Ho.
      pose proof (settle_head (b i) (l i)) as Hhd.
      destruct (fst (settle (b i) (l i))) as [|c q]; [reflexivity|].
      destruct c; cbn in Ho; try discriminate; contradiction.
    + intros i Hi.
      destruct (settle_app cf 0 true (b i) [] (l i) (Hw i Hi)) as (_ & E & _ & Hh & Hwf).
      pose proof (settle_outcomes (b i) (l i)) as Ho. rewrite Hh in Ho. rewrite (proj2 (Hl i Hi)), (Ht i Hi) in Ho.
      pose proof (settle_head (b i) (l i)) as Hhd.
      destruct (fst (settle (b i) (l i))) as [|c q]; [cbn [metas] in E; lia|].
      destruct c; cbn in Ho; try discriminate; contradiction.
  - set (s := fun i => snd (settle (b i) (l i))). set (r := fun i => tl (fst (settle (b i) (l i)))).
    assert (Hq : forall i, (i < n)%nat -> fst (settle (b i) (l i)) = CFlush :: r i /\ outcomes false (r i) = t /\
      Forall writes_or_flushes (r i) /\ l_reads (s i) = 0 /\ l_hits (s i) = false /\
      l_meta (s i) + metas (r i) = l_meta (l i) + metas (b i)).
    { intros i Hi. unfold r, s.
      destruct (settle_app cf 0 true (b i) [] (l i) (Hw i Hi)) as (_ & E & Hr & Hh & Hwf).
      pose proof (settle_outcomes (b i) (l i)) as Ho. rewrite Hh in Ho. rewrite (proj2 (Hl i Hi)), (Ht i Hi) in Ho.
      pose proof (settle_head (b i) (l i)) as Hhd. rewrite Hr, Hh.
      destruct (fst (settle (b i) (l i))) as [|c q]; [discriminate|].
      inversion Hwf as [|? ? Hc Hwf']; subst.
      destruct c; cbn in Hc, Hhd; try contradiction. cbn [outcomes] in Ho. injection Ho as _ Ho. cbn [tl].
      destruct (Hl i Hi). cbn [metas] in E. auto 10. }
    set (s' := fun i => if 0 <? fold_right Z.max 0 (map (fun i => l_pending (s i)) (seq 0 n)) then flushed grp n s i else s i).
    destruct (IH r s' tail) as (L & HR & HL).
    + intros i Hi. apply (Hq i Hi).
    + intros i Hi. apply (Hq i Hi).
    + intros i Hi. destruct (Hq i Hi) as (_ & _ & _ & H1 & H2 & _). unfold s', flushed.
      destruct (0 <? _); [|auto]. destruct (_ =? 0); [auto|]. destruct (_ =? 0); auto.
    + exists L. split.
      * eapply R_trans; [|exact HR].
        eapply (R_ext _ _ _ (fun i => Coll World (Max 2) [l_pending (s i); l_reads (s i)] _)).
        { intros i Hi. cbn beta.
          destruct (settle_app cf (np_of grp n i) (pos grp i =? 0)%nat (b i) (tail i) (l i) (Hw i Hi)) as (E & _).
          rewrite E. destruct (Hq i Hi) as (E' & _). rewrite E'. fold (s i). cbn [app process exec]. reflexivity. }
        eapply R_trans; [apply R_world; exact Hn|].
        eapply (R_ext _ _ _ (fun i => if 0 <? fold_right Z.max 0 (map (fun i => l_pending (s i)) (seq 0 n))
           then flush_writes cf (s i) (fun l0 => run i (r i ++ tail i) l0) else run i (r i ++ tail i) (s i))).
        { intros i Hi. cbn [result seq map nth]. unfold col. rewrite !map_map. cbn [nth].
          rewrite (max_zero (fun i => l_reads (s i))) by (intros j Hj; apply in_seq in Hj; apply (Hq j); lia).
          cbn [Z.ltb Z.compare]. reflexivity. }
        unfold s'. destruct (0 <? _); [|apply R_refl].
        apply (R_flush grp n cf s (fun i l0 => run i (r i ++ tail i) l0) Hn Hsub).
      * intros i Hi. rewrite (HL i Hi). destruct (Hq i Hi) as (_ & _ & _ & _ & _ & E).
        replace (l_meta (s' i)) with (l_meta (s i)); [exact E|].
        unfold s', flushed. destruct (0 <? _); [|auto]. destruct (_ =? 0); [auto|]. destruct (_ =? 0); auto.
Qed.

Lemma all_world_hang : forall f i j o v k o' v' k', (i < n)%nat -> (j < n)%nat ->
  (forall x, (x < n)%nat -> exists o v k, f x = Coll World o v k) ->
  f i = Coll World o v k -> f j = Coll World o' v' k' -> o <> o' -> hangs grp (map f (seq 0 n)).
Proof.
  intros f i j o v k o' v' k' Hi Hj Hall Ei Ej Hne. split.
  - intros Hd. unfold all_done in Hd. rewrite Forall_forall in Hd.
    assert (H : Ret = f i) by (apply Hd; apply in_map, in_seq; lia). congruence.
  - intros ps' (d & p & (Hm & Hr) & _). rewrite map_length, seq_length in *.
    destruct d as [g|].
    + destruct (members grp n (Some g)) as [|y m] eqn:E; [congruence|].
      destruct (Hr y (or_introl eq_refl)) as (vy & ky & Py).
      assert (Hy : In y (members grp n (Some g))) by (rewrite E; now left).
      apply in_members in Hy as [Hy _]. rewrite nth_map_seq in Py by auto.
      destruct (Hall y Hy) as (oy & vy' & ky' & Ey). rewrite Ey in Py. discriminate.
    + destruct (Hr i) as (vi & ki & Pi); [now apply in_members|].
      destruct (Hr j) as (vj & kj & Pj); [now apply in_members|].
      rewrite nth_map_seq in Pi, Pj by auto. rewrite Ei in Pi. rewrite Ej in Pj. cbn [cm] in Pi, Pj. congruence.
Qed.

Lemma close_run : forall l,
  R grp n (fun i => run i [CClose false] (l i))
    (fun i => if has_meta grp n (flushed grp n l) i
              then Coll World Barrier [] (fun _ => Coll Group PutAttr [] (fun _ => Coll World PutAttr [] (fun _ =>
                   Coll Group CloseFile [] (fun _ => Coll World CloseFile [] (fun _ => Ret)))))
              else Coll World PutAttr [] (fun _ => Coll Group CloseFile [] (fun _ => Coll World CloseFile [] (fun _ => Ret)))).
Proof.
  intros l. cbn [process exec]. rewrite Hsub.
  set (fin := Coll World PutAttr [] (fun _ => Coll Group CloseFile [] (fun _ => Coll World CloseFile [] (fun _ => Ret)))).
  eapply R_trans; [apply (R_flush grp n cf l (fun i l0 => metaflush (np_of grp n i) (pos grp i =? 0)%nat l0
     (fun _ => Coll Group PutAttr [] (fun _ => fin))) Hn Hsub)|].
  eapply R_trans; [apply (R_metaflush grp n (flushed grp n l) (fun i _ => Coll Group PutAttr [] (fun _ => fin)))|].
  eapply R_trans.
  - apply (R_some grp n (fun i => negb (has_meta grp n (flushed grp n l) i)) PutAttr (fun _ => []) (fun _ _ => fin)).
    + intros i j H. unfold has_meta. now rewrite (total_same grp n _ i j H).
    + intros i Hi E. cbn beta. destruct (has_meta _ _ _ i); [discriminate|reflexivity].
  - eapply R_ext; [|apply R_refl]. intros i Hi. cbn beta. now destruct (has_meta _ _ _ i).
Qed.

Lemma flushed_meta : forall l i, l_meta (flushed grp n l i) = l_meta (l i).
Proof. intros. unfold flushed. destruct (_ =? 0); [auto|]. destruct (_ =? 0); auto. Qed.

Lemma close_ends : forall l,
  (forall i j, (i < n)%nat -> (j < n)%nat -> has_meta grp n l i = has_meta grp n l j) ->
  exists ps, all_done ps /\ reaches grp (map (fun i => run i [CClose false] (l i)) (seq 0 n)) ps.
Proof.
  intros l Hsame. exists (map (fun _ => Ret) (seq 0 n)). split.
  { apply Forall_forall. intros p Hp. apply in_map_iff in Hp as (? & <- & _). reflexivity. }
  change (R grp n (fun i => run i [CClose false] (l i)) (fun _ => Ret)).
  eapply R_trans; [apply close_run|].
  assert (Hf : forall i, has_meta grp n (flushed grp n l) i = has_meta grp n l i).
  { intros i. unfold has_meta, total. f_equal. f_equal. apply map_ext. intros. apply flushed_meta. }
  eapply (R_ext _ _ _ (fun i => if has_meta grp n l 0 then _ else _)).
  { intros i Hi. cbn beta. rewrite Hf, (Hsame i 0%nat) by auto. reflexivity. }
  destruct (has_meta grp n l 0).
  - eapply R_trans; [apply R_world; exact Hn|]. eapply R_trans; [apply R_all|].
    eapply R_trans; [apply R_world; exact Hn|]. eapply R_trans; [apply R_all|]. apply R_world; exact Hn.
  - eapply R_trans; [apply R_world; exact Hn|]. eapply R_trans; [apply R_all|]. apply R_world; exact Hn.
Qed.

Lemma close_hangs : forall l i j, (i < n)%nat -> (j < n)%nat ->
  has_meta grp n l i = true -> has_meta grp n l j = false ->
  exists ps, hangs grp ps /\ reaches grp (map (fun i => run i [CClose false] (l i)) (seq 0 n)) ps.
Proof.
  intros l i j Hi Hj Mi Mj.
  assert (Hf : forall i, has_meta grp n (flushed grp n l) i = has_meta grp n l i).
  { intros x. unfold has_meta, total. f_equal. f_equal. apply map_ext. intros. apply flushed_meta. }
  eexists. split; [|apply close_run].
  eapply (all_world_hang _ i j); [auto|auto| | | |].
  - intros x Hx. cbn beta. destruct (has_meta _ _ _ x); eauto.
  - cbn beta. rewrite Hf, Mi. reflexivity.
  - cbn beta. rewrite Hf, Mj. reflexivity.
  - discriminate.
Qed.
End Groups.

(** ** The theorem *)
Lemma writer_body : forall p, writer p -> p = removelast p ++ [CClose false] /\ Forall writes_or_flushes (removelast p).
Proof. intros p (body & -> & Hb). rewrite removelast_last. auto. Qed.
Lemma outcomes_body : forall b w, Forall writes_or_flushes b -> (w = false) ->
  outcomes w (b ++ [CClose false]) = outcomes w b ++ [KClose false] /\ map plain (outcomes w b) = outcomes w b.
Proof.
  induction b as [|c b IH]; intros w Hb ->; [auto|]. inversion Hb as [|? ? Hc Hb']; subst.
  destruct (IH false Hb' eq_refl) as [IH1 IH2].
  destruct c; cbn in Hc; try contradiction; cbn [app outcomes map plain]; rewrite IH1, IH2; auto.
Qed.

Lemma has_meta_wrote : forall grp progs i, (forall p, In p progs -> Forall sensible p) -> (i < length progs)%nat ->
  (has_meta grp (length progs) (fun j => mklocal 0 0 (metas (nth j progs [])) 0 false false) i = true <->
   exists j, (j < length progs)%nat /\ grp j = grp i /\ wrote (nth j progs [])).
Proof.
  intros grp progs i Hs Hi. unfold has_meta, total. cbn [l_meta]. rewrite Z.ltb_lt.
  assert (Hg : forall L, (forall j, In j L -> (j < length progs)%nat) ->
    0 <= Zsum (map (fun j => metas (nth j progs [])) L) /\
    (0 < Zsum (map (fun j => metas (nth j progs [])) L) <-> exists j, In j L /\ wrote (nth j progs []))).
  { induction L as [|x L IH]; intros HL.
    - split; [cbn; lia|]. split; [cbn; lia|]. intros (j & [] & _).
    - destruct IH as [IH1 IH2]; [intros; apply HL; now right|].
      assert (Hx : Forall sensible (nth x progs [])) by (apply Hs, nth_In, HL; now left).
      pose proof (metas_nonneg _ Hx) as H0. pose proof (metas_wrote _ Hx) as H1.
      cbn [map]. change (Zsum (?a :: ?t)) with (a + Zsum t). split; [lia|].
      split.
      + intros Hp. destruct (Z.ltb_spec 0 (metas (nth x progs []))) as [Hm|Hm].
        * exists x. split; [now left|]. now apply H1.
        * destruct (proj1 IH2) as (j & Hj & Hw); [lia|]. exists j. split; [now right|auto].
      + intros (j & [ -> |Hj] & Hw).
        * apply H1 in Hw. lia.
        * assert (0 < Zsum (map (fun j => metas (nth j progs [])) L)) by (apply IH2; eauto). lia. }
  destruct (Hg (mem grp (length progs) i)) as [_ H].
  { intros j Hj. now apply mem_in in Hj. }
  rewrite H. split.
  - intros (j & Hj & Hw). apply mem_in in Hj as [Hj1 Hj2]. eauto.
  - intros (j & Hj1 & Hj2 & Hw). exists j. split; [apply mem_in; auto|auto].
Qed.

Lemma subfiling_ends_iff : forall cf grp progs, r_sub cf = true ->
  Forall writer progs -> Forall (Forall sensible) progs -> same_calls progs ->
  (always_ends grp (world cf grp progs) <->
   (forall i, (i < length progs)%nat ->
      exists j, (j < length progs)%nat /\ grp j = grp i /\ wrote (nth j progs [])) \/
   (forall i, (i < length progs)%nat -> ~ wrote (nth i progs []))).
Proof.
  intros cf grp progs Hsub Hw Hs Hsame. rewrite Forall_forall in Hw, Hs.
  destruct progs as [|p0 rest] eqn:Ep.
  { split; [intros _; left; cbn; lia|]. intros _. constructor; [left; constructor|].
    intros ps' H. exfalso. eapply done_no_step; [|exact H]. constructor. }
  rewrite <- Ep in *. set (n := length progs). assert (Hn : (0 < n)%nat) by (unfold n; rewrite Ep; cbn; lia).
  set (b := fun i => removelast (nth i progs [])).
  assert (Hb : forall i, (i < n)%nat -> nth i progs [] = b i ++ [CClose false] /\ Forall writes_or_flushes (b i)).
  { intros i Hi. apply writer_body, Hw, nth_In. exact Hi. }
  assert (Ht : forall i, (i < n)%nat -> outcomes false (b i) = outcomes false (b 0%nat)).
  { intros i Hi. pose proof (Hsame (nth i progs []) (nth 0 progs []) (nth_In _ _ Hi) (nth_In _ _ Hn)) as H.
    cbn beta in H. destruct (Hb i Hi) as [Ei Wi]. destruct (Hb 0%nat Hn) as [E0 W0]. rewrite Ei, E0 in H.
    destruct (outcomes_body (b i) false Wi eq_refl) as [A1 A2]. destruct (outcomes_body (b 0%nat) false W0 eq_refl) as [B1 B2].
    rewrite A1, B1, !map_app, A2, B2 in H. now apply app_inj_tail in H as [H _]. }
  destruct (body_run grp n Hn cf Hsub (outcomes false (b 0%nat)) b (fun _ => local0) (fun _ => [CClose false])) as (L & HR & HL).
  { intros i Hi. apply (Hb i Hi). }
  { exact Ht. }
  { intros; auto. }
  assert (HR' : reaches grp (world cf grp progs)
     (map (fun i => process cf (np_of grp n i) (pos grp i =? 0)%nat [CClose false] (L i)) (seq 0 n))).
  { unfold R in HR. replace (world cf grp progs) with
      (map (fun i => process cf (np_of grp n i) (pos grp i =? 0)%nat (b i ++ [CClose false]) local0) (seq 0 n)); [exact HR|].
    unfold world. apply map_ext_in. intros i Hi. apply in_seq in Hi. destruct (Hb i) as [E _]; [lia|]. rewrite <- E. reflexivity. }
  assert (HM : forall i, (i < n)%nat -> (has_meta grp n L i = true <->
     exists j, (j < n)%nat /\ grp j = grp i /\ wrote (nth j progs []))).
  { intros i Hi. pose proof (has_meta_wrote grp progs i Hs Hi) as Hm. fold n in Hm. rewrite <- Hm.
    replace (has_meta grp n L i) with (has_meta grp n (fun j => mklocal 0 0 (metas (nth j progs [])) 0 false false) i); [reflexivity|].
    unfold has_meta, total. f_equal. f_equal. apply map_ext_in. intros j Hj. apply mem_in in Hj as [Hj _].
    rewrite (HL j Hj). cbn [l_meta local0]. destruct (Hb j Hj) as [E _]. rewrite E, metas_app. cbn. lia. }
  split.
  - intros He.
    destruct (has_meta grp n L 0) eqn:M0.
    + left. intros i Hi. apply HM; [exact Hi|]. destruct (has_meta grp n L i) eqn:Mi; [reflexivity|].
      exfalso. destruct (close_hangs grp n Hn cf Hsub L 0%nat i Hn Hi M0 Mi) as (ps & Hh & Hr).
      eapply ends_no_hang; [exact He|eapply reaches_trans; [exact HR'|exact Hr]|exact Hh].
    + right. intros i Hi Hwr.
      assert (Mi : has_meta grp n L i = true) by (apply HM; eauto).
      destruct (close_hangs grp n Hn cf Hsub L i 0%nat Hi Hn Mi M0) as (ps & Hh & Hr).
      eapply ends_no_hang; [exact He|eapply reaches_trans; [exact HR'|exact Hr]|exact Hh].
  - intros Hor.
    destruct (close_ends grp n Hn cf Hsub L) as (ps & Hd & Hr).
    + assert (Hall : (forall i, (i < n)%nat -> has_meta grp n L i = true) \/ (forall i, (i < n)%nat -> has_meta grp n L i = false)).
      { destruct Hor as [H|H]; [left|right]; intros i Hi.
        - apply HM; auto.
        - destruct (has_meta grp n L i) eqn:M; [|reflexivity]. apply HM in M as (j & Hj & _ & Hwr); [|exact Hi].
          exfalso. exact (H j Hj Hwr). }
      intros i j Hi Hj. destruct Hall as [H|H]; rewrite !H; auto.
    + destruct (reaches_completes grp _ ps (reaches_trans _ _ _ _ HR' Hr) Hd) as (m & Hm).
      eapply completes_ends. exact Hm.
Qed.
