(** What a search of either index returns. *)
From Verif Require Import Base BaseProofs Spec MetaModel QueueModel FlushModel IndexModel
  GeomProofs MetaProofs QueueProofs IndexProofs.
From Coq Require Import ZifyNat ZifyN.

(** The fields of an intersection that unfiltered reads use. *)
Definition core (s : sret) : sret :=
  mksret (sr_esize s) (sr_ndim s) (sr_foff s) 0 (sr_doff s) 0 (sr_xbuf s)
         (sr_dsize s) (sr_dstart s) (sr_msize s) (sr_mstart s) (sr_count s).

(** The search as a function of the writes in the index. *)
Definition ahit (dip : dinfo) (r : rreq) (bo : block * Z) (foff : Z) (m : msel) : list sret :=
  match intersect (ms_start m) (ms_count m) (b_start (fst bo)) (b_count (fst bo)) with
  | Some (os, oc) =>
      [mk_sret dip foff 0 0 (ms_doff m) (rq_xbuf r + snd bo) (ms_start m) (ms_count m) (fst bo) os oc]
  | None => []
  end.
Definition aent (dip : dinfo) (r : rreq) (bo : block * Z) (p : pwr) : list sret :=
  if a_did (snd p) =? rq_did r
  then flat_map (ahit dip r bo (fst p)) (add_doffs (di_esize dip) 0 (a_sels (snd p)))
  else [].
Definition asearch (l : list pwr) (dip : dinfo) (r : rreq) : list sret :=
  flat_map (fun bo => flat_map (aent dip r bo) l) (with_soff (rq_esize r) 0 (rq_sels r)).

Lemma map_flat_map : forall A B C (f : B -> C) (g : A -> list B) l,
  map f (flat_map g l) = flat_map (fun x => map f (g x)) l.
Proof. induction l; cbn; auto. rewrite map_app, IHl. reflexivity. Qed.

Lemma flat_map_Forall2 : forall A B C (f : A -> list C) (g : B -> list C) (R : A -> B -> Prop) l l',
  (forall x y, R x y -> f x = g y) -> Forall2 R l l' -> flat_map f l = flat_map g l'.
Proof. induction 2; cbn; auto. rewrite IHForall2. f_equal. auto. Qed.

Lemma search_array_core : forall G es l dip r,
  Forall2 (ment_rep G) es l -> esize_of G (rq_did r) = di_esize dip ->
  map core (search_array es dip r) = asearch l dip r.
Proof.
  intros G es l dip r HF HE. unfold search_array, asearch. rewrite map_flat_map.
  apply flat_map_ext. intros bo. rewrite map_flat_map.
  eapply flat_map_Forall2; [|exact HF]. intros e p (H1 & H2 & H3).
  unfold aent. rewrite H1. destruct (Z.eqb_spec (a_did (snd p)) (rq_did r)) as [E|E]; [|reflexivity].
  rewrite map_flat_map, H3, E, HE. apply flat_map_ext. intros m. unfold ahit.
  destruct (intersect _ _ _ _) as [[os oc]|]; [|reflexivity]. cbn [map]. rewrite H2. reflexivity.
Qed.

(** ** Compact *)
Lemma firstn_skipn_mid : forall A (a b c : list A) n, length a = n ->
  firstn n (a ++ b ++ c) = a /\ skipn n (a ++ b ++ c) = b ++ c.
Proof.
  intros. subst n. rewrite firstn_app, Nat.sub_diag, firstn_O, firstn_all, app_nil_r.
  rewrite skipn_app, Nat.sub_diag, skipn_all. auto.
Qed.

Lemma walk_spec : forall rec nd es s d emit,
  Forall (blk_ok nd) s -> (rec = true -> (0 < nd)%nat /\ Forall (fun b => hd 0 (b_count b) = 1) s) ->
  walk (length s) (nd - recd rec) (cwords rec s) d es emit =
  Some (flat_map (fun m => emit (skipn (recd rec) (ms_start m)) (skipn (recd rec) (ms_count m)) (ms_doff m))
         (add_doffs es d s)).
Proof.
  intros rec nd es. induction s as [|b s IH]; intros d emit HF HR; [reflexivity|].
  cbn [length walk]. unfold cwords. cbn [flat_map]. fold (cwords rec s).
  destruct (Forall_inv HF) as (L1 & L2 & _).
  assert (HL : length (skipn (recd rec) (b_start b)) = (nd - recd rec)%nat) by (rewrite skipn_length; lia).
  assert (HL2 : length (skipn (recd rec) (b_count b)) = (nd - recd rec)%nat) by (rewrite skipn_length; lia).
  rewrite <- app_assoc.
  destruct (firstn_skipn_mid _ (skipn (recd rec) (b_start b)) (skipn (recd rec) (b_count b)) (cwords rec s) _ HL) as [F1 F2].
  assert (F3 : firstn (nd - recd rec) (skipn (recd rec) (b_count b) ++ cwords rec s) = skipn (recd rec) (b_count b)).
  { rewrite firstn_app, HL2, Nat.sub_diag, firstn_O, app_nil_r. rewrite <- HL2. apply firstn_all. }
  assert (F4 : skipn (2 * (nd - recd rec)) (skipn (recd rec) (b_start b) ++ skipn (recd rec) (b_count b) ++ cwords rec s) = cwords rec s).
  { rewrite app_assoc, skipn_app. rewrite app_length, HL, HL2.
    replace (2 * (nd - recd rec) - (nd - recd rec + (nd - recd rec)))%nat with 0%nat by lia.
    rewrite skipn_all2; [reflexivity|]. rewrite app_length. lia. }
  rewrite F1, F2, F3, F4.
  assert (E : (length (skipn (recd rec) (b_start b) ++ skipn (recd rec) (b_count b) ++ cwords rec s) <? 2 * (nd - recd rec))%nat = false).
  { apply Nat.ltb_ge. rewrite !app_length. lia. }
  assert (P : Zprod (skipn (recd rec) (b_count b)) = Zprod (b_count b)).
  { destruct rec; cbn [recd]; [|reflexivity].
    destruct (HR eq_refl) as [Hn Hh]. apply Forall_inv in Hh.
    destruct (b_count b); cbn [hd length skipn] in *; [lia|]. subst z. unfold Zprod. cbn [fold_right]. lia. }
  rewrite E, P, (Z.add_comm d). rewrite IH.
  - reflexivity.
  - eapply Forall_inv_tail; eauto.
  - intros E'. destruct (HR E') as [? Hh]. split; auto. eapply Forall_inv_tail; eauto.
Qed.

Lemma opt_flat_Some : forall A B (f : A -> option (list B)) g l,
  (forall x, In x l -> f x = Some (g x)) -> opt_flat f l = Some (flat_map g l).
Proof.
  induction l; intros H; [reflexivity|]. cbn. rewrite (H a) by (left; auto).
  rewrite IHl by (intros; apply H; right; auto). reflexivity.
Qed.

Lemma opt_flat_Forall2 : forall A B C (h : C -> C) (f : A -> option (list C)) (g : B -> list C)
  (R : A -> B -> Prop) l l', (forall x y, In y l' -> R x y -> exists u, f x = Some u /\ map h u = g y) ->
  Forall2 R l l' -> exists u, opt_flat f l = Some u /\ map h u = flat_map g l'.
Proof.
  intros A B C h f g R l l' H HF. induction HF; cbn; [exists []; auto|].
  destruct (H x y (or_introl eq_refl) H0) as (u & E1 & E2).
  destruct IHHF as (v & E3 & E4). { intros. apply (H x0 y0); auto. right; auto. }
  rewrite E1, E3. exists (u ++ v). split; auto. rewrite map_app. congruence.
Qed.

Lemma Forall_add_doffs : forall (P : list Z -> list Z -> Prop) es s d,
  Forall (fun b => P (b_start b) (b_count b)) s ->
  Forall (fun m => P (ms_start m) (ms_count m)) (add_doffs es d s).
Proof. induction s; intros; cbn; constructor; inversion H; subst; auto. Qed.

Lemma flat_map_ext_Forall : forall A B (f g : A -> list B) l, Forall (fun x => f x = g x) l ->
  flat_map f l = flat_map g l.
Proof. induction 1; cbn; congruence. Qed.

Lemma i32_small : forall x, - 2 ^ 31 <= x < 2 ^ 31 -> i32 x = x.
Proof. apply i32_id. Qed.

(** A request block whose first coordinate fits the C int arithmetic of record entries. *)
Definition small_first (b : block) : Prop :=
  0 <= hd 0 (b_start b) < 2 ^ 31 /\ 0 <= hd 0 (b_count b) < 2 ^ 31.

Lemma search_cent_core : forall G c p dip r b o,
  cent_rep G c p -> a_did (snd p) = rq_did r ->
  ndim_of G (rq_did r) = di_ndim dip -> esize_of G (rq_did r) = di_esize dip ->
  length (b_start b) = di_ndim dip -> length (b_count b) = di_ndim dip ->
  (unlim_of G (rq_did r) = true -> small_first b /\ recnum_of (a_sels (snd p)) < 2 ^ 31) ->
  exists u, search_cent dip r b o c = Some u /\ map core u = aent dip r (b, o) p.
Proof.
  intros G c p dip r b o (C1 & C2 & C3 & rec & C4 & C5) Hd Hn He L1 L2 Hs.
  unfold search_cent, aent. rewrite C4, Hd, Z.eqb_refl. rewrite Hd, Hn in *.
  assert (HN : Z.to_nat (Zlen (a_sels (snd p))) = length (a_sels (snd p))) by (unfold Zlen; lia).
  rewrite HN. destruct rec.
  - destruct C5 as (D1 & D2 & D3 & D4 & D5). destruct (Hs D5) as [[S1 S2] S3].
    destruct (Z.leb_spec 0 (ce_rec c)); [|lia].
    assert (Hrec : 0 <= ce_rec c < 2 ^ 31) by lia.
    assert (Hb : Forall (fun b => hd 0 (b_count b) = 1 /\ hd 0 (b_start b) = ce_rec c /\
       (0 < length (b_start b))%nat /\ (0 < length (b_count b))%nat) (a_sels (snd p))).
    { unfold rec_blocks in D3. rewrite Forall_forall in C3, D3 |- *. intros x Hx. destruct (C3 x Hx) as (? & ? & _).
      destruct (D3 x Hx). cbn beta. rewrite D1. lia. }
    destruct (b_start b) as [|b0 bs] eqn:Ebs; cbn [length] in L1; [lia|].
    destruct (b_count b) as [|n0 bc] eqn:Ebc; cbn [length] in L2; [lia|].
    cbn [hd tl] in *.
    rewrite (i32_id (ce_rec c - b0)) by lia. rewrite (i32_id n0) by lia.
    pose proof (Forall_add_doffs (fun s n => hd 0 n = 1 /\ hd 0 s = ce_rec c /\
       (0 < length s)%nat /\ (0 < length n)%nat) (di_esize dip) _ 0 Hb) as HD.
    assert (Hgen : forall m, hd 0 (ms_count m) = 1 /\ hd 0 (ms_start m) = ce_rec c /\
       (0 < length (ms_start m))%nat /\ (0 < length (ms_count m))%nat ->
       ahit dip r (b, o) (fst p) m =
       if (ce_rec c - b0 <? 0) || (n0 <=? ce_rec c - b0) then []
       else match intersect (skipn 1 (ms_start m)) (skipn 1 (ms_count m)) bs bc with
            | Some (os, oc) => [mksret (di_esize dip) (di_ndim dip) (fst p) 0 (ms_doff m) 0 (rq_xbuf r + o)
                (1 :: map i32 (skipn 1 (ms_count m))) (0 :: sub32 os (skipn 1 (ms_start m)))
                (n0 :: map i32 bc) (ce_rec c - b0 :: sub32 os bs) (1 :: map i32 oc)]
            | None => [] end).
    { intros m (M1 & M2 & M3 & M4). unfold ahit. cbn [fst snd].
      destruct (ms_start m) as [|s0 ss]; cbn [length hd] in *; [lia|].
      destruct (ms_count m) as [|c0 cc]; cbn [length hd] in *; [lia|]. subst s0 c0.
      rewrite Ebs, Ebc. cbn [intersect skipn].
      destruct ((ce_rec c - b0 <? 0) || (n0 <=? ce_rec c - b0)) eqn:T.
      - replace (Z.min (ce_rec c + 1) (b0 + n0) <=? Z.max (ce_rec c) b0) with true; [reflexivity|].
        symmetry. apply Z.leb_le. apply orb_prop in T. rewrite Z.ltb_lt, Z.leb_le in T. lia.
      - apply orb_false_elim in T. rewrite Z.ltb_ge, Z.leb_gt in T.
        replace (Z.min (ce_rec c + 1) (b0 + n0) <=? Z.max (ce_rec c) b0) with false by (symmetry; apply Z.leb_gt; lia).
        replace (Z.max (ce_rec c) b0) with (ce_rec c) by lia.
        replace (Z.min (ce_rec c + 1) (b0 + n0) - ce_rec c) with 1 by lia.
        destruct (intersect ss cc bs bc) as [[os oc]|]; [|reflexivity].
        unfold mk_sret, sub32. rewrite Ebs, Ebc. cbn [map combine fst snd].
        rewrite Z.sub_diag. rewrite (i32_id n0), (i32_id (ce_rec c - b0)) by lia. reflexivity. }
    rewrite (flat_map_ext_Forall _ _ _ _ _ (Forall_impl _ Hgen HD)).
    destruct ((ce_rec c - b0 <? 0) || (n0 <=? ce_rec c - b0)).
    { exists []. split; auto. cbn. clear. induction (add_doffs _ _ _); cbn; auto. }
    change (di_ndim dip - 1)%nat with (di_ndim dip - recd true)%nat.
    rewrite walk_spec; auto.
    2:{ intros _. split; auto. revert Hb. apply Forall_impl. tauto. }
    eexists. split; [reflexivity|]. rewrite map_flat_map. apply flat_map_ext. intros m. cbn [recd].
    destruct (intersect _ _ bs bc) as [[os oc]|]; [|reflexivity]. cbn. rewrite C2. reflexivity.
  - rewrite C5. destruct (Z.leb_spec 0 (-1)); [lia|].
    replace (di_ndim dip) with (di_ndim dip - recd false)%nat by (cbn; lia).
    rewrite walk_spec; auto; [|discriminate].
    eexists. split; [reflexivity|]. rewrite map_flat_map. apply flat_map_ext. intros m. cbn [recd skipn].
    unfold ahit. cbn [fst snd].
    destruct (intersect _ _ _ _) as [[os oc]|]; [|reflexivity]. cbn. rewrite C2. reflexivity.
Qed.

(** Bounds a request must meet. *)
Definition rq_ok (u : bool) (dip : dinfo) (r : rreq) : Prop :=
  Forall (fun b => length (b_start b) = di_ndim dip /\ length (b_count b) = di_ndim dip /\
            (u = true -> small_first b)) (rq_sels r).

Lemma In_with_soff : forall es s d b o, In (b, o) (with_soff es d s) -> In b s.
Proof. induction s; cbn; intros; auto. destruct H; [left; congruence|right; eauto]. Qed.

Lemma search_compact_core : forall G cs l dip r,
  Forall2 (cent_rep G) cs l ->
  ndim_of G (rq_did r) = di_ndim dip -> esize_of G (rq_did r) = di_esize dip ->
  rq_ok (unlim_of G (rq_did r)) dip r ->
  Forall (fun p => unlim_of G (a_did (snd p)) = true -> recnum_of (a_sels (snd p)) < 2 ^ 31) l ->
  exists u, search_compact cs dip r = Some u /\ map core u = asearch l dip r.
Proof.
  intros G cs l dip r HF Hn He Hr Hw. unfold search_compact, asearch.
  eapply opt_flat_Forall2 with (R := fun a b => a = b).
  2:{ clear. induction (with_soff _ _ _); constructor; auto. }
  intros bo bo' Hin <-. destruct bo as [b o]. apply In_with_soff in Hin.
  unfold rq_ok in Hr. rewrite Forall_forall in Hr. destruct (Hr b Hin) as (L1 & L2 & L3).
  eapply opt_flat_Forall2; [|exact HF]. intros c p Hp HC.
  destruct (Z.eqb_spec (ce_did c) (rq_did r)) as [E|E].
  - assert (E' : a_did (snd p) = rq_did r) by (destruct HC as (H1 & _); congruence).
    eapply search_cent_core; eauto. intros U. split; auto.
    rewrite Forall_forall in Hw. apply (Hw p Hp). rewrite E'. auto.
  - exists []. split; auto. unfold aent. destruct HC as (H1 & _). rewrite <- H1.
    destruct (Z.eqb_spec (ce_did c) (rq_did r)); [congruence|reflexivity].
Qed.

(** Both kinds of index return the same intersections. *)
Definition idx_small (k : kind) (infos : list (option dinfo)) (l : list pwr) (r : rreq) : Prop :=
  k = KCompact ->
  Forall (fun p => unlim_of (geom infos) (a_did (snd p)) = true -> recnum_of (a_sels (snd p)) < 2 ^ 31) l /\
  (unlim_of (geom infos) (rq_did r) = true -> Forall small_first (rq_sels r)).

Lemma idx_search1_core : forall infos i l dip r,
  idx_rep (geom infos) i l -> 0 <= rq_did r ->
  nth_error infos (Z.to_nat (rq_did r)) = Some (Some dip) ->
  Forall (fun b => length (b_start b) = di_ndim dip /\ length (b_count b) = di_ndim dip) (rq_sels r) ->
  idx_small (kind_of i) infos l r ->
  exists u, idx_search1 infos i r = Ok u /\ map core u = asearch l dip r.
Proof.
  intros infos i l dip r HI Hd Hn HL HS. unfold idx_search1, info_at.
  destruct (Z.ltb_spec (rq_did r) 0); [lia|]. rewrite Hn.
  assert (HG : geom infos (rq_did r) = Some (di_ndim dip, di_esize dip, unlim dip)) by (unfold geom; rewrite Hn; auto).
  destruct i as [es|cs]; cbn [idx_rep kind_of] in HI, HS.
  - eexists. split; [reflexivity|]. eapply search_array_core; eauto. unfold esize_of. rewrite HG. auto.
  - destruct (HS eq_refl) as [H1 H2].
    destruct (search_compact_core (geom infos) cs l dip r HI) as (u & U1 & U2); auto.
    + unfold ndim_of. rewrite HG. auto.
    + unfold esize_of. rewrite HG. auto.
    + unfold rq_ok. rewrite Forall_forall in HL |- *. intros b Hb. destruct (HL b Hb). split; auto. split; auto.
      intros U. specialize (H2 U). rewrite Forall_forall in H2. auto.
    + exists u. rewrite U1. auto.
Qed.
