(** Reads of synchronised programs. *)
From Verif Require Import Base BaseProofs Spec MetaModel QueueModel FlushModel IndexModel ReadModel SysModel
  SysSpec History SysProofs HistoryProofs ClaimProofs SysCheck Examples ClaimProofs2 SizedProofs DefSpec DefProofs TameSpec TameProofs AnyClaims
  ReplayDataSpec ReplayDataRun ReplayDataClaims SyncSpec SyncProofs.
From Coq Require Import ZifyNat.

Lemma sync_firstn : forall n ops, synchronised ops -> synchronised (firstn n ops).
Proof.
  intros n ops H i j oi oj a b did x Hij Hi Hj Wi Wj Hab.
  assert (NF : forall k o, nth_error (firstn n ops) k = Some o -> nth_error ops k = Some o).
  { intros k o Hk. rewrite <- (firstn_skipn n ops). rewrite nth_error_app1; [exact Hk|]. apply nth_error_Some. congruence. }
  destruct (H i j oi oj a b did x Hij (NF _ _ Hi) (NF _ _ Hj) Wi Wj Hab) as (k & ok & K1 & K2 & K3). exists k, ok. split; [exact K1|]. split; [|exact K3].
  assert (j < length (firstn n ops))%nat by (apply nth_error_Some; congruence).
  rewrite <- (firstn_skipn n ops) in K2. rewrite nth_error_app1 in K2 by lia. exact K2.
Qed.
Lemma ranks_firstn : forall ops k n, ranks_ok n ops -> ranks_ok n (firstn k ops).
Proof. induction ops as [|o ops IH]; intros [|k] n H; cbn; auto. destruct H as [H1 H2]. split; auto. Qed.

Lemma sync_pub : forall np ops did x, ranks_ok np ops -> synchronised ops ->
  last_assigned did x (publish (trace_of true np ops)) = last_assigned did x (program_order [] ops).
Proof.
  intros np ops did x HR HS. unfold trace_of. rewrite (sync_order did x ops (mktr [] [] (repeat [] np)) [] None).
  - unfold publish. cbn [t_pub t_pend]. rewrite concat_repeat_nil. reflexivity.
  - apply sync_from_ok; [exact HS|]. intros rk b j oj E; discriminate.
  - cbn [t_pend]. rewrite repeat_length. exact HR.
  - intros j _. cbn [t_pend]. rewrite nth_repeat_nil. reflexivity.
  - reflexivity.
Qed.

Lemma owned_sync : forall ops, owned ops -> synchronised ops.
Proof.
  intros ops [owner H] i j oi oj a b did x Hij Hi Hj Wi Wj Hab. exfalso. rewrite Forall_forall in H.
  pose proof (H _ (nth_error_In _ _ Hi)) as Ki. pose proof (H _ (nth_error_In _ _ Hj)) as Kj.
  destruct oi; try contradiction. destruct oj; try contradiction. destruct Wi as (<- & -> & Wi), Wj as (<- & -> & Wj). rewrite <- (Ki _ Wi), <- (Kj _ Wj) in Hab. congruence.
Qed.

Lemma sync_reads : forall e cfg np f0 ops, tame e cfg np ops -> synchronised ops ->
  exists s outs, run e (init cfg np f0) ops = Ok (s, outs) /\ length outs = length ops /\
    forall i doff calls, nth_error ops i = Some (ORead doff calls) ->
      exists bufs, nth_error outs i = Some bufs /\
        Forall2 (fun c buf => exists d,
          nth_error (t_sets (trace_of true np (firstn i ops))) (Z.to_nat (rc_did c)) = Some d /\
          length (elems (di_esize d) buf) = length (sel_coords (rc_sels c)) /\
          forall k x, nth_error (sel_coords (rc_sels c)) k = Some x ->
            nth_error (elems (di_esize d) buf) k
              = Some (expected (program_order [] (firstn i ops)) d c k x)) calls bufs.
Proof.
  intros e cfg np f0 ops T HS. destruct (tame_reads e cfg np f0 ops T) as (s & outs & R1 & R2 & R3). exists s, outs. split; [exact R1|]. split; [exact R2|].
  intros i doff calls Hi. destruct (R3 _ _ _ Hi) as (bufs & B1 & B2). exists bufs. split; [exact B1|]. cbn zeta in B2.
  eapply Forall2_impl; [|exact B2]. intros c buf (d & D1 & D2 & D3 & D4). cbn [t_sets t_pub] in *. exists d. split; [exact D1|]. split; [exact D2|].
  intros k x Hk. rewrite (D4 k x Hk). f_equal. unfold expected. fold (publish (trace_of true np (firstn i ops))). rewrite sync_pub; [reflexivity| |apply sync_firstn; exact HS].
  apply ranks_firstn. apply legal_ranks0. apply T.
Qed.

Lemma order_whom : forall ops sets, program_order sets ops = program_order sets (map by_whom ops).
Proof. induction ops as [|o ops IH]; intros sets; auto. destruct o; cbn [map by_whom program_order]; rewrite IH; auto. Qed.
Lemma sets_whom : forall ops t t', t_sets t = t_sets t' -> t_sets (fold_left (tstep true) ops t) = t_sets (fold_left (tstep true) (map by_whom ops) t').
Proof.
  induction ops as [|o ops IH]; intros t t' H; auto. destruct o; cbn [map by_whom fold_left]; apply IH; cbn [tstep t_sets]; rewrite ?H; auto.
Qed.

Lemma sync_between : forall e cfg np e' cfg' np' f0 f0' ops ops' doff doff' calls,
  tame e cfg np (ops ++ [ORead doff calls]) -> tame e' cfg' np' (ops' ++ [ORead doff' calls]) ->
  synchronised ops -> synchronised ops' ->
  map by_whom (filter makes_change ops) = map by_whom (filter makes_change ops') ->
  exists s s' outs outs' bufs,
    run e (init cfg np f0) (ops ++ [ORead doff calls]) = Ok (s, outs ++ [bufs]) /\
    run e' (init cfg' np' f0') (ops' ++ [ORead doff' calls]) = Ok (s', outs' ++ [bufs]).
Proof.
  intros e cfg np e' cfg' np' f0 f0' ops ops' doff doff' calls T T' O O' F. destruct (tame_ok _ _ _ _ T) as [cv H]. destruct (tame_ok _ _ _ _ T') as [cv' H'].
  assert (R : ranks_ok np ops). { assert (K : ranks_ok np (ops ++ [ORead doff calls])) by (apply legal_ranks0; apply T). apply (ranks_firstn _ (length ops)) in K. rewrite firstn_app, firstn_all, Nat.sub_diag, app_nil_r in K. exact K. }
  assert (R' : ranks_ok np' ops'). { assert (K : ranks_ok np' (ops' ++ [ORead doff' calls])) by (apply legal_ranks0; apply T'). apply (ranks_firstn _ (length ops')) in K. rewrite firstn_app, firstn_all, Nat.sub_diag, app_nil_r in K. exact K. }
  destruct T as [E _], T' as [E' _]. eapply final_read_same; eauto. apply Forall_forall. intros c _. rewrite E, E', !trace_snoc. cbn [tstep].
  assert (S : t_sets (trace_of true np ops) = t_sets (trace_of true np' ops')).
  { unfold trace_of. rewrite (sets_filter true ops (mktr [] [] (repeat [] np)) (mktr [] [] []) eq_refl), (sets_filter true ops' (mktr [] [] (repeat [] np')) (mktr [] [] []) eq_refl).
    rewrite (sets_whom (filter makes_change ops) (mktr [] [] []) (mktr [] [] []) eq_refl), (sets_whom (filter makes_change ops') (mktr [] [] []) (mktr [] [] []) eq_refl), F. reflexivity. }
  split; cbn [t_sets t_pub].
  - rewrite S. eauto.
  - intros x. rewrite !sync_pub by auto. rewrite (order_filter ops), (order_filter ops'), (order_whom (filter makes_change ops)), (order_whom (filter makes_change ops')), F. reflexivity.
Qed.

(** ** Concrete programs *)
Definition sync_op (o : op) : bool := match o with OFlush _ | ORead _ _ | OReopen _ _ => true | _ => false end.
Definition conflict (o o' : op) : bool :=
  match o, o' with
  | OWrite a d s _, OWrite b d' s' _ => negb (a =? b)%nat && (d =? d') && existsb (fun x => existsb (coord_eqb x) (sel_coords s')) (sel_coords s)
  | _, _ => false
  end.
Fixpoint apart (o : op) (ops : list op) : bool :=
  match ops with [] => true | o' :: rest => sync_op o' || (negb (conflict o o') && apart o rest) end.
Fixpoint sync_b (ops : list op) : bool := match ops with [] => true | o :: rest => apart o rest && sync_b rest end.

Lemma conflict_ok : forall a b did x o o', writes_elem a did x o -> writes_elem b did x o' -> a <> b -> conflict o o' = true.
Proof.
  intros a b did x o o' W W' H. destruct o; try contradiction. destruct o'; try contradiction. destruct W as (<- & -> & W), W' as (<- & -> & W').
  cbn [conflict]. destruct (Nat.eqb_spec rk rk0); [congruence|]. rewrite Z.eqb_refl. cbn [negb andb]. apply existsb_exists. exists x. split; [exact W|].
  apply existsb_exists. exists x. split; [exact W'|]. unfold coord_eqb. destruct (list_eq_dec Z.eq_dec x x); congruence.
Qed.
Lemma apart_ok : forall o ops a b did x j oj, apart o ops = true -> nth_error ops j = Some oj -> writes_elem a did x o -> writes_elem b did x oj -> a <> b ->
  exists k ok, (k < j)%nat /\ nth_error ops k = Some ok /\ synchronises ok.
Proof.
  intros o. induction ops as [|o' ops IH]; intros a b did x j oj HA Hj W W' H; [destruct j; discriminate|]. cbn [apart] in HA. apply orb_prop in HA.
  destruct j as [|j].
  - cbn in Hj. injection Hj as ->. exfalso. destruct HA as [HA|HA]; [destruct oj; try contradiction; discriminate|].
    rewrite (conflict_ok _ _ _ _ _ _ W W' H) in HA. discriminate.
  - cbn in Hj. destruct HA as [HA|HA].
    + exists O, o'. split; [lia|]. split; [reflexivity|]. destruct o'; try discriminate; exact Logic.I.
    + apply andb_prop in HA. destruct (IH _ _ _ _ _ _ (proj2 HA) Hj W W' H) as (k & ok & K1 & K2 & K3). exists (S k), ok. split; [lia|]. auto.
Qed.
Lemma sync_b_ok : forall ops, sync_b ops = true -> synchronised ops.
Proof.
  induction ops as [|o ops IH]; intros HB i j oi oj a b did x Hij Hi Hj W W' H; [destruct i; discriminate|]. cbn [sync_b] in HB. apply andb_prop in HB. destruct HB as [B1 B2].
  destruct j as [|j]; [lia|]. cbn in Hj. destruct i as [|i].
  - cbn in Hi. injection Hi as ->. destruct (apart_ok _ _ _ _ _ _ _ _ B1 Hj W W' H) as (k & ok & K1 & K2 & K3). exists (S k), ok. split; [lia|]. auto.
  - cbn in Hi. destruct (IH B2 i j oi oj a b did x ltac:(lia) Hi Hj W W' H) as (k & ok & K1 & K2 & K3). exists (S k), ok. split; [lia|]. auto.
Qed.

(** Three processes; each overwrites elements of another one after a synchronisation. *)
Definition h_par : list op :=
  [ OCreate dA; OCreate dR;
    OWrite 0 0 [B [0;0] [1;3]; B [1;1] [1;2]] (by_ 10 10);
    OWrite 1 0 [B [2;0] [2;3]] (by_ 30 12);
    OWrite 2 1 [B [1;0] [1;4]] (by_ 60 4);
    OFlush 100;
    OWrite 2 0 [B [0;1] [1;2]] (by_ 70 4);
    OSetExtent 1 [5;4];
    OWrite 0 1 [B [4;0] [1;4]] (by_ 80 4);
    ORead 1000 [mkrcall 0 [B [0;0] [4;6]] 0 junk];
    OWrite 1 0 [B [0;2] [1;2]] (by_ 90 4);
    OReopen 5000 2;
    OWrite 0 0 [B [2;2] [1;2]] (by_ 100 4) ].
(** The same writes by one process, without intermediate synchronisation. *)
Definition h_ser : list op := map by_whom (filter makes_change h_par).
Definition rd_par : list rcall := [mkrcall 0 [B [0;0] [4;6]] 0 junk; mkrcall 1 [B [0;0] [5;4]] 0 junk].

Lemma sync_ex : tame e_dflt cfg_dflt 3 (h_par ++ [ORead 9000 rd_par]) /\ synchronised (h_par ++ [ORead 9000 rd_par]) /\ ~ owned (h_par ++ [ORead 9000 rd_par]).
Proof.
  split; [tame_dflt|]. split; [apply sync_b_ok; vm_compute; reflexivity|]. intros [owner H]. rewrite Forall_forall in H.
  assert (H0 := H (OWrite 0 0 [B [0;0] [1;3]; B [1;1] [1;2]] (by_ 10 10)) ltac:(cbn; tauto) [0;1] ltac:(vm_compute; tauto)).
  assert (H1 := H (OWrite 2 0 [B [0;1] [1;2]] (by_ 70 4)) ltac:(cbn; tauto) [0;1] ltac:(vm_compute; tauto)). congruence.
Qed.
Lemma serial_ex : tame e_dflt cfg_dflt 3 (h_par ++ [ORead 9000 rd_par]) /\ tame e_small 4 1 (h_ser ++ [ORead 100 rd_par]) /\
  synchronised h_par /\ synchronised h_ser /\ map by_whom (filter makes_change h_par) = map by_whom (filter makes_change h_ser).
Proof.
  split; [tame_dflt|]. split; [tame_coords|]. split; [apply sync_b_ok; vm_compute; reflexivity|]. split; [apply sync_b_ok; vm_compute; reflexivity|]. reflexivity.
Qed.

(** Without the synchronisation the result is that of the process with the higher number. *)
Definition w_race (f : list op) : list op :=
  [OCreate ds1; OWrite 1 0 [B [0;0] [1;2]] (by_ 10 2)] ++ f ++ [OWrite 0 0 [B [0;0] [1;2]] (by_ 20 2)].
Lemma race_read : let rd := ORead 300 [mkrcall 0 [B [0;0] [1;2]] 0 junk] in
  tame e_dflt cfg_dflt 2 (w_race [] ++ [rd]) /\ last_assigned 0 [0;0] (program_order [] (w_race [])) = Some [20] /\
  (exists s outs, run e_dflt (init cfg_dflt 2 f_zero) (w_race [] ++ [rd]) = Ok (s, outs ++ [[[10; 11]]])) /\
  (exists s outs, run e_dflt (init cfg_dflt 2 f_zero) (w_race [OFlush 100] ++ [rd]) = Ok (s, outs ++ [[[20; 21]]])).
Proof.
  intros rd. split; [tame_dflt|]. split; [vm_compute; reflexivity|]. split.
  - destruct (outputs_run e_dflt cfg_dflt 2 (w_race [] ++ [rd]) ([[];[];[]] ++ [[[10;11]]])) as [s R]; [vm_compute; reflexivity|]. eauto.
  - destruct (outputs_run e_dflt cfg_dflt 2 (w_race [OFlush 100] ++ [rd]) ([[];[];[];[]] ++ [[[20;21]]])) as [s R]; [vm_compute; reflexivity|]. eauto.
Qed.
