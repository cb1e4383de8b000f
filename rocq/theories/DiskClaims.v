(** Files on the disk: proofs. *)
From Coq Require Import Ascii String Lia.
From Verif Require Import Base SubModel SubClaims DiskModel DiskSpec.
Open Scope list_scope. Open Scope nat_scope.

Lemma exists_in : forall d p, exists_file d p = true <-> In p d.
Proof.
  intros. unfold exists_file. rewrite existsb_exists. split.
  - intros (x & X & E). apply String.eqb_eq in E. subst; auto.
  - intros X. exists p. split; auto. apply String.eqb_refl.
Qed.
Lemma exists_not : forall d p, exists_file d p = false <-> ~ In p d.
Proof. intros. rewrite <- exists_in. destruct (exists_file d p); split; intros; congruence. Qed.

(** ** Without subfiles *)
Lemma whole_holds : forall d F, whole F -> (holds d F <-> forall p, In p d <-> F p = Some 0).
Proof.
  intros d F W. split; intros H p; [rewrite (H p)|rewrite (H p)].
  - split.
    + intros (n & k & E & I). pose proof (W _ _ E); subst. destruct I as [<-|[]]. auto.
    + intros E. exists p, 0. split; auto. left; auto.
  - split.
    + intros E. exists p, 0. split; auto. left; auto.
    + intros (n & k & E & I). pose proof (W _ _ E); subst. destruct I as [<-|[]]. auto.
Qed.

Lemma plain_step : forall d F c, whole F -> holds d F -> no_subfiles c ->
  whole (fst (want F c)) /\ holds (fst (dstep d c)) (fst (want F c)) /\ snd (dstep d c) = snd (want F c).
Proof.
  intros d F c W H N. pose proof (proj1 (whole_holds d F W) H) as H'.
  assert (EX : forall name, exists_file d name = match F name with Some _ => true | None => false end).
  { intros name. destruct (F name) as [n|] eqn:E.
    - pose proof (W _ _ E); subst. apply exists_in, H', E.
    - apply exists_not. rewrite H', E. discriminate. }
  destruct c as [excl name n|name|name]; cbn [no_subfiles] in N.
  - subst n. unfold dstep, want, lib_create. rewrite EX. cbn [seq create_subfiles].
    assert (WW : whole (set_file F name (Some 0))).
    { intros p k. unfold set_file. destruct (String.eqb_spec name p); intros E; [congruence|eauto]. }
    destruct (F name) as [k|] eqn:E.
    + pose proof (W _ _ E); subst k. destruct excl; cbn [fst snd]; [auto|]. split; [exact WW|]. split; [|reflexivity].
      apply whole_holds; [exact WW|]. intros p. rewrite H'. unfold set_file. destruct (String.eqb_spec name p); [subst; rewrite E; tauto|tauto].
    + cbn [fst snd]. split; [exact WW|]. split; [|reflexivity].
      apply whole_holds; [exact WW|]. intros p. cbn [In]. rewrite H'. unfold set_file. destruct (String.eqb_spec name p); [subst; tauto|].
      split; [intros [?|?]; [congruence|auto]|auto].
  - unfold dstep, want. rewrite EX. destruct (F name) as [k|] eqn:E; cbn [fst snd]; [|auto].
    assert (WW : whole (set_file F name None)).
    { intros p m. unfold set_file. destruct (String.eqb_spec name p); intros X; [congruence|eauto]. }
    split; [exact WW|]. split; [|reflexivity]. apply whole_holds; [exact WW|].
    intros p. rewrite filter_In, H'. unfold set_file. destruct (String.eqb_spec name p); cbn; split; try tauto; intros; try discriminate. destruct H0; discriminate.
  - unfold dstep, want. rewrite EX. cbn [fst snd]. auto.
Qed.
Lemma plain_run : forall cs d F, whole F -> holds d F -> Forall no_subfiles cs ->
  snd (drun d cs) = snd (wants F cs) /\ holds (fst (drun d cs)) (fst (wants F cs)).
Proof.
  induction cs as [|c cs IH]; intros d F W H N; cbn [drun wants fst snd]; [auto|].
  inversion N; subst. destruct (plain_step d F c W H H2) as (A & B & C).
  destruct (IH _ _ A B H3) as (I1 & I2). rewrite C, I1. auto.
Qed.

(** ** With subfiles *)
Lemma append_length : forall a b, String.length (append a b) = String.length a + String.length b.
Proof. induction a; cbn; intros; auto. Qed.
Lemma path_not_name : forall name g, create_path name g <> name.
Proof.
  intros name g E. apply (f_equal String.length) in E. unfold create_path in E.
  rewrite !append_length in E. cbn [String.length] in E. lia.
Qed.

Lemma subfiles_fresh : forall excl name gs d, NoDup gs ->
  (forall g, In g gs -> ~ In (create_path name g) d) ->
  snd (create_subfiles excl name gs d) = true /\
  forall p, In p (fst (create_subfiles excl name gs d)) <-> In p d \/ exists g, In g gs /\ p = create_path name g.
Proof.
  induction gs as [|g gs IH]; intros d ND F; cbn [create_subfiles].
  - split; [reflexivity|]. intros p. split; [tauto|]. intros [?|(g & [] & _)]; auto.
  - inversion ND; subst. unfold lib_create. rewrite (proj2 (exists_not d _) (F g (or_introl eq_refl))).
    destruct (IH (create_path name g :: d) H2) as (A & B).
    { intros g' G [E|I]; [apply paths_inj in E; subst; auto|]. exact (F g' (or_intror G) I). }
    split; [exact A|]. intros p. rewrite B. cbn [In]. split.
    + intros [[<-|I]|(g' & G & ->)]; [right; exists g; auto|auto|right; exists g'; auto].
    + intros [I|(g' & [<-|G] & ->)]; [auto|auto|right; exists g'; auto].
Qed.
Lemma subfiles_trunc : forall name gs d,
  snd (create_subfiles false name gs d) = true /\
  forall p, In p (fst (create_subfiles false name gs d)) <-> In p d \/ exists g, In g gs /\ p = create_path name g.
Proof.
  induction gs as [|g gs IH]; intros d; cbn [create_subfiles].
  - split; [reflexivity|]. intros p. split; [tauto|]. intros [?|(g & [] & _)]; auto.
  - unfold lib_create. destruct (exists_file d (create_path name g)) eqn:E.
    + apply exists_in in E. destruct (IH d) as (A & B). split; [exact A|]. intros p. rewrite B. split.
      * intros [I|(g' & G & ->)]; [auto|right; exists g'; cbn; auto].
      * intros [I|(g' & [<-|G] & ->)]; [auto|auto|right; exists g'; auto].
    + destruct (IH (create_path name g :: d)) as (A & B). split; [exact A|]. intros p. rewrite B. cbn [In]. split.
      * intros [[<-|I]|(g' & G & ->)]; [right; exists g; auto|auto|right; exists g'; auto].
      * intros [I|(g' & [<-|G] & ->)]; [auto|auto|right; exists g'; auto].
Qed.
Lemma subfiles_keep : forall excl name gs d p, In p d -> In p (fst (create_subfiles excl name gs d)).
Proof.
  induction gs as [|g gs IH]; intros d p I; cbn [create_subfiles]; [exact I|].
  unfold lib_create. destruct (exists_file d (create_path name g)); [destruct excl; cbn [fst]; auto|]. apply IH. right; auto.
Qed.
Lemma subfiles_fail : forall name gs d g, In g gs -> In (create_path name g) d ->
  snd (create_subfiles true name gs d) = false.
Proof.
  induction gs as [|g' gs IH]; intros d g G I; [destruct G|]. cbn [create_subfiles]. unfold lib_create.
  destruct (exists_file d (create_path name g')) eqn:E; [reflexivity|].
  destruct G as [<-|G]; [apply exists_not in E; contradiction|]. apply (IH _ g G). right; auto.
Qed.

Lemma subfiles_all : forall excl name gs d g, In g gs -> In (create_path name g) (fst (create_subfiles excl name gs d)).
Proof.
  induction gs as [|g' gs IH]; intros d g G; [destruct G|]. cbn [create_subfiles]. unfold lib_create.
  destruct (exists_file d (create_path name g')) eqn:E.
  - apply exists_in in E. destruct G as [<-|G]; [destruct excl; cbn [fst]; apply subfiles_keep; exact E|]. destruct excl; cbn [fst]; apply IH; exact G.
  - destruct G as [<-|G]; [apply subfiles_keep; left; reflexivity|]. apply IH. exact G.
Qed.

(** Deleting a file with subfiles leaves all of them, and then the name cannot be used for exclusive
    creation with subfiles; the attempt leaves a main file behind. *)
Lemma delete_leaves : forall d name n, ~ In name d -> (forall g, ~ In (create_path name g) d) -> 0 < n ->
  exists d', drun d [DCreate true name n; DDelete name] = (d', [true; true]) /\
    (forall p, In p d' <-> In p d \/ exists g, g < n /\ p = create_path name g) /\
    forall m, 0 < m -> exists d'', drun d' [DCreate true name m; DAccessible name; DCreate true name m] = (d'', [false; true; false]) /\
      forall g, g < m -> In (create_path name g) d''.
Proof.
  intros d name n ND NP Hn.
  destruct (subfiles_fresh true name (seq 0 n) (name :: d) (seq_NoDup _ _)) as (A & B).
  { intros g _ [E|I]; [symmetry in E; apply path_not_name in E; auto|exact (NP g I)]. }
  set (d1 := fst (create_subfiles true name (seq 0 n) (name :: d))) in *.
  set (d2 := filter (fun p => negb (String.eqb name p)) d1).
  assert (X1 : exists_file d1 name = true) by (apply exists_in, B; left; left; reflexivity).
  assert (M2 : forall p, In p d2 <-> In p d \/ exists g, g < n /\ p = create_path name g).
  { intros p. unfold d2. rewrite filter_In, B. split.
    - intros ([[<-|I]|(g & G & ->)] & NE).
      + rewrite String.eqb_refl in NE. discriminate.
      + auto.
      + right. exists g. apply in_seq in G. split; [lia|auto].
    - intros [I|(g & G & ->)].
      + split; [left; right; auto|]. destruct (String.eqb_spec name p); [subst; contradiction|reflexivity].
      + split; [right; exists g; split; [apply in_seq; lia|auto]|].
        destruct (String.eqb_spec name (create_path name g)) as [E|]; [symmetry in E; apply path_not_name in E; contradiction|reflexivity]. }
  exists d2. split; [|split; [exact M2|]].
  - cbn [drun dstep]. unfold lib_create. rewrite (proj2 (exists_not d name) ND). cbn [fst snd].
    fold d1. rewrite A, X1. reflexivity.
  - intros m Hm.
    assert (N2 : ~ In name d2).
    { rewrite M2. intros [I|(g & _ & E)]; [contradiction|]. symmetry in E. apply path_not_name in E. auto. }
    assert (S2 : In (create_path name 0) d2) by (apply M2; right; exists 0; auto).
    set (d3 := fst (create_subfiles true name (seq 0 m) (name :: d2))).
    assert (F3 : snd (create_subfiles true name (seq 0 m) (name :: d2)) = false).
    { apply subfiles_fail with (g := 0); [apply in_seq; lia|right; auto]. }
    assert (X3 : exists_file d3 name = true) by (apply exists_in, subfiles_keep; left; auto).
    assert (T1 : dstep d2 (DCreate true name m) = (d3, false)).
    { unfold dstep, lib_create. rewrite (proj2 (exists_not d2 name) N2). rewrite <- F3. unfold d3. destruct (create_subfiles true name (seq 0 m) (name :: d2)); reflexivity. }
    assert (T2 : dstep d3 (DCreate true name m) = (d3, false)) by (unfold dstep, lib_create; rewrite X3; reflexivity).
    assert (T3 : dstep d3 (DAccessible name) = (d3, true)) by (unfold dstep; rewrite X3; reflexivity).
    exists d3. cbn [drun]. rewrite T1. cbn [fst snd]. rewrite T3. cbn [fst snd]. rewrite T2. split; [reflexivity|]. intros g Hg. apply subfiles_all. apply in_seq. lia.
Qed.

(** Replacing a file by one with fewer subfiles leaves the others. *)
Lemma trunc_leaves : forall d name n m, m < n ->
  exists d', drun d [DCreate false name n; DCreate false name m] = (d', [true; true]) /\
    forall g, m <= g < n -> In (create_path name g) d'.
Proof.
  intros d name n m H.
  assert (L : forall d, exists d', lib_create false name d = Some d' /\ forall p, In p d -> In p d').
  { intros d0. unfold lib_create. destruct (exists_file d0 name); eexists; split; try reflexivity; intros; auto. right; auto. }
  destruct (L d) as (d1 & E1 & _).
  destruct (subfiles_trunc name (seq 0 n) d1) as (A & B).
  set (d2 := fst (create_subfiles false name (seq 0 n) d1)) in *.
  destruct (L d2) as (d3 & E3 & K3).
  destruct (subfiles_trunc name (seq 0 m) d3) as (A' & B').
  exists (fst (create_subfiles false name (seq 0 m) d3)). split.
  - cbn [drun dstep]. rewrite E1. fold d2. rewrite E3, A, A'. reflexivity.
  - intros g G. apply B'. left. apply K3, B. right. exists g. split; [apply in_seq; lia|reflexivity].
Qed.
