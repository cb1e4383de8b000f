(** Properties: dataset creation property lists (C84), and filtered data after reopening (C19).

    [pexecs pworld0 cs] runs the calls [cs] of a program: it yields the property lists of the program, the datasets of the log
    file, and what each call returned; [rexecs rworld0 cs] (CplSpec.v) is what the program expects. *)
From Verif Require Import Base FilterModel FilterSpec CplModel CplSpec CplProofs.

(** ** C84 The creation properties of a dataset are kept

    As long as the lists given to H5Dcreate in the log file are contiguous and without filters, every call returns what is
    expected, the program's lists are as expected, and so is what every dataset reports. *)
Theorem C84_plain_lists_partial : forall cs, plain_lists rworld0 cs ->
  pw_lists (fst (pexecs pworld0 cs)) = rw_lists (fst (rexecs rworld0 cs)) /\
  snd (pexecs pworld0 cs) = snd (rexecs rworld0 cs) /\
  map ds_list (pw_sets (fst (pexecs pworld0 cs))) = rw_sets (fst (rexecs rworld0 cs)).
Proof. exact plain_run. Qed.
Print Assumptions C84_plain_lists_partial.
Example C84_plain_lists_applies :
  let cs := [PCreate; PFill 0 (FUser [7; 7]); DCreate 0 false; PLayout 0 (LChunked [4]); DOther 0 true; Reopen; DGet 0] in
  plain_lists rworld0 cs /\ rexecs rworld0 cs =
    (mkrw [mkpl (LChunked [4]) [] (FUser [7; 7]); mkpl LContiguous [] (FUser [7; 7])] [mkpl LContiguous [] (FUser [7; 7])],
     [PDone; PDone; PDone; PDone; PDone; PDone; PDone]).
Proof. split; [|reflexivity]. cbn. repeat split; injection H as <-; reflexivity. Qed.

(** Without mandatory filters, the fill value a dataset reports, and the one its unwritten elements read as, is that of the
    list at its creation, whatever happens to the list later and however often the file is reopened. *)
Theorem C84_fill_value_partial : forall cs, no_mandatory cs ->
  map (fun s => pl_fill (ds_list s)) (pw_sets (fst (pexecs pworld0 cs))) = map pl_fill (rw_sets (fst (rexecs rworld0 cs))) /\
  map ds_fill (pw_sets (fst (pexecs pworld0 cs))) = map pl_fill (rw_sets (fst (rexecs rworld0 cs))).
Proof. exact fills_kept. Qed.
Print Assumptions C84_fill_value_partial.
Example C84_fill_value_applies :
  let cs := [PCreate; PLayout 0 (LChunked [8]); PFilter 0 (1, true); PFill 0 (FUser [3]); DCreate 0 false; PFill 0 FUndef;
             DCreate 0 false; Reopen; DGet 0; DCreate 1 false] in
  no_mandatory cs /\ map ds_fill (pw_sets (fst (pexecs pworld0 cs))) = [FUser [3]; FUndef; FUser [3]].
Proof. split; [repeat constructor|reflexivity]. Qed.

(** H5Dcreate in a log file changes the list of the program, also when the call fails: its layout is contiguous from then on. *)
Theorem C84_list_changed_refuted : forall w p l fail, nth_error (pw_lists w) p = Some l ->
  nth_error (pw_lists (fst (pexec w (DCreate p fail)))) p = Some (mkpl LContiguous (pl_filters l) (pl_fill l)) /\
  (forall q, q <> p -> nth_error (pw_lists (fst (pexec w (DCreate p fail)))) q = nth_error (pw_lists w) q).
Proof. exact create_list. Qed.
Print Assumptions C84_list_changed_refuted.
(** ... so that, until the program sets the layout again, the list is refused for extendable datasets of other files. *)
Theorem C84_other_files_refuted : forall w p l fail cs, nth_error (pw_lists w) p = Some l ->
  forallb (fun c => negb (sets_layout p c)) cs = true ->
  snd (pexec (fst (pexecs w (DCreate p fail :: cs))) (DOther p true)) = PFail.
Proof. exact spoilt. Qed.
Print Assumptions C84_other_files_refuted.
Example C84_other_files_applies : let w := fst (pexecs pworld0 [PCreate; PLayout 0 (LChunked [4])]) in
  snd (pexecs w [DOther 0 true; DCreate 0 true; DOther 0 true]) = [PDone; PFail; PFail] /\
  snd (rexecs rworld0 [PCreate; PLayout 0 (LChunked [4]); DOther 0 true; DCreate 0 true; DOther 0 true]) =
    [PDone; PDone; PDone; PFail; PDone].
Proof. split; reflexivity. Qed.
(** Whatever its list said, a dataset reports the contiguous layout. *)
Theorem C84_layout_reported_refuted : forall cs s, In s (pw_sets (fst (pexecs pworld0 cs))) -> pl_layout (ds_list s) = LContiguous.
Proof. exact reported_flat. Qed.
Print Assumptions C84_layout_reported_refuted.
(** Once the file has been reopened, a dataset has no filters any more: it reports none, and reads and writes apply none. *)
Theorem C84_filters_lost_refuted : forall a b d, (d < length (pw_sets (fst (pexecs pworld0 a))))%nat ->
  exists s, nth_error (pw_sets (fst (pexecs pworld0 (a ++ Reopen :: b)))) d = Some s /\
    pl_filters (ds_list s) = [] /\ ds_filters s = [].
Proof. exact filters_gone. Qed.
Print Assumptions C84_filters_lost_refuted.
Example C84_filters_lost_applies :
  let a := [PCreate; PLayout 0 (LChunked [8]); PFilter 0 (1, true); DCreate 0 false] in
  map ds_filters (pw_sets (fst (pexecs pworld0 a))) = [[(1, true)]] /\
  map ds_filters (pw_sets (fst (pexecs pworld0 (a ++ [Reopen])))) = [[]].
Proof. split; reflexivity. Qed.
(** Datasets with a mandatory filter cannot be created at all. *)
Theorem C84_mandatory_filter_refuted : forall w p l fail f, nth_error (pw_lists w) p = Some l -> In f (pl_filters l) -> snd f = false ->
  snd (pexec w (DCreate p fail)) = PFail /\ pw_sets (fst (pexec w (DCreate p fail))) = pw_sets w.
Proof. exact mandatory_refused. Qed.
Print Assumptions C84_mandatory_filter_refuted.
Example C84_mandatory_filter_applies :
  snd (pexecs pworld0 [PCreate; PLayout 0 (LChunked [8]); PFilter 0 (2, false); DOther 0 false; DCreate 0 false]) =
    [PDone; PDone; PDone; PDone; PFail].
Proof. reflexivity. Qed.

(** ** C19 Filtered datasets read back what was written

    With its filters gone, the compressed bytes of a block come back as if they were the data: never what was written,
    unless that itself begins like a compressed stream or is shorter than two bytes. *)
Theorem C19_reopened_refuted : forall comp ids x y file foff, (forall z, zlib_header (comp z)) -> ids <> [] ->
  Forall (eq DEFLATE) ids -> ~ zlib_header x -> stored_data comp ids x = Ok y ->
  raw_block (put file foff y) foff (length x) <> x \/ (length x < 2)%nat.
Proof. exact raw_wrong. Qed.
Print Assumptions C19_reopened_refuted.
Example C19_reopened_applies : let comp := fun x => 120 :: 156 :: x in
  (forall z, zlib_header (comp z)) /\ stored_data comp [DEFLATE] [7; 8; 9] = Ok [120; 156; 7; 8; 9] /\
  raw_block (put (fun _ => 0) 40 [120; 156; 7; 8; 9]) 40 3 = [120; 156; 7].
Proof. split; [intros z; exists z; reflexivity|split; reflexivity]. Qed.
