(** C83 Deleting or replacing a file removes all of it (DiskModel.v, DiskSpec.v). *)
From Coq Require Import Ascii String.
From Verif Require Import Base SubModel DiskModel DiskSpec DiskClaims.
Open Scope list_scope. Open Scope nat_scope.

(** Without subfiles, every history of H5Fcreate, H5Fdelete and H5Fis_accessible gives the expected
    results, and the disk then holds the user's files and nothing else. *)
Theorem C83_no_subfiles_partial : forall cs d F, whole F -> holds d F -> Forall no_subfiles cs ->
  snd (drun d cs) = snd (wants F cs) /\ holds (fst (drun d cs)) (fst (wants F cs)).
Proof. exact plain_run. Qed.
Print Assumptions C83_no_subfiles_partial.
Example C83_no_subfiles_applies :
  let F := fun p => if String.eqb p "old.h5" then Some 0 else None in
  let cs := [DCreate true "a.h5" 0; DCreate true "old.h5" 0; DCreate false "old.h5" 0; DDelete "a.h5";
             DAccessible "a.h5"; DCreate true "a.h5" 0; DDelete "none.h5"] in
  whole F /\ holds ["old.h5"%string] F /\ Forall no_subfiles cs /\
  snd (drun ["old.h5"%string] cs) = [true; false; true; true; false; true; false].
Proof.
  cbv zeta. split; [intros p n; destruct (String.eqb p "old.h5"); congruence|]. split; [|split; [repeat constructor|reflexivity]].
  intros p. split.
  - intros [<-|[]]. exists "old.h5"%string, 0. split; [reflexivity|left; reflexivity].
  - intros (n & k & E & I). destruct (String.eqb_spec n "old.h5"); [|discriminate]. subst. injection E as <-. destruct I as [<-|[]]. left; reflexivity.
Qed.

(** With subfiles: whatever else is on the disk, H5Fdelete leaves all the subfiles of the file it
    deletes.  Exclusive creation under the same name then fails, whatever the number of subfiles, and
    leaves a main file that makes the name taken and subfiles that no file has. *)
Theorem C83_delete_refuted : forall d name n, ~ In name d -> (forall g, ~ In (create_path name g) d) -> 0 < n ->
  exists d', drun d [DCreate true name n; DDelete name] = (d', [true; true]) /\
    (forall p, In p d' <-> In p d \/ exists g, g < n /\ p = create_path name g) /\
    forall m, 0 < m -> exists d'', drun d' [DCreate true name m; DAccessible name; DCreate true name m] = (d'', [false; true; false]) /\
      forall g, g < m -> In (create_path name g) d''.
Proof. exact delete_leaves. Qed.
Print Assumptions C83_delete_refuted.
Example C83_delete_example :
  drun ["other.h5"%string] [DCreate true "a.h5" 2; DDelete "a.h5"] =
    (["a.h5.subfiles/a.h5.1"; "a.h5.subfiles/a.h5.0"; "other.h5"]%string, [true; true]) /\
  snd (wants (fun _ => None) [DCreate true "a.h5" 2; DDelete "a.h5"; DCreate true "a.h5" 2]) = [true; true; true].
Proof. split; reflexivity. Qed.

(** Replacing a file by one with fewer subfiles leaves the others. *)
Theorem C83_replace_refuted : forall d name n m, m < n ->
  exists d', drun d [DCreate false name n; DCreate false name m] = (d', [true; true]) /\
    forall g, m <= g < n -> In (create_path name g) d'.
Proof. exact trunc_leaves. Qed.
Print Assumptions C83_replace_refuted.
Example C83_replace_example :
  fst (drun [] [DCreate false "a.h5" 2; DCreate false "a.h5" 1]) = ["a.h5.subfiles/a.h5.1"; "a.h5.subfiles/a.h5.0"; "a.h5"]%string.
Proof. reflexivity. Qed.
