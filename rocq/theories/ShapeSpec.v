(** What H5Dget_space has to report. *)
From Verif Require Import Base MetaModel SysModel ShapeModel.

(** Whether a change to the sizes [new] is allowed by the maximal sizes. *)
Definition allowed (mdims new : list Z) : bool :=
  forallb (fun p => (fst p =? UNLIMITED) || (snd p <=? fst p)) (combine mdims new).

(** Shapes only: sizes and maximal sizes of every dataset. *)
Definition spec_step (l : list (list Z * list Z)) (o : sop) : list (list Z * list Z) * sout :=
  match o with
  | SCreate d => (l ++ [(di_dims d, di_mdims d)], ODone)
  | SExtent did new =>
      let '(dims, mdims) := nth did l ([], []) in
      if allowed mdims new then (upd_nth did (new, mdims) l, ODone) else (l, OFailed)
  | SReopen | SOpen _ => (l, ODone)
  | SSpace did => let '(dims, mdims) := nth did l ([], []) in (l, OSpace dims mdims)
  end.
Fixpoint spec_run (l : list (list Z * list Z)) (os : list sop) : list (list Z * list Z) * list sout :=
  match os with
  | [] => (l, [])
  | o :: rest => let '(l', out) := spec_step l o in let '(l'', outs) := spec_run l' rest in (l'', out :: outs)
  end.

(** A correct program: datasets have as many maximal sizes as sizes and at least one when
    selections are encoded; a dataset is used only when it exists and, after the file has been
    reopened, has been opened ([opened]: one flag per dataset). *)
Definition proper_step (cfg : Z) (l : list (list Z * list Z)) (opened : list bool) (o : sop) : Prop :=
  match o with
  | SCreate d => length (di_mdims d) = di_ndim d /\ (has cfg CFG_SEL_ENCODE = true -> di_ndim d <> 0%nat)
  | SExtent did new => nth_error opened did = Some true /\ length new = length (fst (nth did l ([], [])))
  | SSpace did => nth_error opened did = Some true
  | SReopen => True
  | SOpen did => (did < length l)%nat
  end.
Definition opened_step (opened : list bool) (o : sop) : list bool :=
  match o with
  | SCreate _ => opened ++ [true]
  | SReopen => map (fun _ => false) opened
  | SOpen did => upd_nth did true opened
  | _ => opened
  end.
Fixpoint proper (cfg : Z) (l : list (list Z * list Z)) (opened : list bool) (os : list sop) : Prop :=
  match os with
  | [] => True
  | o :: rest => proper_step cfg l opened o /\ proper cfg (fst (spec_step l o)) (opened_step opened o) rest
  end.
