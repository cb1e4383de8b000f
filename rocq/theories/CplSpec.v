(** What a program expects of dataset creation property lists. *)
From Verif Require Import Base CplModel.

(** Lists of the program; for every dataset the list it was created with. *)
Record rworld := mkrw { rw_lists : list plist; rw_sets : list plist }.
Definition rworld0 : rworld := mkrw [] [].
Definition chg (w : rworld) (p : nat) (f : plist -> plist) : rworld * panswer :=
  match nth_error (rw_lists w) p with
  | Some l => (mkrw (upd_nth p (f l) (rw_lists w)) (rw_sets w), PDone)
  | None => (w, PFail)
  end.
(** A list changes only when it is set; a dataset keeps its list for ever. *)
Definition rexec (w : rworld) (c : pcall) : rworld * panswer :=
  match c with
  | PCreate => (mkrw (rw_lists w ++ [plist0]) (rw_sets w), PDone)
  | PLayout p y => chg w p (fun l => mkpl y (pl_filters l) (pl_fill l))
  | PFilter p f => chg w p (fun l => mkpl (pl_layout l) (pl_filters l ++ [f]) (pl_fill l))
  | PFill p f => chg w p (fun l => mkpl (pl_layout l) (pl_filters l) f)
  | DCreate p fail => match nth_error (rw_lists w) p with
                      | Some l => if fail : bool then (w, PFail) else (mkrw (rw_lists w) (rw_sets w ++ [l]), PDone)
                      | None => (w, PFail)
                      end
  | DOther p ext => match nth_error (rw_lists w) p with
                    | Some l => (w, if plain_ok l ext then PDone else PFail)
                    | None => (w, PFail)
                    end
  | DGet d => match nth_error (rw_sets w) d with
              | Some l => (mkrw (rw_lists w ++ [l]) (rw_sets w), PDone)
              | None => (w, PFail)
              end
  | Reopen => (w, PDone)
  end.
Fixpoint rexecs (w : rworld) (cs : list pcall) : rworld * list panswer :=
  match cs with
  | [] => (w, [])
  | c :: rest => let '(w1, a) := rexec w c in let '(w2, l) := rexecs w1 rest in (w2, a :: l)
  end.

(** The lists given to H5Dcreate in the log file are contiguous and without filters. *)
Fixpoint plain_lists (w : rworld) (cs : list pcall) : Prop :=
  match cs with
  | [] => True
  | c :: rest =>
      match c with
      | DCreate p _ => forall l, nth_error (rw_lists w) p = Some l -> pl_layout l = LContiguous /\ pl_filters l = []
      | _ => True
      end /\ plain_lists (fst (rexec w c)) rest
  end.

(** The calls that set the layout of list [p], and those that reopen the file. *)
Definition sets_layout (p : nat) (c : pcall) : bool := match c with PLayout q _ => (q =? p)%nat | _ => false end.
Definition no_mandatory (cs : list pcall) : Prop := Forall (fun c => match c with PFilter _ f => snd f = true | _ => True end) cs.

(** Reading a whole block of [n] bytes of a dataset whose data lie at [foff], when it has no filters any more
    (src/H5VL_logi_nb.cpp:341-378). *)
Definition raw_block (file : bytemap) (foff : Z) (n : nat) : list Z := get file foff n.
