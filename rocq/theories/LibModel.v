(** The part of the HDF5 library below the connector that deals with links and attributes: objects
    with attributes and, for groups, links.  This is a model of external software; it is used twice:
    as what the connector calls, and, run directly, as what a user expects to see.

    Names are single components of paths (NameModel.v treats names with slashes).  Attributes are
    kept in the order of creation, as are links; a renamed attribute keeps its place.  Creation
    orders are assumed to be tracked when an index by creation order is used. *)
From Verif Require Import Base NameModel.
From Coq Require Import Ascii String.

(** Objects of HDF5: group, dataset, committed datatype (library underneath, no code of /repo). *)
Inductive kind := KGroup | KDset | KType.
(** A soft link names another link of the same group.  Library underneath, no code of /repo. *)
Inductive target := Hard (i : nat) | Soft (n : string).
(** An object: kind, attributes, links (library underneath, no code of /repo). *)
Record obj := mkobj { ob_kind : kind; ob_attrs : list (string * list Z); ob_links : list (string * target) }.

(** Identifiers held by the program: that of the file, or of an opened object.
    Library underneath, no code of /repo. *)
Inductive htype := TFile | TObj (k : kind).
(** What an identifier stands for (library underneath, no code of /repo). *)
Record hnd := mkh { h_type : htype; h_obj : nat }.
(** Object 0 is the root group; identifier 0 is that of the file.  Objects no longer reachable are kept:
    nothing in the calls below can tell.  Library underneath, no code of /repo. *)
Record lib := mklib { l_objs : list obj; l_hnds : list hnd }.

(** H5_index_t (library underneath, no code of /repo). *)
Inductive itype := ByName | ByCrt.
(** H5_iter_order_t (library underneath, no code of /repo). *)
Inductive iorder := Inc | Dec.
(** An object given by an identifier, or by an identifier and a name.
    Library underneath, no code of /repo. *)
Inductive loc := Self (h : nat) | Named (h : nat) (n : string).

(** The calls of the API, named at each constructor (library underneath, no code of /repo). *)
Inductive call :=
| CGroup (h : nat) (n : string)                                  (* H5Gcreate *)
| CDset (h : nat) (n : string)                                   (* H5Dcreate *)
| COpen (h : nat) (n : string)                                   (* H5Gopen, H5Dopen, H5Oopen *)
| COpenIdx (h : nat) (it : itype) (io : iorder) (k : nat)        (* H5Oopen_by_idx *)
| CExists (h : nat) (n : string)                                 (* H5Lexists *)
| CDelete (h : nat) (n : string)                                 (* H5Ldelete *)
| CMove (h1 : option nat) (n1 : string) (h2 : option nat) (n2 : string)  (* H5Lmove; None: H5L_SAME_LOC *)
| CCopy (h1 : nat) (n1 : string) (h2 : nat) (n2 : string)        (* H5Lcopy *)
| CHard (h1 : nat) (n1 : string) (h2 : nat) (n2 : string)        (* H5Lcreate_hard, new link second *)
| CSoft (t : string) (h : nat) (n : string)                      (* H5Lcreate_soft *)
| CList (h : nat) (it : itype) (io : iorder)                     (* H5Literate: the names shown *)
| CNlinks (h : nat)                                              (* H5Gget_info: number of links *)
| CNameIdx (h : nat) (it : itype) (io : iorder) (k : nat)        (* H5Lget_name_by_idx *)
| AMake (l : loc) (n : string) (v : list Z)                      (* H5Acreate, H5Acreate_by_name; H5Awrite *)
| AGet (l : loc) (n : string)                                    (* H5Aopen, H5Aopen_by_name; H5Aread *)
| APut (l : loc) (n : string) (v : list Z)                       (* H5Aopen, H5Aopen_by_name; H5Awrite *)
| AHas (l : loc) (n : string)                                    (* H5Aexists, H5Aexists_by_name *)
| ADel (l : loc) (n : string)                                    (* H5Adelete, H5Adelete_by_name *)
| ARen (l : loc) (old new : string)                              (* H5Arename, H5Arename_by_name *)
| AInfo (l : loc) (n : string)                                   (* H5Aget_info_by_name: size of the value *)
| AOpenIdx (l : loc) (it : itype) (io : iorder) (k : nat)        (* H5Aopen_by_idx; H5Aread *)
| ANameIdx (l : loc) (it : itype) (io : iorder) (k : nat)        (* H5Aget_name_by_idx *)
| AInfoIdx (l : loc) (it : itype) (io : iorder) (k : nat)        (* H5Aget_info_by_idx: size of the value *)
| ADelIdx (l : loc) (it : itype) (io : iorder) (k : nat)         (* H5Adelete_by_idx *)
| AList (l : loc) (it : itype) (io : iorder)                     (* H5Aiterate: the names shown *)
| ANum (l : loc)                                                 (* H5Oget_info: num_attrs *)
| CReopen.                                                       (* H5Fclose of everything, H5Fopen *)

(** What a call returns (library underneath, no code of /repo). *)
Inductive result := RFail | ROk | RBool (b : bool) | RVal (v : list Z) | RNum (n : Z) | RName (s : string)
  | RNames (l : list string).

Section Assoc.
  Context {A : Type}.
  Fixpoint assoc (n : string) (l : list (string * A)) : option A :=
    match l with [] => None | (m, a) :: t => if String.eqb n m then Some a else assoc n t end.
  Definition drop (n : string) (l : list (string * A)) : list (string * A) :=
    filter (fun p => negb (String.eqb n (fst p))) l.
  Definition setv (n : string) (a : A) (l : list (string * A)) : list (string * A) :=
    map (fun p => if String.eqb n (fst p) then (fst p, a) else p) l.
  Definition rename (old new : string) (l : list (string * A)) : list (string * A) :=
    map (fun p => if String.eqb old (fst p) then (new, snd p) else p) l.

  (** Order of names: bytes, as strcmp. *)
  Fixpoint sleb (a b : string) : bool :=
    match a, b with
    | EmptyString, _ => true
    | String _ _, EmptyString => false
    | String c a', String d b' =>
        if (nat_of_ascii c <? nat_of_ascii d)%nat then true
        else if (nat_of_ascii d <? nat_of_ascii c)%nat then false else sleb a' b'
    end.
  Fixpoint insert (p : string * A) (l : list (string * A)) : list (string * A) :=
    match l with
    | [] => [p]
    | q :: t => if sleb (fst p) (fst q) then p :: l else q :: insert p t
    end.
  Definition ordered (it : itype) (io : iorder) (l : list (string * A)) : list (string * A) :=
    let l1 := match it with ByCrt => l | ByName => fold_right insert [] l end in
    match io with Inc => l1 | Dec => rev l1 end.
End Assoc.

(** At most 16 soft links are followed.  Library underneath, no code of /repo. *)
Fixpoint resolve (fuel : nat) (ls : list (string * target)) (n : string) : option nat :=
  match assoc n ls with
  | Some (Hard i) => Some i
  | Some (Soft t) => match fuel with O => None | S f => resolve f ls t end
  | None => None
  end.

(** The object of an identifier (library underneath, no code of /repo). *)
Definition obj_of (st : lib) (h : nat) : option (nat * obj) :=
  match nth_error (l_hnds st) h with
  | Some hd => match nth_error (l_objs st) (h_obj hd) with Some o => Some (h_obj hd, o) | None => None end
  | None => None
  end.
(** The object of a location (library underneath, no code of /repo). *)
Definition loc_of (st : lib) (l : loc) : option (nat * obj) :=
  match l with
  | Self h => obj_of st h
  | Named h n =>
      match obj_of st h with
      | Some (_, g) =>
          match resolve 16 (ob_links g) n with
          | Some i => match nth_error (l_objs st) i with Some o => Some (i, o) | None => None end
          | None => None
          end
      | None => None
      end
  end.
(** Helper of [lib_step] (library underneath, no code of /repo). *)
Definition set_obj (st : lib) (i : nat) (o : obj) : lib := mklib (upd_nth i o (l_objs st)) (l_hnds st).
(** Helper of [lib_step] (library underneath, no code of /repo). *)
Definition set_attrs (o : obj) (a : list (string * list Z)) : obj := mkobj (ob_kind o) a (ob_links o).
(** Helper of [lib_step] (library underneath, no code of /repo). *)
Definition set_links (o : obj) (l : list (string * target)) : obj := mkobj (ob_kind o) (ob_attrs o) l.
(** A new identifier (library underneath, no code of /repo). *)
Definition push (st : lib) (k : kind) (i : nat) : lib := mklib (l_objs st) (l_hnds st ++ [mkh (TObj k) i]).

(** Adding a link fails when the place is no group or the name is taken.
    Library underneath, no code of /repo. *)
Definition add_link (st : lib) (h : nat) (n : string) (t : target) : option lib :=
  match obj_of st h with
  | Some (i, g) =>
      match ob_kind g, assoc n (ob_links g) with
      | KGroup, None => Some (set_obj st i (set_links g (ob_links g ++ [(n, t)])))
      | _, _ => None
      end
  | None => None
  end.
(** The link of a name (library underneath, no code of /repo). *)
Definition get_link (st : lib) (h : nat) (n : string) : option target :=
  match obj_of st h with Some (_, g) => assoc n (ob_links g) | None => None end.
(** Removing a link (library underneath, no code of /repo). *)
Definition del_link (st : lib) (h : nat) (n : string) : lib :=
  match obj_of st h with Some (i, g) => set_obj st i (set_links g (drop n (ob_links g))) | None => st end.
(** A new object under a name (library underneath, no code of /repo). *)
Definition new_obj (st : lib) (h : nat) (n : string) (k : kind) : lib * result :=
  let i := List.length (l_objs st) in
  match add_link st h n (Hard i) with
  | Some st1 => (mklib (l_objs st1 ++ [mkobj k [] []]) (l_hnds st1 ++ [mkh (TObj k) i]), ROk)
  | None => (st, RFail)
  end.
(** Helper of [lib_step] (library underneath, no code of /repo). *)
Definition or_fail {A} (st : lib) (o : option A) (f : A -> lib * result) : lib * result :=
  match o with Some a => f a | None => (st, RFail) end.
(** H5L_SAME_LOC: one of the two places may be left out (library underneath, no code of /repo). *)
Definition same_loc (h1 h2 : option nat) : option (nat * nat) :=
  match h1, h2 with
  | Some a, Some b => Some (a, b)
  | Some a, None => Some (a, a)
  | None, Some b => Some (b, b)
  | None, None => None
  end.
(** A new link (library underneath, no code of /repo). *)
Definition put_link (st : lib) (h : nat) (n : string) (t : target) : lib * result :=
  or_fail st (add_link st h n t) (fun st' => (st', ROk)).

(** One call of the library (library underneath, no code of /repo). *)
Definition lib_step (st : lib) (c : call) : lib * result :=
  match c with
  | CGroup h n => new_obj st h n KGroup
  | CDset h n => new_obj st h n KDset
  | COpen h n => or_fail st (loc_of st (Named h n)) (fun p => (push st (ob_kind (snd p)) (fst p), ROk))
  | COpenIdx h it io k =>
      or_fail st (obj_of st h) (fun g =>
      or_fail st (nth_error (ordered it io (ob_links (snd g))) k) (fun q =>
      or_fail st (loc_of st (Named h (fst q))) (fun p => (push st (ob_kind (snd p)) (fst p), ROk))))
  | CExists h n => or_fail st (obj_of st h) (fun g =>
      (st, RBool (match assoc n (ob_links (snd g)) with Some _ => true | None => false end)))
  | CDelete h n => or_fail st (get_link st h n) (fun _ => (del_link st h n, ROk))
  | CMove a n1 b n2 =>
      or_fail st (same_loc a b) (fun hh =>
      or_fail st (get_link st (fst hh) n1) (fun t =>
      or_fail st (add_link st (snd hh) n2 t) (fun _ =>
        put_link (del_link st (fst hh) n1) (snd hh) n2 t)))
  | CCopy h1 n1 h2 n2 => or_fail st (get_link st h1 n1) (fun t => put_link st h2 n2 t)
  | CHard h1 n1 h2 n2 => or_fail st (loc_of st (Named h1 n1)) (fun p => put_link st h2 n2 (Hard (fst p)))
  | CSoft t h n => put_link st h n (Soft t)
  | CList h it io => or_fail st (obj_of st h) (fun g => (st, RNames (map fst (ordered it io (ob_links (snd g))))))
  | CNlinks h => or_fail st (obj_of st h) (fun g => (st, RNum (Zlen (ob_links (snd g)))))
  | CNameIdx h it io k =>
      or_fail st (obj_of st h) (fun g =>
      or_fail st (nth_error (ordered it io (ob_links (snd g))) k) (fun q => (st, RName (fst q))))
  | AMake l n v =>
      or_fail st (loc_of st l) (fun p =>
      match assoc n (ob_attrs (snd p)) with
      | None => (set_obj st (fst p) (set_attrs (snd p) (ob_attrs (snd p) ++ [(n, v)])), ROk)
      | Some _ => (st, RFail)
      end)
  | AGet l n => or_fail st (loc_of st l) (fun p => or_fail st (assoc n (ob_attrs (snd p))) (fun v => (st, RVal v)))
  | APut l n v =>
      or_fail st (loc_of st l) (fun p => or_fail st (assoc n (ob_attrs (snd p))) (fun _ =>
        (set_obj st (fst p) (set_attrs (snd p) (setv n v (ob_attrs (snd p)))), ROk)))
  | AHas l n => or_fail st (loc_of st l) (fun p =>
      (st, RBool (match assoc n (ob_attrs (snd p)) with Some _ => true | None => false end)))
  | ADel l n =>
      or_fail st (loc_of st l) (fun p => or_fail st (assoc n (ob_attrs (snd p))) (fun _ =>
        (set_obj st (fst p) (set_attrs (snd p) (drop n (ob_attrs (snd p)))), ROk)))
  | ARen l old new =>
      or_fail st (loc_of st l) (fun p => or_fail st (assoc old (ob_attrs (snd p))) (fun _ =>
        match assoc new (ob_attrs (snd p)) with
        | None => (set_obj st (fst p) (set_attrs (snd p) (rename old new (ob_attrs (snd p)))), ROk)
        | Some _ => (st, RFail)
        end))
  | AInfo l n => or_fail st (loc_of st l) (fun p => or_fail st (assoc n (ob_attrs (snd p))) (fun v => (st, RNum (Zlen v))))
  | AOpenIdx l it io k => or_fail st (loc_of st l) (fun p =>
      or_fail st (nth_error (ordered it io (ob_attrs (snd p))) k) (fun q => (st, RVal (snd q))))
  | ANameIdx l it io k => or_fail st (loc_of st l) (fun p =>
      or_fail st (nth_error (ordered it io (ob_attrs (snd p))) k) (fun q => (st, RName (fst q))))
  | AInfoIdx l it io k => or_fail st (loc_of st l) (fun p =>
      or_fail st (nth_error (ordered it io (ob_attrs (snd p))) k) (fun q => (st, RNum (Zlen (snd q)))))
  | ADelIdx l it io k => or_fail st (loc_of st l) (fun p =>
      or_fail st (nth_error (ordered it io (ob_attrs (snd p))) k) (fun q =>
        (set_obj st (fst p) (set_attrs (snd p) (drop (fst q) (ob_attrs (snd p)))), ROk)))
  | AList l it io => or_fail st (loc_of st l) (fun p => (st, RNames (map fst (ordered it io (ob_attrs (snd p))))))
  | ANum l => or_fail st (loc_of st l) (fun p => (st, RNum (Zlen (ob_attrs (snd p)))))
  | CReopen => (mklib (l_objs st) [mkh TFile 0], ROk)
  end.

(** A new file (library underneath, no code of /repo). *)
Definition lib0 : lib := mklib [mkobj KGroup [] []] [mkh TFile 0].
(** A sequence of calls (library underneath, no code of /repo). *)
Fixpoint lib_run (st : lib) (cs : list call) : lib * list result :=
  match cs with
  | [] => (st, [])
  | c :: t => let r := lib_step st c in let s := lib_run (fst r) t in (fst s, snd r :: snd s)
  end.
