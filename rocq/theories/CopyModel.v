(** Model of the part of h5lreplay that copies the structure of the file: h5lreplay_copy_handler and
    h5lreplay_attr_copy_handler (utils/h5lreplay/h5lreplay_copy.cpp:22-245), called by
    utils/h5lreplay/h5lreplay.cpp:211-223 through the library without the connector.

    A path is a list of components.  Not modelled: datatypes, extents (ReplayDataModel.v), property
    lists.  An error of a handler ends the visit and with it the replay (h5lreplay.cpp:221-223). *)
From Verif Require Import Base NameModel LibModel NsModel.
From Coq Require Import Ascii String.

(** H5Ovisit in order of creation: every object once, under the first path that leads to it; soft links
    are not followed.  This is the library.  [fuel] bounds the depth.
    Called at utils/h5lreplay/h5lreplay.cpp:219-223. *)
Definition links_of (os : list obj) (i : nat) : list (string * target) :=
  match nth_error os i with Some o => ob_links o | None => [] end.
(** See [links_of] (utils/h5lreplay/h5lreplay.cpp:219-223). *)
Fixpoint visit (fuel : nat) (os : list obj) (seen : list nat) (p : list string) (ls : list (string * target)) {struct fuel}
  : list (list string * nat) * list nat :=
  match fuel with
  | O => ([], seen)
  | S f =>
      (fix go (seen : list nat) (ls : list (string * target)) {struct ls} :=
         match ls with
         | [] => ([], seen)
         | (_, Soft _) :: t => go seen t
         | (n, Hard i) :: t =>
             if existsb (Nat.eqb i) seen then go seen t
             else
               let r := visit f os (i :: seen) (p ++ [n]) (links_of os i) in
               let q := go (snd r) t in
               ((p ++ [n], i) :: fst r ++ fst q, snd q)
         end) seen ls
  end.
(** The visit of the whole file (utils/h5lreplay/h5lreplay.cpp:219-223). *)
Definition visit_file (fuel : nat) (os : list obj) : list (list string * nat) :=
  fst (visit fuel os [0%nat] [] (links_of os 0)).

(** Opening a path below the root group.
    H5Dopen2 and H5Gopen2 of utils/h5lreplay/h5lreplay_copy.cpp:62, :134. *)
Fixpoint walk (os : list obj) (ls : list (string * target)) (p : list string) : option nat :=
  match p with
  | [] => None
  | n :: r =>
      match resolve 16 ls n with
      | Some i => match r with [] => Some i | _ => walk os (links_of os i) r end
      | None => None
      end
  end.

(** The file written: for each path the kind and the attributes of the object.
    It is made at utils/h5lreplay/h5lreplay.cpp:200-223. *)
Definition rtree := list (list string * (kind * list (string * list Z))).
(** Equality of paths (library; used for utils/h5lreplay/h5lreplay_copy.cpp:36-150). *)
Definition path_eqb (p q : list string) : bool := if list_eq_dec string_dec p q then true else false.
(** The object at a path (library; used for utils/h5lreplay/h5lreplay_copy.cpp:36-150). *)
Fixpoint look (p : list string) (t : rtree) : option (kind * list (string * list Z)) :=
  match t with [] => None | (q, x) :: u => if path_eqb p q then Some x else look p u end.
(** H5Dcreate2 and H5Gcreate2 in the new file.
    Called at utils/h5lreplay/h5lreplay_copy.cpp:104, :138. *)
Definition rcreate (t : rtree) (p : list string) (k : kind) (a : list (string * list Z)) : res rtree :=
  match look p t with
  | Some _ => Err
  | None =>
      match removelast p with
      | [] => Ok (t ++ [(p, (k, a))])
      | q => match look q t with Some (KGroup, _) => Ok (t ++ [(p, (k, a))]) | _ => Err end
      end
  end.

(** copy.cpp:165-245.  The test of the name and its shortening are those of the scan at opening
    (NameModel.dset_visit); the attribute is opened before its name is shortened. *)
Fixpoint copy_attrs (l acc : list (string * list Z)) : res (list (string * list Z)) :=
  match l with
  | [] => Ok acc
  | (n, v) :: t =>
      match dset_visit n with
      | None => copy_attrs t acc
      | Some m => match assoc m acc with Some _ => Err | None => copy_attrs t (acc ++ [(m, v)]) end
      end
  end.

(** The test of the type of the object (utils/h5lreplay/h5lreplay_copy.cpp:51, :132). *)
Definition is_kind (k : kind) (o : obj) : bool :=
  match k, ob_kind o with KGroup, KGroup | KDset, KDset | KType, KType => true | _, _ => false end.
(** copy.cpp:36-150: the name is shortened before the source is opened.  The type of the object is the one
    the visit found. *)
Definition copy_one (os : list obj) (t : rtree) (x : list string * nat) : res rtree :=
  match fst x with
  | [] => Ok t
  | c :: r =>
      match dset_visit c with
      | None => Ok t
      | Some c' =>
          let p := c' :: r in
          match nth_error os (snd x), walk os (links_of os 0) p with
          | Some o, Some j =>
              match nth_error os j with
              | Some s =>
                  if is_kind (ob_kind o) s then
                    match ob_kind o with
                    (* copy.cpp:50-129 *)
                    | KDset =>
                        if has_attrs ["_dims"; "_ID"]%string s then
                          do a <- copy_attrs (ordered ByName Inc (ob_attrs s)) []; rcreate t p KDset a
                        else Err
                    (* copy.cpp:130-143 *)
                    | KGroup => do a <- copy_attrs (ordered ByName Inc (ob_attrs s)) []; rcreate t p KGroup a
                    (* copy.cpp:144-147 *)
                    | KType => rcreate t p KType (ob_attrs s)
                    end
                  else Err
              | None => Err
              end
          | _, _ => Err
          end
      end
  end.
(** The handler for every object visited (utils/h5lreplay/h5lreplay_copy.cpp:22-160). *)
Fixpoint copy_each (os : list obj) (t : rtree) (l : list (list string * nat)) : res rtree :=
  match l with [] => Ok t | x :: u => do t' <- copy_one os t x; copy_each os t' u end.
(** The attributes of the file, then the objects (h5lreplay.cpp:211-223). *)
Definition copy_file (fuel : nat) (os : list obj) : res (list (string * list Z) * rtree) :=
  match os with
  | [] => Err
  | r :: _ =>
      do a <- copy_attrs (ordered ByName Inc (ob_attrs r)) [];
      do t <- copy_each os [] (visit_file fuel os);
      Ok (a, t)
  end.
