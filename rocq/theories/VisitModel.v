(** Model of H5Ovisit and H5Lvisit through the connector: H5VL_log_object_specific
    (src/H5VL_log_obj.cpp:241-307), H5VL_log_link_specific (src/H5VL_log_link.cpp:340-421) and the
    callbacks put in front of the user's (src/H5VL_log_obji.cpp:19-37, src/H5VL_log_linki.cpp:14-32).

    The user's callback is a recorder: it returns 0, and the model gives the list of its arguments.  Of
    the information passed to it the kind of the object and the number of attributes are kept, and
    whether a link is hard or soft. *)
From Verif Require Import Base NameModel LibModel NsModel CopyModel.
From Coq Require Import Ascii String.

(** One loop for both calls of the library.  Links are looked at in the order asked for; the links of an
    object follow it when it is met for the first time.  H5Ovisit ([lk] false) shows an object when it is
    met for the first time, H5Lvisit ([lk] true) shows every link.  Soft links are not followed.
    Called at src/H5VL_log_obj.cpp:293 and src/H5VL_log_link.cpp:404. *)
Fixpoint tour (lk : bool) (it : itype) (io : iorder) (fuel : nat) (os : list obj) (seen : list nat) (p : list string)
  (ls : list (string * target)) {struct fuel} : list (list string * target) * list nat :=
  match fuel with
  | O => ([], seen)
  | S f =>
      (fix go (seen : list nat) (ls : list (string * target)) {struct ls} :=
         match ls with
         | [] => ([], seen)
         | (n, Soft s) :: t =>
             let q := go seen t in ((if lk then [(p ++ [n], Soft s)] else []) ++ fst q, snd q)
         | (n, Hard i) :: t =>
             if existsb (Nat.eqb i) seen
             then let q := go seen t in ((if lk then [(p ++ [n], Hard i)] else []) ++ fst q, snd q)
             else
               let r := tour lk it io f os (i :: seen) (p ++ [n]) (ordered it io (links_of os i)) in
               let q := go (snd r) t in
               ((p ++ [n], Hard i) :: fst r ++ fst q, snd q)
         end) seen ls
  end.

(** The path given to the callback: the names with slashes between them, "." for the object the visit
    starts at.  Library underneath, called at src/H5VL_log_obj.cpp:293, src/H5VL_log_link.cpp:404. *)
Fixpoint join (p : list string) : string :=
  match p with
  | [] => "."
  | [n] => n
  | n :: r => (n ++ String SLASH (join r))%string
  end.

(** What the callback is told besides the path (H5O_info2_t, H5L_info2_t; src/H5VL_log_obji.cpp:19-22,
    src/H5VL_log_linki.cpp:14-17). *)
Inductive info := IObj (k : kind) (nattrs : Z) | ILink (hard : bool).
(** See [info] (src/H5VL_log_obji.cpp:19-22, src/H5VL_log_linki.cpp:14-17). *)
Definition info_of (lk : bool) (os : list obj) (t : target) : info :=
  match t with
  | Soft _ => ILink false
  | Hard i =>
      if lk then ILink true
      else match nth_error os i with
           | Some o => IObj (ob_kind o) (Zlen (ob_attrs o))
           | None => IObj KType 0
           end
  end.

(** H5Ovisit, H5Ovisit_by_name ([lk] false) and H5Lvisit, H5Lvisit_by_name ([lk] true) of the library, with
    paths as lists of names; None: the call fails.  Called at src/H5VL_log_obj.cpp:293 and
    src/H5VL_log_link.cpp:404. *)
Definition lib_tour (lk : bool) (it : itype) (io : iorder) (st : lib) (l : loc) : option (list (list string * info)) :=
  match loc_of st l with
  | Some (i, o) =>
      let v := fst (tour lk it io (S (List.length (l_objs st))) (l_objs st) [i] [] (ordered it io (ob_links o))) in
      let w := map (fun x => (fst x, info_of lk (l_objs st) (snd x))) v in
      if lk then match ob_kind o with KGroup => Some w | _ => None end
      else Some (([], info_of lk (l_objs st) (Hard i)) :: w)
  | None => None
  end.
(** What the callback given to the library is called with (src/H5VL_log_obj.cpp:293,
    src/H5VL_log_link.cpp:404). *)
Definition lib_visit (lk : bool) (it : itype) (io : iorder) (st : lib) (l : loc) : option (list (string * info)) :=
  option_map (map (fun x => (join (fst x), snd x))) (lib_tour lk it io st l).

(** The callback put in front of the user's (obji.cpp:19-37, linki.cpp:14-32): it looks at the first two
    characters of the path and passes the information on as it is. *)
Fixpoint passed (v : list (string * info)) : list (string * info) :=
  match v with
  | [] => []
  | (n, x) :: t => match iterate_name n with Some m => (m, x) :: passed t | None => passed t end
  end.
(** H5Ovisit and H5Lvisit through the connector (obj.cpp:262-304, link.cpp:378-415): the name of the object
    to start at is changed as everywhere else. *)
Definition vol_visit (lk : bool) (it : itype) (io : iorder) (st : lib) (l : loc) : res (option (list (string * info))) :=
  match remap_loc l with
  | Ok l' => Ok (option_map passed (lib_visit lk it io st l'))
  | Err => Ok None
  | UB => UB
  end.

(** H5Oopen, H5Gopen and H5Dopen with a path of several names, below an object (library underneath, called
    with the names made at src/H5VL_logi_util.hpp:109-129). *)
Fixpoint split (s : string) : list string :=
  match s with
  | EmptyString => [EmptyString]
  | String c r =>
      if Ascii.eqb c SLASH then EmptyString :: split r
      else match split r with [] => [String c EmptyString] | n :: t => String c n :: t end
  end.
(** See [split]; "." is the object itself (library underneath, src/H5VL_logi_util.hpp:109-129). *)
Definition lib_find (st : lib) (h : nat) (s : string) : option nat :=
  match obj_of st h with
  | Some (i, o) => if String.eqb s "." then Some i else walk (l_objs st) (ob_links o) (split s)
  | None => None
  end.
(** group.cpp:128-150, dataset.cpp:233-273, obj.cpp:59-79 *)
Definition vol_find (st : lib) (h : nat) (s : string) : res (option nat) :=
  do m <- name_remap s; Ok (lib_find st h m).
