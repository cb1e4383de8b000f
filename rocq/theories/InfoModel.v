(** Settings of the connector as text and as objects (src/H5VL_log_info.cpp). *)
From Verif Require Import Base.

(** Texts are lists of character codes without the terminating zero.
    The text is in the formats of src/H5VL_log_info.cpp:159-160. *)
Definition under_vol : list Z := [117;110;100;101;114;95;118;111;108;61].        (* under_vol= *)
(** src/H5VL_log_info.cpp:159-160. *)
Definition under_info : list Z := [59;117;110;100;101;114;95;105;110;102;111;61;123].  (* ;under_info={ *)
(** src/H5VL_log_info.cpp:188-200. *)
Definition open_brace : Z := 123.
(** src/H5VL_log_info.cpp:188-200. *)
Definition close_brace : Z := 125.

(** [%u] of printf.  Used at src/H5VL_log_info.cpp:159-160. *)
Fixpoint dec_aux (fuel : nat) (n : Z) (acc : list Z) : list Z :=
  match fuel with
  | O => acc
  | S f => let acc' := (48 + n mod 10) :: acc in
           if n / 10 =? 0 then acc' else dec_aux f (n / 10) acc'
  end.
(** See [dec_aux] (src/H5VL_log_info.cpp:159-160). *)
Definition dec (n : Z) : list Z := dec_aux 20 n [].

(** H5VL_log_info_to_str (src/H5VL_log_info.cpp:133-164): [value] is the number of the underlying
    connector ((unsigned)-1 when it is unknown), [under] the text of its own settings, empty when
    it has none.  The text is written into a buffer of 32 + strlen(under) bytes without a check. *)
Definition info_to_str (value : Z) (under : list Z) : res (list Z) :=
  let s := under_vol ++ dec value ++ under_info ++ under ++ [close_brace] in
  if Zlen s + 1 <=? 32 + Zlen under then Ok s else UB.

(** [%u] of sscanf, without leading blanks or a sign: the digits at the front.
    Used at src/H5VL_log_info.cpp:188. *)
Fixpoint scan_digits (l : list Z) (acc : Z) : Z * list Z :=
  match l with
  | c :: rest => if (48 <=? c) && (c <=? 57) then scan_digits rest (10 * acc + (c - 48)) else (acc, l)
  | [] => (acc, [])
  end.

(** The literal characters of the format (src/H5VL_log_info.cpp:188). *)
Fixpoint strip (p l : list Z) : option (list Z) :=
  match p, l with
  | [], _ => Some l
  | a :: p', b :: l' => if a =? b then strip p' l' else None
  | _, [] => None
  end.

(** sscanf with "under_vol=%u;" (src/H5VL_log_info.cpp:188): without a number the variable stays
    indeterminate. *)
Definition scan_value (s : list Z) : res Z :=
  match strip under_vol s with
  | Some (c :: rest) =>
      if (48 <=? c) && (c <=? 57) then Ok (fst (scan_digits (c :: rest) 0) mod 2 ^ 32) else UB
  | _ => UB
  end.

(** strchr and strrchr: position of the first and of the last occurrence.
    Used at src/H5VL_log_info.cpp:189-200. *)
Fixpoint find_first (c : Z) (l : list Z) : option nat :=
  match l with
  | [] => None
  | x :: r => if x =? c then Some O else option_map S (find_first c r)
  end.
(** See [find_first] (src/H5VL_log_info.cpp:189-200). *)
Fixpoint find_last (c : Z) (l : list Z) : option nat :=
  match l with
  | [] => None
  | x :: r => match find_last c r with
              | Some k => Some (S k)
              | None => if x =? c then Some O else None
              end
  end.

(** H5VL_log_str_to_info (src/H5VL_log_info.cpp:177-221): number of the underlying connector and
    text of its settings, if any.  [Err] is the failed assertion; with one brace missing the
    comparison is with a null pointer, which is taken to be below every other. *)
Definition str_to_info (s : list Z) : res (Z * option (list Z)) :=
  do v <- scan_value s;
  match find_first open_brace s, find_last close_brace s with
  | Some a, Some b =>
      if (a <? b)%nat then
        Ok (v, if (b =? a + 1)%nat then None else Some (firstn (b - a - 1) (skipn (a + 1) s)))
      else Err
  | None, Some b => UB
  | _, None => Err
  end.

(** A stack of connectors, each with the number of the one below, whose settings are texts of the
    same form (HDF5's pass-through connector uses the same one); the lowest has no settings.
    H5VLconnector_info_to_str below src/H5VL_log_info.cpp:133-164. *)
Fixpoint stack_to_str (values : list Z) : res (list Z) :=
  match values with
  | [] => Ok []
  | v :: rest => do u <- stack_to_str rest; info_to_str v u
  end.
(** H5VLconnector_str_to_info below src/H5VL_log_info.cpp:175-216. *)
Fixpoint str_to_stack (fuel : nat) (s : list Z) : res (list Z) :=
  match fuel with
  | O => Err
  | S f =>
      do r <- str_to_info s;
      match r with
      | (v, None) => Ok [v]
      | (v, Some u) => do l <- str_to_stack f u; Ok (v :: l)
      end
  end.

(** ** References to the underlying connector *)

(** Operations on settings objects: from text (:177-221), by H5Pset_vol_log for a file access property list whose
    connector is [v] (src/H5VL_log.cpp:48-70; simplified: a connector without settings, as HDF5's own), by H5Fcreate,
    H5Fopen, H5Fdelete or H5Fis_accessible with a list whose settings are over [v] (src/H5VL_log_file.cpp:82, :230, :424;
    the settings of the connector below are taken to be absent), copy of object [i] (:42-57) and release of object [i] (:99-122).  The state is the list of live objects (their connectors) and the
    number of references to every connector. *)
Inductive iop := IText (v : Z) | ISet (v : Z) | IUse (v : Z) | ICopy (i : nat) | IFree (i : nat).
(** See [iop] (src/H5VL_log_info.cpp:41-131). *)
Record istate := mkistate { i_objs : list (option Z); i_refs : Z -> Z }.

(** H5Iinc_ref and H5Idec_ref of HDF5 (called at src/H5VL_log_info.cpp:41-131). *)
Definition add_ref (v d : Z) (refs : Z -> Z) : Z -> Z := fun u => if u =? v then refs u + d else refs u.

(** H5VLregister_connector_by_value returns an identifier with a new reference; H5VL_logi_inc_ref
    (:213) takes another.  H5Pget_vol_id gives a new reference (src/H5VL_log.cpp:58), which is not returned; the
    property list keeps a copy (:42-57) of the settings on the stack (src/H5VL_log.cpp:63).  The copy made by H5Pget_vol_info for a call on a file is given to free
    (src/H5VL_log_file.cpp:186, :317, :428) instead of H5VL_log_info_free: its memory is given back, its reference is not.
    What the file itself and its property lists hold is returned when the file is closed (src/H5VL_log_obji.cpp:82-96). *)
Definition istep (s : istate) (o : iop) : res istate :=
  match o with
  | IText v => Ok (mkistate (i_objs s ++ [Some v]) (add_ref v 1 (add_ref v 1 (i_refs s))))
  | ISet v => Ok (mkistate (i_objs s ++ [Some v]) (add_ref v 1 (add_ref v 1 (i_refs s))))
  | IUse v =>
      if existsb (fun o => match o with Some w => w =? v | None => false end) (i_objs s)
      then Ok (mkistate (i_objs s) (add_ref v 1 (i_refs s))) else UB
  | ICopy i =>
      match nth_error (i_objs s) i with
      | Some (Some v) => Ok (mkistate (i_objs s ++ [Some v]) (add_ref v 1 (i_refs s)))
      | _ => UB
      end
  | IFree i =>
      match nth_error (i_objs s) i with
      | Some (Some v) => Ok (mkistate (upd_nth i None (i_objs s)) (add_ref v (-1) (i_refs s)))
      | _ => UB
      end
  end.
(** A history of such operations (driver of the model over [istep]; src/H5VL_log_info.cpp:41-216).
    *)
Fixpoint irun (s : istate) (os : list iop) : res istate :=
  match os with
  | [] => Ok s
  | o :: rest => do s' <- istep s o; irun s' rest
  end.

(** The number of live settings objects over connector [v], each of which holds one reference.
    Specification, no code of /repo. *)
Definition held (v : Z) (l : list (option Z)) : Z :=
  Zlen (filter (fun o => match o with Some w => w =? v | None => false end) l).
