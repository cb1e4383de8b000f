(** Specification of property lists and settings. *)
From Verif Require Import Base CfgModel.
Local Open Scope string_scope.

(** ** Set and get *)
Definition all_props : list prop :=
  [P_buffered; P_nb_buffer_size; P_idx_buffer_size; P_meta_merge; P_meta_share; P_meta_zip; P_sel_encoding;
   P_data_layout; P_subfiling; P_single_subfile_read; P_passthru].
(** The ones for which setting works. *)
Definition working : list prop :=
  [P_buffered; P_meta_share; P_meta_zip; P_data_layout; P_subfiling; P_single_subfile_read; P_passthru].
(** The value fits the C type of the property (signed; hbool_t holds 0 and 1). *)
Definition fits (p : prop) (v : Z) : Prop := - 2 ^ (8 * Z.of_nat (p_obj p) - 1) <= v < 2 ^ (8 * Z.of_nat (p_obj p) - 1).
(** A sequence of setter calls on one list; a call that fails changes nothing. *)
Fixpoint run_sets (ops : list (prop * Z)) (l : plist) : res plist :=
  match ops with
  | [] => Ok l
  | (p, v) :: t => match set_prop p v l with Ok l1 => run_sets t l1 | Err => run_sets t l | UB => UB end
  end.
(** The value last set. *)
Fixpoint last_set (n : string) (ops : list (prop * Z)) : option Z :=
  match ops with
  | [] => None
  | (p, v) :: t => match last_set n t with Some w => Some w | None => if String.eqb n (p_name p) then Some v else None end
  end.
(** What the user expects a property to be on a list of class [c]. *)
Definition expected (p : prop) (c : class) (ops : list (prop * Z)) : Z :=
  if class_eqb c (p_class p) then match last_set (p_name p) ops with Some v => v | None => p_default p end else p_default p.
Definition sets_ok (ops : list (prop * Z)) : Prop := Forall (fun o => In (fst o) working /\ fits (fst o) (snd o)) ops.

(** ** Settings

    The environment, if set, decides; otherwise the property. *)
Definition asked (e : option string) (on : string -> bool) (v : Z) : bool :=
  match e with Some s => on s | None => negb (v =? 0)%Z end.
Definition is (a b : string) : bool := String.eqb b a.
(** The subfiles asked for. *)
Definition subfiles (e : option string) (v : Z) : Z :=
  match e with Some "" => -1 | Some s => ato s | None => v end.
(** The bits of the settings word of a new file; [fops] and [cops] are the calls that made the access
    and the creation property list. *)
Definition wanted (ev : env) (fops cops : list (prop * Z)) (k : Z) : bool :=
  if (k =? 0)%Z then asked (ev "H5VL_LOG_METADATA_MERGE") (is "1") 0
  else if (k =? 1)%Z then asked (ev "H5VL_LOG_SEL_ENCODING") (fun s => negb (is "canonical" s)) 1
  else if (k =? 2)%Z then asked (ev "H5VL_LOG_METADATA_ZIP") (is "1") (expected P_meta_zip FAPL fops)
  else if (k =? 3)%Z then asked (ev "H5VL_LOG_METADATA_SHARE") (is "1") (expected P_meta_share FAPL fops)
  else if (k =? 4)%Z then asked (ev "H5VL_LOG_PASSTHRU") (is "1") (expected P_passthru FAPL fops)
  else if (k =? 8)%Z then (expected P_data_layout FCPL cops =? 1)%Z
  else if (k =? 9)%Z then negb (subfiles (ev "H5VL_LOG_NSUBFILES") (expected P_subfiling FCPL cops) =? 0)%Z
  else if (k =? 10)%Z then asked (ev "H5VL_LOG_SINGLE_SUBFILE_READ") (is "1") 0
  else false.
(** Variables holding numbers hold numbers of the type used. *)
Definition numbers_ok (ev : env) : Prop :=
  (forall s, ev "H5VL_LOG_IDX_BSIZE" = Some s -> - 2 ^ 63 <= ato s < 2 ^ 63) /\
  (forall s, ev "H5VL_LOG_NSUBFILES" = Some s -> - 2 ^ 31 <= ato s < 2 ^ 31).
Definition no_env : env := fun _ => None.
Definition one_env (n v : string) : env := fun m => if String.eqb m n then Some v else None.
