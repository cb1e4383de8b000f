(** Vocabulary for statements about every history, legal or not. *)
From Verif Require Import Base Spec MetaModel SysModel.

(** What a program observes of a run: the buffers of all reads, or how it ends. *)
Definition observed {A B} (r : res (A * B)) : res B :=
  match r with Ok p => Ok (snd p) | Err => Err | UB => UB end.

(** The buffers of the last call. *)
Definition last_read {A B} (r : res (A * list (list B))) : res (list B) :=
  match r with Ok p => Ok (last (snd p) []) | Err => Err | UB => UB end.

(** Writes that select something carry data. *)
Definition with_data (o : op) : Prop :=
  match o with OWrite _ _ sels data => sels <> [] -> data <> [] | _ => True end.
