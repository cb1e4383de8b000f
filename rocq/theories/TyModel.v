(** Datatypes with parts of variable length in H5Dcreate and H5Dwrite. *)
From Verif Require Import Base Spec MetaModel QueueModel FlushModel IndexModel ReadModel SysModel.

(** Datatypes (HDF5, no code of /repo): integers, floats and strings of [n] bytes; strings of variable
    length; sequences of variable length (H5Tvlen_create); arrays; compound types of two members,
    longer ones are nested. *)
Inductive ty :=
| TFix (n : nat)
| TVstr
| TVlen (t : ty)
| TArr (n : nat) (t : ty)
| TPair (a b : ty).

(** H5Tget_size: a string of variable length is a char *, a sequence is an hvl_t: its length and a
    pointer (HDF5; called at src/H5VL_log_dataset.cpp:134). *)
Fixpoint tsize (t : ty) : nat :=
  match t with
  | TFix n => n
  | TVstr => 8
  | TVlen _ => 16
  | TArr n t => n * tsize t
  | TPair a b => tsize a + tsize b
  end.

(** H5Tis_variable_str (HDF5; called at src/H5VL_log_dataset.cpp:89): the type itself, not its parts. *)
Definition is_variable_str (t : ty) : bool := match t with TVstr => true | _ => false end.

(** What the program's pointers point to. *)
Definition heap := Z -> list Z.

(** The calls.  [TWrite]: H5Dwrite with the type of the dataset as memory type, a buffer that is
    selected as a whole, and the heap of the process at that time.  [TOp]: the other calls. *)
Inductive tcall :=
| TCreate (t : ty) (dims mdims : list Z) (fill : option (list Z))
| TWrite (rk : nat) (did : Z) (sels : list block) (buf : list Z) (h : heap)
| TOp (o : op).

(** H5VL_log_dataset_create: refused when the type is a string of variable length
    (src/H5VL_log_dataset.cpp:88-90), else the element size is H5Tget_size (src/H5VL_log_dataset.cpp:130-135).
    H5VL_log_dataseti_write: H5Tequal says that nothing is to be converted, the buffer is copied or
    used as it is (src/H5VL_log_dataseti.cpp:918-973); no pointer in it is followed.
    Simplified: other memory types are not modelled, nor is the conversion that a file opened again asks
    for when the type has parts of variable length, because HDF5 then reports the type as stored on disk. *)
Definition tstep (e : env) (s : sys) (c : tcall) : res (sys * list (list Z)) :=
  match c with
  | TCreate t dims mdims fill =>
      if is_variable_str t then Err
      else step e s (OCreate (mkdinfo (Z.of_nat (tsize t)) dims mdims [] fill))
  | TWrite rk did sels buf _ => step e s (OWrite rk did sels buf)
  | TOp o => step e s o
  end.

(** A history of calls.  A refused call changes nothing (driver of the model over [tstep];
    src/H5VL_log_dataset.cpp:54-221). *)
Fixpoint trun (e : env) (s : sys) (cs : list tcall) : res (sys * list (option (list (list Z)))) :=
  match cs with
  | [] => Ok (s, [])
  | c :: rest =>
      match tstep e s c with
      | Ok (s', out) => do q <- trun e s' rest; Ok (fst q, Some out :: snd q)
      | Err => do q <- trun e s rest; Ok (fst q, None :: snd q)
      | UB => UB
      end
  end.
