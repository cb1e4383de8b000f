(** The main programs of h5lreplay and h5ldump: which files they change and which status they return.

    Modelled: main and the first part of h5lreplay_core (utils/h5lreplay/h5lreplay.cpp:36-92, :132-210), main of h5ldump
    (utils/h5ldump/h5ldump.cpp:34-189).

    Simplifications: paths are names of files (no links); what HDF5 makes of a file is part of the file; the copying itself
    (ReplayModel.v, ReplayDataModel.v) is a parameter; all processes see the same files, and a file that can be created can
    also be opened. *)
From Coq Require Import String.
From Verif Require Import Base.
Open Scope list_scope. Open Scope Z_scope.

(** A file: its first eight bytes (fewer if it is shorter) and, if HDF5 can open it, whether it has the attribute of the log
    connector, and its contents.
    The tests at utils/h5lreplay/h5lreplay.cpp:68-81, :186-199. *)
Record ufile := mkuf { uf_head : list Z; uf_h5 : option (bool * list Z) }.
(** "\211HDF\r\n\032\n" (utils/h5lreplay/h5lreplay.cpp:33-34). *)
Definition hdf5sig : list Z := [137; 72; 68; 70; 13; 10; 26; 10].
(** The file made by H5Fcreate (utils/h5lreplay/h5lreplay.cpp:189). *)
Definition new_file : ufile := mkuf hdf5sig (Some (false, [])).

(** The file system (no code of /repo; used by utils/h5lreplay/h5lreplay.cpp:68-199). *)
Definition fs := string -> option ufile.
(** See [fs] (utils/h5lreplay/h5lreplay.cpp:189). *)
Definition store (d : fs) (p : string) (f : ufile) : fs := fun q => if String.eqb p q then Some f else d q.

(** What the utilities depend on: which paths H5Fcreate can create or truncate; whether HDF5 refuses to truncate a file it has
    open; the copy of the contents and whether it was completed (utils/h5lreplay/h5lreplay.cpp:189, :199-309). *)
Record world := mkworld { w_can : string -> bool; w_refuse : bool; w_copy : list Z -> list Z * bool }.

(** h5lreplay_core (utils/h5lreplay/h5lreplay.cpp:176-200): the files afterwards, and whether it ended without an exception.
    The result of H5Fopen is not tested: the test after it is of faplid (:188). *)
Definition replay_core (w : world) (inp out : string) (d : fs) : fs * bool :=
  let fin := match d inp with Some f => uf_h5 f | None => None end in
  let busy := match fin with Some _ => w_refuse w && String.eqb inp out | None => false end in
  if w_can w out && negb busy then
    let d1 := store d out new_file in
    match d1 inp with
    | None => (d1, false)
    | Some _ =>
        match fin with
        | Some (true, c) => let r := w_copy w c in (store d1 out (mkuf hdf5sig (Some (false, fst r))), snd r)
        | _ => (d1, false)
        end
    end
  else (d, false).

(** The test of the first eight bytes by process 0 (utils/h5lreplay/h5lreplay.cpp:67-81). *)
Definition bad_input (inp : string) (d : fs) : bool :=
  match d inp with
  | None => true
  | Some f => negb (if list_eq_dec Z.eq_dec (uf_head f) hdf5sig then true else false)
  end.
(** main of h5lreplay (utils/h5lreplay/h5lreplay.cpp:67-92): files afterwards and exit status (0 or -1).  A bad input is
    reported, and the program goes on. *)
Definition replay_main (w : world) (inp out : string) (d : fs) : fs * Z :=
  let err := bad_input inp d in
  let r := replay_core w inp out d in
  (fst r, if err || negb (snd r) then -1 else 0).

(** main of h5ldump (utils/h5ldump/h5ldump.cpp:101-187) with [np] processes: exit status and what is listed.  [kind] is option
    -k; [dump] is what h5ldump_visit and h5ldump_file print, and whether they end without an exception (DumpModel.v). *)
Definition dump_main (np : Z) (kind : bool) (dump : list Z -> list Z * bool) (inp : string) (d : fs) : Z * list Z :=
  if 1 <? np then (0, [])
  else if kind then (0, [])
  else
    let fin := match d inp with Some f => if list_eq_dec Z.eq_dec (uf_head f) hdf5sig then uf_h5 f else None | None => None end in
    let err := match fin with Some (true, _) => false | _ => true end in
    match match d inp with Some f => uf_h5 f | None => None end with
    | Some (true, c) => let r := dump c in (if err || negb (snd r) then -1 else 0, fst r)
    | _ => (-1, [])
    end.
