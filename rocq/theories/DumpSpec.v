(** What a listing of the log must show: stated on the list of API calls only. *)
From Verif Require Import Base Spec MetaModel SysModel History DumpModel.

(** A write issued, and a write placed in the file at [lg_at]. *)
Record issued := mkis { is_did : Z; is_sels : list block; is_data : list Z }.
Record logged := mklg { lg_did : Z; lg_at : Z; lg_sels : list block; lg_data : list Z }.

(** The log as a user of the API can reconstruct it: the metadata datasets written so far, each with one
    section per process; the writes of each process that are flushed and not yet in a metadata dataset;
    the writes of each process that are pending.  All in program order. *)
Record lstate := mkls { ls_md : list (list (list logged)); ls_fl : list (list logged); ls_pd : list (list issued) }.

(** A flush places the pending writes one behind the other: process 0 first. *)
Fixpoint lay_one (off : Z) (l : list issued) : list logged :=
  match l with
  | [] => []
  | i :: rest => mklg (is_did i) off (is_sels i) (is_data i) :: lay_one (off + Zlen (is_data i)) rest
  end.
Definition issued_bytes (l : list issued) : Z := Zsum (map (fun i => Zlen (is_data i)) l).
Fixpoint lay_all (off : Z) (pd : list (list issued)) : list (list logged) :=
  match pd with
  | [] => []
  | l :: rest => lay_one off l :: lay_all (off + issued_bytes l) rest
  end.
Definition join (a b : list (list logged)) : list (list logged) := map (fun p => fst p ++ snd p) (combine a b).
Definition l_flush (doff : Z) (s : lstate) : lstate :=
  mkls (ls_md s) (join (ls_fl s) (lay_all doff (ls_pd s))) (map (fun _ => []) (ls_pd s)).

(** A read or a close writes the flushed writes, if there are any, into a new metadata dataset. *)
Definition l_publish (s : lstate) : lstate :=
  mkls (if forallb (fun l => match l with [] => true | _ => false end) (ls_fl s) then ls_md s else ls_md s ++ [ls_fl s])
       (map (fun _ => []) (ls_fl s)) (ls_pd s).

Definition l_step (s : lstate) (o : op) : lstate :=
  match o with
  | OWrite rk did sels data =>
      match sels with
      | [] => s
      | _ => mkls (ls_md s) (ls_fl s) (upd_nth rk (nth rk (ls_pd s) [] ++ [mkis did sels data]) (ls_pd s))
      end
  | OFlush doff => l_flush doff s
  | ORead doff _ => l_publish (l_flush doff s)
  | OReopen doff np => mkls (ls_md (l_publish (l_flush doff s))) (repeat [] np) (repeat [] np)
  | _ => s
  end.
Definition log_of (np : nat) (ops : list op) : lstate := fold_left l_step ops (mkls [] (repeat [] np) (repeat [] np)).
(** The metadata datasets of the file after a final close that places its log at [doff]. *)
Definition closed_log (doff : Z) (s : lstate) : list (list (list logged)) := ls_md (l_publish (l_flush doff s)).

(** What is to be listed of a write: dataset, position and size of its data, and its blocks in order,
    each with the number of data bytes before it and the bytes of its elements. *)
Record shown := mksh { sh_did : Z; sh_at : Z; sh_size : Z; sh_blocks : list (Z * block * option (list Z)) }.
Fixpoint cut_blocks (withdata : bool) (esize off : Z) (sels : list block) (data : list Z) : list (Z * block * option (list Z)) :=
  match sels with
  | [] => []
  | b :: rest =>
      let n := esize * Zlen (coords b) in
      (off, b, if withdata then Some (firstn (Z.to_nat n) data) else None)
        :: cut_blocks withdata esize (off + n) rest (skipn (Z.to_nat n) data)
  end.
Definition show (withdata : bool) (sets : list dinfo) (l : logged) : shown :=
  mksh (lg_did l) (lg_at l) (Zlen (lg_data l))
       (cut_blocks withdata (esize_at sets (lg_did l)) 0 (lg_sels l) (lg_data l)).

(** How an entry of the listing is read. *)
Definition listed (d : dentry) : shown :=
  mksh (h_did (de_hdr d)) (h_foff (de_hdr d)) (h_fsize (de_hdr d))
       (map (fun b => (db_doff b, mkblock (db_start b) (db_count b), db_bytes b)) (de_blocks d)).
