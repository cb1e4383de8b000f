(** Programs of several processes whose conflicting writes are separated. *)
From Verif Require Import Base Spec MetaModel SysModel History.

(** The calls in which all processes take part and after which all writes are published: a flush, a
    (collective) read, closing and reopening. *)
Definition synchronises (o : op) : Prop :=
  match o with OFlush _ | ORead _ _ | OReopen _ _ => True | _ => False end.
(** Process [rk] writes element [x] of dataset [did]. *)
Definition writes_elem (rk : nat) (did : Z) (x : list Z) (o : op) : Prop :=
  match o with OWrite rk' did' sels _ => rk' = rk /\ did' = did /\ In x (sel_coords sels) | _ => False end.

(** Between two writes of an element by different processes there is a synchronising call. *)
Definition synchronised (ops : list op) : Prop :=
  forall i j oi oj a b did x, (i < j)%nat -> nth_error ops i = Some oi -> nth_error ops j = Some oj ->
    writes_elem a did x oi -> writes_elem b did x oj -> a <> b ->
    exists k ok, (i < k < j)%nat /\ nth_error ops k = Some ok /\ synchronises ok.

(** The same call, whichever process issues it. *)
Definition by_whom (o : op) : op := match o with OWrite _ did sels data => OWrite 0 did sels data | _ => o end.
