(** Words for writing to other streams (C96). *)
From Verif Require Export SpecField Writes.

(** What the calls of [write] are given, and how the program ends, if they do not raise. *)
Fixpoint calls (p : wprog) : list (list Z) * res unit :=
  match p with
  | WDone r => ([], r)
  | WWrite bs k => let '(l, r) := calls k in (bs :: l, r)
  end.

(** [write] always writes everything. *)
Definition reliable (dev : wdevice) : Prop := forall i bs, snd (dev i bs) = None /\ (length bs <= fst (dev i bs))%nat.

(** [write] writes everything or raises. *)
Definition honest (dev : wdevice) : Prop := forall i bs, snd (dev i bs) = None -> (length bs <= fst (dev i bs))%nat.

(** The calls made for a field: one, or none if it is absent. *)
Definition field_call (E : env) (n : nat) (ctx : value) (d : dict) (nf : string * field) (l : list (list Z)) : Prop :=
  exists v, run_dict d (compute_value_for_dump (conf (snd nf)) ctx) = Ok v
    /\ ((v = VNotPresent /\ l = [])
        \/ (v <> VNotPresent /\ exists bs, field_to_stream E n (snd nf) v ctx d = (bs, Ok tt) /\ l = [bs])).
