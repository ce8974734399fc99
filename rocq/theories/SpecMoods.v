(** Words for callables that change their minds (C98). *)
From Verif Require Export SpecField Moods.

(** Only the callables of a field may differ from time to time; they do not come and go. *)
Definition same_but_callables (c c' : fconf) : Prop :=
  c_name c' = c_name c /\ c_const c' = c_const c /\ c_default c' = c_default c /\ c_discard c' = c_discard c
  /\ c_null c' = c_null c /\ c_size c' = c_size c /\ c_validators c' = c_validators c /\ c_npv c' = c_npv c
  /\ (c_factory c' = None <-> c_factory c = None) /\ (c_compute c' = None <-> c_compute c = None).
Definition moody (mood : nat -> fconf -> fconf) : Prop := forall t c, same_but_callables c (mood t c).

(** How a component is written, given one value [all] for every field: that value, unless it is
    absent at some time. *)
Definition written_once (E : env) (mood : nat -> fconf -> fconf) (n : nat) (ctx : value) (all : dict) (nf : string * field) (part : list Z) : Prop :=
  let '(name, f) := nf in
  (part = [] /\ (c_discard (conf f) = false -> dget all name = Some VNotPresent
                 \/ exists t, run_dict all (c_present (mood t (conf f)) ctx None) = Ok false))
  \/ exists v, (c_discard (conf f) = false -> dget all name = Some v)
       /\ (v <> VDefault -> accepts (conf f) v) /\ field_to_stream E n f v ctx all = (part, Ok tt).
