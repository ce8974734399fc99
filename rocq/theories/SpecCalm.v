(** Words for structs whose changing callables do not matter (C111). *)
From Verif Require Export SpecMoods SpecMoodLoads SpecRound.

(** The [present] functions do not change. *)
Definition presence_settled (mood : nat -> fconf -> fconf) : Prop := forall t c, c_present (mood t c) = c_present c.

(** Neither a factory nor a computing function is called for a field that is not set. *)
Definition uncalled (c : fconf) : Prop := c_factory c = None /\ (is_undefined (c_default c) = false \/ c_compute c = None).

(** All others are set, and not discarded. *)
Definition all_set (E : env) (cid : nat) (vals : dict) : Prop :=
  forall name f, In (name, f) (k_comps (cls E cid)) ->
    uncalled (conf f) \/ c_discard (conf f) = false /\ exists v, dget vals name = Some v /\ v <> VUndefined.
