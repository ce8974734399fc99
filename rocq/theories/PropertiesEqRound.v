(** Property theorem: comparing an instance with what its dump loads as (C76).
    Specification vocabulary: SpecRound.v, SpecEq.v. *)
From Verif Require Import EqRoundWitness.
Open Scope Z_scope.

(** C76: under the conditions of C27, and if no component is absent, a comparison of the
    instance with the loaded one, in either order, that gives an answer gives True exactly if
    the fields the user has set are all those that are not discarded.  In particular an
    instance that relies on a default or computed value differs from its own copy. *)
Theorem C76_equal_after : forall E n last cid vals ctx bs d,
  instance_of E cid vals -> struct_to_stream E n cid vals ctx = (bs, Ok tt) ->
  to_dict E n cid vals false = Ok d -> holds_struct E last cid d ->
  (forall k, dget d k <> Some VNotPresent) ->
  exists vals', instance_of E cid vals'
    /\ (forall ctx' pre suf, (last = true -> suf = []) -> exists N, forall n', (N <= n')%nat ->
          struct_from_stream E n' cid ctx' [] (at_data pre bs suf) = (after_data pre bs suf, Ok vals'))
    /\ forall m r, py_eq E m (VStruct cid vals) (VStruct cid vals') = Ok r
         \/ py_eq E m (VStruct cid vals') (VStruct cid vals) = Ok r ->
         (r = true <-> filled (cls E cid) (set_values vals)).
Proof. exact equal_after. Qed.
Print Assumptions C76_equal_after.

Example C76_set :
  instance_of round_E 1 (inner_val 300 [97; 98])
  /\ struct_to_stream round_E 9 1 (inner_val 300 [97; 98]) VNone = ([172; 2; 97; 98; 0], Ok tt)
  /\ to_dict round_E 9 1 (inner_val 300 [97; 98]) false = Ok (inner_val 300 [97; 98])
  /\ holds_struct round_E false 1 (inner_val 300 [97; 98])
  /\ (forall k, dget (inner_val 300 [97; 98]) k <> Some VNotPresent)
  /\ filled (cls round_E 1) (set_values (inner_val 300 [97; 98])).
Proof.
  exact (conj inner_instance (conj inner_dump (conj inner_to_dict (conj inner_example
          (conj inner_present inner_set))))).
Qed.

Example C76_unset :
  instance_of default_E 0 default_vals
  /\ struct_to_stream default_E 9 0 default_vals VNone = ([1; 5], Ok tt)
  /\ to_dict default_E 9 0 default_vals false = Ok default_dict
  /\ holds_struct default_E false 0 default_dict
  /\ (forall k, dget default_dict k <> Some VNotPresent)
  /\ ~ filled (cls default_E 0) (set_values default_vals).
Proof.
  exact (conj default_instance (conj default_dump (conj default_to_dict (conj default_holds
          (conj default_present default_unset))))).
Qed.

(** The claim one would expect, that an instance equals what its dump loads as, does not hold:
    a field left to its default makes the two differ. *)
Theorem C76_roundtrip_equal_refuted : exists E cid vals bs vals',
  instance_of E cid vals /\ struct_to_bytes E 9 cid vals VNone = Ok bs
  /\ struct_from_bytes E 9 cid bs VNone true [] = Ok vals'
  /\ py_eq E 9 (VStruct cid vals) (VStruct cid vals') = Ok false.
Proof. exists default_E, 0%nat, default_vals, [1; 5], default_dict. exact (conj default_instance default_differs). Qed.
Print Assumptions C76_roundtrip_equal_refuted.

(** And a comparison need not answer: with an array counted by another field an instance
    cannot even be compared with itself. *)
Theorem C76_self_equal_refuted : exists E cid vals e, instance_of E cid vals
  /\ py_eq E 9 (VStruct cid vals) (VStruct cid vals) = Raise e.
Proof. exists round_E, 0%nat, round_vals, (EFieldReference "count"). exact (conj round_instance counted_raises). Qed.
Print Assumptions C76_self_equal_refuted.
