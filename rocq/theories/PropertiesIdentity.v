(** C110: [==] on structs when objects have identity: NaN and generators. *)
From Coq Require Import String Lia.
From Verif Require Import SpecIdentity IdentityProofs IdentityWitness JsonWitness Samples.
Open Scope list_scope.
Open Scope Z_scope.

(** Two structs are equal if their contents are the same data, where a float or a generator is also the
    same as itself. *)
Theorem C110_alike floats gens d e : sound floats (TDict d) -> sound floats (TDict e) ->
  (i_eq floats gens (TDict d) (TDict e) = true <-> alike floats gens (TDict d) (TDict e)).
Proof. exact (dict_eq_alike floats gens d e). Qed.
Print Assumptions C110_alike.

(** This is an equivalence relation, also with NaN. *)
Theorem C110_reflexive floats gens d : sound floats (TDict d) -> i_eq floats gens (TDict d) (TDict d) = true.
Proof. exact (i_eq_refl floats gens d). Qed.
Print Assumptions C110_reflexive.
Theorem C110_symmetric floats gens d e : sound floats (TDict d) -> sound floats (TDict e) ->
  i_eq floats gens (TDict d) (TDict e) = i_eq floats gens (TDict e) (TDict d).
Proof. exact (i_eq_sym floats gens d e). Qed.
Print Assumptions C110_symmetric.
Theorem C110_transitive floats gens d e f : sound floats (TDict d) -> sound floats (TDict e) -> sound floats (TDict f) ->
  i_eq floats gens (TDict d) (TDict e) = true -> i_eq floats gens (TDict e) (TDict f) = true -> i_eq floats gens (TDict d) (TDict f) = true.
Proof. exact (i_eq_trans floats gens d e f). Qed.
Print Assumptions C110_transitive.

(** Copies are equal if there are no NaNs and generators in them. *)
Theorem C110_copies floats gens d e : sound floats (TDict d) -> sound floats (TDict e) -> (forall o, ~ odd floats (TDict d) o) ->
  bare floats gens (TDict d) = bare floats gens (TDict e) -> i_eq floats gens (TDict d) (TDict e) = true.
Proof. exact (i_eq_copies floats gens d e). Qed.
Print Assumptions C110_copies.

(** Equality as modelled elsewhere: what is equal there is equal, and what is not equal there is not,
    unless a NaN or a generator is in both. *)
Theorem C110_model floats gens E n a b r ta tb : mapping E a -> mapping E b -> is_struct a \/ is_struct b -> py_eq E n a b = Ok r ->
  contents floats gens E a ta -> contents floats gens E b tb ->
  (r = true -> i_eq floats gens (TDict tb) (TDict ta) = true)
  /\ (unshared floats (TDict ta) (TDict tb) -> i_eq floats gens (TDict tb) (TDict ta) = r).
Proof. exact (structs_against floats gens E n a b r ta tb). Qed.
Print Assumptions C110_model.

(** So it is not true that a struct is equal to every struct with the same values. *)
Theorem C110_by_value_refuted : ~ (forall floats gens E v t t', mapping E v -> is_struct v -> contents floats gens E v t -> contents floats gens E v t' ->
  i_eq floats gens (TDict t) (TDict t') = true).
Proof. exact by_value_refuted. Qed.
Print Assumptions C110_by_value_refuted.

(** The hypotheses can be met: a struct with a NaN is equal to itself, but not to a copy, such as one
    loaded from the same bytes. *)
Example C110_nan : mapping j_classes measure
  /\ contents two_nans no_gens j_classes measure (with_object 0) /\ contents two_nans no_gens j_classes measure (with_object 1)
  /\ unshared two_nans (TDict (with_object 0)) (TDict (with_object 1))
  /\ py_eq j_classes 5 measure measure = Ok false
  /\ i_eq two_nans no_gens (TDict (with_object 0)) (TDict (with_object 0)) = true
  /\ i_eq two_nans no_gens (TDict (with_object 1)) (TDict (with_object 0)) = false
  /\ i_eq two_nans no_gens (TDict (with_object 2)) (TDict [("f"%string, TInt 1)]) = true.
Proof.
  destruct nan_answers as (H1 & H2 & H3 & _ & _ & H6).
  exact (conj measure_mapping (conj (measure_contents 0 (or_introl eq_refl)) (conj (measure_contents 1 (or_intror eq_refl))
    (conj unshared_nans (conj H6 (conj H1 (conj H2 H3))))))).
Qed.
