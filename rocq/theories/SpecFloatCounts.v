(** Words for arrays whose count is a float (C103). *)
From Coq Require Import QArith Qround.
From Verif Require Export SpecEq FloatCounts.
Open Scope Z_scope.

(** The float is a whole number; it is no whole number; it is larger than any number. *)
Definition whole (x k : Z) : Prop := is_finite double x /\ (double_value x == inject_Z k)%Q.
Definition not_whole (x : Z) : Prop := forall k, ~ whole x k.
Definition plus_infinity (x : Z) : Prop := ~ is_finite double x /\ ~ is_nan double x /\ sign_bit double x = 0.
Definition minus_infinity (x : Z) : Prop := ~ is_finite double x /\ ~ is_nan double x /\ sign_bit double x <> 0.

(** The number of elements a finite float asks for. *)
Definition rounded_up (x : Z) : Z := Qceiling (double_value x).

(** [z] is less than the float. *)
Definition falls_short (z x : Z) : Prop := plus_infinity x \/ is_finite double x /\ (inject_Z z < double_value x)%Q.
