(** Specification vocabulary for floats and timestamps: IEEE 754 interchange formats read
    off the bit fields.  Nothing here refers to how the library computes its results. *)
From Coq Require Import QArith.
From Verif Require Export Values Spec.
Open Scope Z_scope.

(** [w] exponent bits, [t] fraction bits. *)
Record ieee := mkIeee { i_w : Z; i_t : Z }.
Definition half := mkIeee 5 10.
Definition single := mkIeee 8 23.
Definition double := mkIeee 11 52.

Definition i_bits (i : ieee) : Z := 1 + i_w i + i_t i.
Definition pattern (i : ieee) (x : Z) : Prop := 0 <= x < 2 ^ i_bits i.

Definition exponent_field (i : ieee) (x : Z) : Z := (x / 2 ^ i_t i) mod 2 ^ i_w i.
Definition fraction_field (i : ieee) (x : Z) : Z := x mod 2 ^ i_t i.

Definition is_nan (i : ieee) (x : Z) : Prop :=
  exponent_field i x = 2 ^ i_w i - 1 /\ fraction_field i x <> 0.
Definition is_finite (i : ieee) (x : Z) : Prop := exponent_field i x < 2 ^ i_w i - 1.

Definition bias (i : ieee) : Z := 2 ^ (i_w i - 1) - 1.

(** Absolute value of a finite number. *)
Definition abs_value (i : ieee) (x : Z) : Q :=
  if exponent_field i x =? 0
  then (inject_Z (fraction_field i x) * Qpower (inject_Z 2) (1 - bias i - i_t i))%Q
  else (inject_Z (2 ^ i_t i + fraction_field i x)
        * Qpower (inject_Z 2) (exponent_field i x - bias i - i_t i))%Q.

(** The number half-way between the largest finite number and the next power of two. *)
Definition overflow_bound (i : ieee) : Q :=
  (inject_Z (2 ^ (i_t i + 2) - 1) * Qpower (inject_Z 2) (bias i - i_t i - 1))%Q.

(** The bit pattern stored in a byte string, and the kinds of Float field. *)
Definition bits_of (e : endian) (bs : list Z) : Z :=
  match e with Big => be_value bs | Little => be_value (rev bs) end.

Inductive float_kind : ieee -> fkind -> endian -> Prop :=
| fk_half : forall e, float_kind half (KFloat binary16 e) e
| fk_single : forall e, float_kind single (KFloat binary32 e) e
| fk_double : forall e, float_kind double (KFloat binary64 e) e.

(** Sign bit. *)
Definition sign_bit (i : ieee) (x : Z) : Z := x / 2 ^ (i_w i + i_t i).

(** Instants a datetime object can hold, in microseconds from the epoch: 0001-01-01 up to,
    but not including, 10000-01-01; Python converts naive ones from 0001-01-02 on. *)
Definition is_datetime (aware : bool) (us : Z) : Prop :=
  (- 62135596800 + if aware then 0 else 86400) * 1000000 <= us < 253402300800 * 1000000.

(** The finer resolutions: microseconds in one unit. *)
Inductive time_unit : resolution -> Z -> Prop :=
| unit_ms : time_unit ResMs 1000
| unit_us : time_unit ResUs 1.
