(** Specification vocabulary for naive datetimes in local time zones (model: LocalTime.v).
    Times are in seconds since the epoch. *)
From Coq Require Import String ZArith List.
From Verif Require Export VarintSpec SpecNum LocalTime.
Open Scope Z_scope.

Definition day : Z := 86400.

(** Near [x], up to three days, clocks are changed at most once: from the offset [p] to [q], at
    the instant [T].  Offsets are less than a day, and no more than a day is repeated. *)
Record one_change (zone : Z -> Z) (x T p q : Z) : Prop := {
  change_zone : forall u, x - 3 * day <= u <= x + 3 * day -> zone u = if u <? T then p else q;
  change_before : - day < p < day;
  change_after : - day < q < day;
  change_back : p - q <= day }.

Definition regular (zone : Z -> Z) (x : Z) : Prop := exists T p q, one_change zone x T p q.

(** Not within five days of the ends of the years 1 and 9999. *)
Definition far_from_ends (x : Z) : Prop :=
  - 62135596800 + 5 * day <= x <= 253402300799 - 5 * day.

(** At the instant [u] the clock shows [t]. *)
Definition shows (zone : Z -> Z) (u t : Z) : Prop := u + zone u = t.

(** Which instant a reading [t] stands for: the first one of a day around, or the last one. *)
Definition stands_for (zone : Z -> Z) (t : Z) (fold : bool) (u : Z) : Prop :=
  shows zone u t /\ t - day <= u <= t + day
  /\ forall u', t - day <= u' <= t + day -> shows zone u' t -> if fold then u' <= u else u <= u'.
