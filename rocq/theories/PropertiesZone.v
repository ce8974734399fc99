(** Property theorems: naive timestamps in the local time zone (C88).  Specification
    vocabulary: SpecZone.v; model: LocalTime.v. *)
From Coq Require Import String ZArith List.
From Verif Require Import ZoneWitness.
Import ListNotations.
Open Scope Z_scope.

(** C88: dumping a naive datetime, at any resolution, writes what a machine in UTC writes for the
    instant the reading stands for: the first one the local clock shows it at, the last one if
    [fold] is set. *)
Theorem C88_dumped : forall zone c r tz sg e g t f fold u, regular zone t -> far_from_ends t ->
  0 <= f < 1000000 -> stands_for zone t fold u ->
  naive_dump zone c r sg e g (t * 1000000 + f, fold)
  = leaf_dump c (KTime r tz sg e) g (VTime (u * 1000000 + f) false).
Proof. exact zoned_dump. Qed.
Print Assumptions C88_dumped.

(** Loading shows on the local clock what a machine in UTC loads, with [fold] set if the clock
    showed the same reading in the 24 hours before; and that dumps as in UTC again. *)
Theorem C88_loaded : forall zone c r sg e g g0 s s' us,
  leaf_load c (KTime r false sg e) g g0 s = (s', Ok (VTime us false)) ->
  regular zone (us / 1000000) -> far_from_ends (us / 1000000) ->
  exists fold, naive_load zone r sg e g s = (s', Ok (us + zone (us / 1000000) * 1000000, fold))
    /\ (fold = true <-> exists u', us / 1000000 - day <= u' < us / 1000000
          /\ shows zone u' (us / 1000000 + zone (us / 1000000)))
    /\ forall c' tz sg' e' g', naive_dump zone c' r sg' e' g' (us + zone (us / 1000000) * 1000000, fold)
         = leaf_dump c' (KTime r tz sg' e') g' (VTime us false).
Proof. exact zoned_load. Qed.
Print Assumptions C88_loaded.

(** Whole seconds come back, if the clock shows the reading at all and the instant fits the size. *)
Theorem C88_seconds : forall zone c sg e n t fold u, regular zone t -> far_from_ends t ->
  stands_for zone t fold u -> 0 <= n -> int_range sg n u ->
  exists bs fold', naive_dump zone c ResS sg e (Ok n) (t * 1000000, fold) = (bs, Ok tt) /\ zlen bs = n
    /\ (fold' = true <-> exists u', u - day <= u' < u /\ shows zone u' t)
    /\ forall pre suf, naive_load zone ResS sg e (Ok n) (at_data pre bs suf)
         = (after_data pre bs suf, Ok (t * 1000000, fold')).
Proof. exact zoned_seconds. Qed.
Print Assumptions C88_seconds.

(** A reading the clock never shows, because it was put forward from the offset [p] to [q], is
    dumped as the instant shown that much later (that much earlier if [fold] is set). *)
Theorem C88_gap : forall zone c r tz sg e g t f (fold : bool) T p q, one_change zone t T p q ->
  far_from_ends t -> 0 <= f < 1000000 -> (forall u, t - day <= u <= t + day -> ~ shows zone u t) ->
  let u := t - if fold then q else p in
  naive_dump zone c r sg e g (t * 1000000 + f, fold)
  = leaf_dump c (KTime r tz sg e) g (VTime (u * 1000000 + f) false)
  /\ shows zone u (if fold then t - (q - p) else t + (q - p)).
Proof. exact gap_dump. Qed.
Print Assumptions C88_gap.

(** With UTC as the local zone this is the model used everywhere else. *)
Theorem C88_utc_dump : forall c r tz sg e g us, -62135596800 * 1000000 <= us < 253402300800 * 1000000 ->
  naive_dump (fun _ => 0) c r sg e g (us, false) = leaf_dump c (KTime r tz sg e) g (VTime us false).
Proof. exact utc_dump_range. Qed.
Print Assumptions C88_utc_dump.

Theorem C88_utc_load : forall c r sg e g g0 s, leaf_load c (KTime r false sg e) g g0 s
  = let '(s', x) := naive_load (fun _ => 0) r sg e g s in (s', do w <- x; Ok (VTime (fst w) false)).
Proof. exact utc_load. Qed.
Print Assumptions C88_utc_load.

(** Hence a naive datetime is not always loaded as it was dumped: not if the clock never shows it,
    and not on a machine in another zone. *)
Theorem C88_gap_refuted : exists zone c t bs w fold, (forall x, regular zone x) /\ far_from_ends t
  /\ naive_dump zone c ResS true Big (Ok 4) (t * 1000000, false) = (bs, Ok tt)
  /\ naive_load zone ResS true Big (Ok 4) (at_data [] bs []) = (after_data [] bs [], Ok (w, fold))
  /\ w <> t * 1000000.
Proof.
  destruct never_dumped as (bs & H1 & H2). exists new_york, stamp_conf, never, bs, ((never + 3600) * 1000000), false.
  split; [exact new_york_regular|]. split; [split; discriminate|]. split; [exact H1|]. split; [exact H2|].
  discriminate.
Qed.
Print Assumptions C88_gap_refuted.

Theorem C88_moved_refuted : exists zone zone' c w bs w' fold,
  (forall x, regular zone x) /\ (forall x, regular zone' x)
  /\ naive_dump zone c ResS true Big (Ok 4) (w, false) = (bs, Ok tt)
  /\ naive_load zone' ResS true Big (Ok 4) (at_data [] bs []) = (after_data [] bs [], Ok (w', fold))
  /\ w' <> w.
Proof.
  destruct moved_dumped as (bs & H1 & H2). exists new_york, (fun _ => 0), stamp_conf, 0, bs, 18000000000, false.
  split; [exact new_york_regular|]. split; [intros x; apply fixed_regular; split; reflexivity|].
  split; [exact H1|]. split; [exact H2|]. discriminate.
Qed.
Print Assumptions C88_moved_refuted.

(** New York in 2026: 01:30 on 1 November is shown twice, 02:30 on 8 March never. *)
Example C88_example : (forall x, regular new_york x)
  /\ stands_for new_york twice false 1793511000 /\ stands_for new_york twice true 1793514600
  /\ (forall u, ~ shows new_york u never)
  /\ naive_dump new_york stamp_conf ResS true Big (Ok 4) (twice * 1000000, false) = ([106; 230; 206; 88], Ok tt)
  /\ naive_dump new_york stamp_conf ResS true Big (Ok 4) (twice * 1000000, true) = ([106; 230; 220; 104], Ok tt).
Proof.
  split; [exact new_york_regular|]. split; [exact (proj1 twice_stands)|]. split; [exact (proj2 twice_stands)|].
  split; [exact never_shown|]. split; apply twice_dumped.
Qed.
