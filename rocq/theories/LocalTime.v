(** Model: naive datetimes in an arbitrary local time zone.  The rest of the model takes the
    zone of the machine to be UTC; this file restates the two conversions of
    [Timestamp] (numeric.py:424-473) for any zone.  A zone is given by its offset from UTC in
    seconds at every instant (what localtime() of the C library computes; leap seconds are not
    modelled).  A naive datetime is its wall clock reading, in microseconds since 1970-01-01,
    and its [fold] attribute.  The algorithms are those of CPython's datetime module, which the
    code calls: [datetime.timestamp] and [datetime.fromtimestamp]. *)
From Coq Require Import String ZArith List Lia.
From Verif Require Export FieldModel.
Import ListNotations.
Open Scope Z_scope.

Definition naive := (Z * bool)%type.

(** Years 1 to 9999, in seconds; ValueError outside, or OSError far outside. *)
Definition year_ok (t : Z) : bool := (-62135596800 <=? t) && (t <=? 253402300799).

(** CPython's [local]: wall clock reading at the instant [u]. *)
Definition wall (zone : Z -> Z) (u : Z) : res Z :=
  let t := u + zone u in if year_ok t then Ok t else Raise (year_error t).

(** CPython's [local_to_seconds]: an instant at which the clock shows [t] (used by
    numeric.py:459 via datetime.timestamp). *)
Definition wall_to_instant (zone : Z -> Z) (t : Z) (fold : bool) : res Z :=
  do lt <- wall zone t;
  let a := lt - t in
  let u1 := t - a in
  do t1 <- wall zone u1;
  let finish b :=
    let u2 := t - b in
    do t2 <- wall zone u2;
    if t2 =? t then Ok u2
    else if t1 =? t then Ok u1
    else Ok (if fold then Z.min u1 u2 else Z.max u1 u2) in
  if t1 =? t then
    let u2 := if fold then u1 + 86400 else u1 - 86400 in
    do lt2 <- wall zone u2;
    let b := lt2 - u2 in
    if a =? b then Ok u1 else finish b
  else finish (t1 - u1).

(** [data.timestamp()] (numeric.py:459) of a naive datetime. *)
Definition naive_timestamp (zone : Z -> Z) (x : naive) : res rat :=
  let '(us, fold) := x in
  do secs <- wall_to_instant zone (us / 1000000) fold;
  do f <- opt_res (rnd64 (us mod 1000000, 1000000));
  opt_res (rnd64 (radd (secs, 1) f)).

(** [datetime.fromtimestamp(x)] (numeric.py:432): rounded to microseconds, shown on the local
    clock, with [fold] set if the clock showed the same up to a day before. *)
Definition naive_fromtimestamp (zone : Z -> Z) (x : rat) : res naive :=
  let '(n, d) := x in
  let ip := Z.quot n d in
  let fp := (Z.rem n d, d) in
  do fus <- opt_res (rnd64 (rmul fp (1000000, 1)));
  let us := ip * 1000000 + round_half_even_signed fus in
  let u := us / 1000000 in
  do _ <- (if time_t_ok u then Ok tt else Raise EOverflow);
  do t <- wall zone u;
  do probe <- wall zone (u - 86400);
  let transition := t - probe - 86400 in
  do fold <- (if transition <? 0
              then do again <- wall zone (u + transition); Ok (again =? t)
              else Ok false);
  Ok (t * 1000000 + us mod 1000000, fold).

(** numeric.py:459: [int(data.timestamp() * self._units)] *)
Definition naive_to_int (zone : Z -> Z) (r : resolution) (x : naive) : res Z :=
  do t <- naive_timestamp zone x;
  do p <- opt_res (rnd64 (rmul t (res_units r, 1)));
  Ok (rtrunc p).

(** numeric.py:431-432: [fromtimestamp(value / self._units)] *)
Definition naive_of_int (zone : Z -> Z) (r : resolution) (value : Z) : res naive :=
  do x <- match r with
          | ResS => opt_res (rnd64 (value, 1))
          | _ => do v <- opt_res (rnd64 (value, 1));
                 opt_res (rnd64 (rdiv v (res_units r, 1)))
          end;
  naive_fromtimestamp zone x.

(** numeric.py:437-473 [Timestamp._do_dump] of a naive datetime; [g] is
    [self.get_expected_size(all_fields)]. *)
Definition naive_dump (zone : Z -> Z) (c : fconf) (r : resolution) (signed : bool) (e : endian)
    (g : res Z) (x : naive) : dumped unit :=
  ddo t <- dlift (naive_to_int zone r x);
  catch_value_error (c_name c) (ddo n <- dlift g; write_int t n signed e).

(** numeric.py:424-432 [Timestamp._do_load] with [tz_aware=False]. *)
Definition naive_load (zone : Z -> Z) (r : resolution) (signed : bool) (e : endian) (g : res Z)
    : loader naive :=
  ldo n <- llift g;
  ldo z <- read_int n signed e;
  llift (naive_of_int zone r z).
