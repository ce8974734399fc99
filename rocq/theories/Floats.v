(** IEEE-754 numbers for Float and Timestamp fields (numeric.py:56-145, 346-495).

    A Python float is its 64-bit pattern (a [Z] in [0, 2^64)).  [struct.pack]/[unpack] with
    formats e/f/d and the float arithmetic of Timestamp are modelled exactly on finite
    numbers (round to nearest, ties to even).  NaN payloads are platform dependent; the
    model keeps the sign, sets the quiet bit and truncates the payload. *)
From Verif Require Export PyInt.

(** A binary format: precision [p] (with hidden bit) and exponent width [w]. *)
Record fformat := mkFormat { ff_prec : Z; ff_ebits : Z }.
Definition binary16 := mkFormat 11 5.
Definition binary32 := mkFormat 24 8.
Definition binary64 := mkFormat 53 11.

Definition ff_bytes (f : fformat) : Z := (ff_prec f + ff_ebits f) / 8.
(** weight of the least significant bit of the smallest subnormal *)
Definition ff_emin (f : fformat) : Z := 3 - 2 ^ (ff_ebits f - 1) - ff_prec f.
Definition ff_signbit (f : fformat) : Z := 2 ^ (ff_prec f + ff_ebits f - 1).
(** pattern of +infinity *)
Definition ff_inf (f : fformat) : Z := (2 ^ ff_ebits f - 1) * 2 ^ (ff_prec f - 1).

Inductive fclass := FNan | FInf | FFinite.

Definition magnitude (f : fformat) (bits : Z) : Z := bits mod ff_signbit f.
Definition sign_of (f : fformat) (bits : Z) : bool := ff_signbit f <=? bits.

Definition classify (f : fformat) (bits : Z) : fclass :=
  let m := magnitude f bits in
  if m <? ff_inf f then FFinite else if m =? ff_inf f then FInf else FNan.

(** Significand and exponent of a finite pattern: value = m * 2^e. *)
Definition unpack_mag (f : fformat) (mag : Z) : Z * Z :=
  let h := 2 ^ (ff_prec f - 1) in
  let ex := mag / h in
  let frac := mag mod h in
  if ex =? 0 then (frac, ff_emin f) else (h + frac, ff_emin f + ex - 1).

(** Nearest integer to [n / d] ([n >= 0], [d > 0]), ties to even. *)
Definition round_half_even (n d : Z) : Z :=
  let q := n / d in
  let r := n mod d in
  if 2 * r <? d then q
  else if d <? 2 * r then q + 1
  else if Z.even q then q else q + 1.

(** Round the non-negative rational [n/d] to the format; the pattern without the sign.
    The exponent [e] is the largest with [2^(p-1) <= n/d / 2^e], at least [emin]; the
    pattern is linear in (e, m) and carries propagate.  [None]: overflow. *)
Definition pow2q (n d e : Z) : Z * Z :=   (* n/d / 2^e as a fraction *)
  if 0 <=? e then (n, d * 2 ^ e) else (n * 2 ^ (- e), d).

Definition exp_guess (n d : Z) : Z :=
  (* floor(log2(n/d)) for n, d > 0 *)
  let g := Z.log2 n - Z.log2 d in
  let '(n', d') := pow2q n d g in
  if d' <=? n' then g else g - 1.

Definition round_mag (f : fformat) (n d : Z) : option Z :=
  if n =? 0 then Some 0
  else
    let e := Z.max (ff_emin f) (exp_guess n d - (ff_prec f - 1)) in
    let '(n', d') := pow2q n d e in
    let m := round_half_even n' d' in
    let bits := (e - ff_emin f) * 2 ^ (ff_prec f - 1) + m in
    if bits <? ff_inf f then Some bits else None.

Definition with_sign (f : fformat) (s : bool) (mag : Z) : Z :=
  if s then ff_signbit f + mag else mag.

(** m * 2^e as a fraction *)
Definition dyadic (m e : Z) : Z * Z :=
  if 0 <=? e then (m * 2 ^ e, 1) else (m, 2 ^ (- e)).

(** Conversion between formats (C casts double->float, float->double; PyFloat_Pack2).
    [None]: a finite number overflows. *)
Definition convert (src dst : fformat) (bits : Z) : option Z :=
  let s := sign_of src bits in
  let mag := magnitude src bits in
  match classify src bits with
  | FInf => Some (with_sign dst s (ff_inf dst))
  | FNan =>
    let payload := mag mod 2 ^ (ff_prec src - 1) in
    let sh := ff_prec dst - ff_prec src in
    let payload := if 0 <=? sh then payload * 2 ^ sh else payload / 2 ^ (- sh) in
    Some (with_sign dst s (ff_inf dst + Z.lor (2 ^ (ff_prec dst - 2)) payload))
  | FFinite =>
    let '(m, e) := unpack_mag src mag in
    let '(n, d) := dyadic m e in
    match round_mag dst n d with
    | Some mag' => Some (with_sign dst s mag')
    | None => None
    end
  end.

(** [struct.pack(endian + fmt, x)] for a float [x]: OverflowError when a finite number is
    too large for e/f. *)
Definition pack_float (f : fformat) (e : endian) (bits64 : Z) : res (list Z) :=
  match convert binary64 f bits64 with
  | Some bits => Ok (order e (le_bytes (Z.to_nat (ff_bytes f)) bits))
  | None => Raise EOverflow
  end.

(** [struct.unpack(endian + fmt, data)[0]] for data of the right length *)
Definition unpack_float (f : fformat) (e : endian) (data : list Z) : Z :=
  match convert f binary64 (le_value (order e data)) with
  | Some bits => bits
  | None => 0 (* impossible: widening never overflows (proved) *)
  end.

(** [float(n)] for an int: [None] is OverflowError. *)
Definition float_of_int (n : Z) : option Z :=
  match round_mag binary64 (Z.abs n) 1 with
  | Some mag => Some (with_sign binary64 (n <? 0) mag)
  | None => None
  end.

(** Finite doubles as exact rationals [num / den]; used by the timestamp arithmetic. *)
Definition rat := (Z * Z)%type.

(** A double-precision result of an operation whose exact value is [n / d], d > 0.
    Signed; [None]: overflow.  Returned as an exact rational. *)
Definition rnd64 (q : rat) : option rat :=
  let '(n, d) := q in
  match round_mag binary64 (Z.abs n) d with
  | None => None
  | Some mag =>
    let '(m, e) := unpack_mag binary64 mag in
    let '(n', d') := dyadic m e in
    Some ((if n <? 0 then - n' else n'), d')
  end.

Definition rmul (a b : rat) : rat := (fst a * fst b, snd a * snd b).
Definition radd (a b : rat) : rat := (fst a * snd b + fst b * snd a, snd a * snd b).
(** a / b for b > 0 *)
Definition rdiv (a b : rat) : rat := (fst a * snd b, snd a * fst b).

(** [int(x)]: truncation toward zero *)
Definition rtrunc (a : rat) : Z := Z.quot (fst a) (snd a).

Inductive resolution := ResS | ResMs | ResUs | ResNs.
(** numeric.py:397 [_RESOLUTION_UNITS] *)
Definition res_units (r : resolution) : Z :=
  match r with ResS => 1 | ResMs => 1000 | ResUs => 1000000 | ResNs => 1000000000 end.

Definition opt_res {A} (o : option A) : res A :=
  match o with Some a => Ok a | None => Raise EOverflow end.

(** The datetimes of Python: years 1 to 9999. *)
Definition min_datetime_us : Z := -62135596800000000.
Definition max_datetime_us : Z := 253402300799999999.

(** For a naive datetime Python also converts the time 24 hours before (with fold=0), to find
    out whether clocks were changed in between; in the first 24 hours of year 1 this fails
    with ValueError. *)
Definition first_datetime_us (aware : bool) : Z :=
  if aware then min_datetime_us else min_datetime_us + 86400000000.

(** [data.timestamp()] as a double, for a datetime [us] microseconds after the epoch (UTC).
    Aware: timedelta.total_seconds() = us / 10^6 correctly rounded.
    Naive (local zone taken to be UTC): whole seconds + us/1e6, two roundings. *)
Definition py_timestamp (us : Z) (aware : bool) : res rat :=
  if aware then opt_res (rnd64 (us, 1000000))
  else if us <? first_datetime_us false then Raise EValueErr
  else
    let secs := us / 1000000 in
    let frac := us mod 1000000 in
    do f <- opt_res (rnd64 (frac, 1000000));
    opt_res (rnd64 (radd (secs, 1) f)).

(** numeric.py:460: [int(data.timestamp() * self._units)].  For resolution "s" the unit is
    the int 1, so the product is exact; otherwise it is a float product. *)
Definition time_to_int (r : resolution) (us : Z) (aware : bool) : res Z :=
  do t <- py_timestamp us aware;
  do p <- opt_res (rnd64 (rmul t (res_units r, 1)));
  Ok (rtrunc p).

(** [datetime.fromtimestamp(x, tz)]: round half even to microseconds, then the year must be
    in 1..9999 ([aware]: a time zone is given).  [modf] splits exactly; the fraction times 1e6
    is a float product.  Otherwise: OverflowError if the seconds do not fit a 64-bit time_t,
    OSError (from gmtime or localtime of the C library) if the year does not fit a C int, else
    ValueError. *)
Definition time_t_ok (secs : Z) : bool :=
  (-9223372036854775808 <=? secs) && (secs <? 9223372036854775808).

Definition year_error (secs : Z) : exn :=
  if (-67768040609740800 <=? secs) && (secs <=? 67768036191676799) then EValueErr else EOSErr.

Definition round_half_even_signed (q : rat) : Z :=
  let '(n, d) := q in
  if n <? 0 then - round_half_even (- n) d else round_half_even n d.

Definition py_fromtimestamp (x : rat) (aware : bool) : res Z :=
  let '(n, d) := x in
  let ip := Z.quot n d in
  let fp := (Z.rem n d, d) in
  do fus <- opt_res (rnd64 (rmul fp (1000000, 1)));
  let us := ip * 1000000 + round_half_even_signed fus in
  if (first_datetime_us aware <=? us) && (us <=? max_datetime_us) then Ok us
  else if time_t_ok (us / 1000000) then Raise (year_error (us / 1000000))
  else Raise EOverflow.

(** numeric.py:431-435: [value / self._units] then [fromtimestamp].  For "s" the division is
    int/int (correctly rounded); otherwise [float(value) / units]. *)
Definition time_of_int (r : resolution) (aware : bool) (value : Z) : res Z :=
  do x <- match r with
          | ResS => opt_res (rnd64 (value, 1))
          | _ => do v <- opt_res (rnd64 (value, 1));
                 opt_res (rnd64 (rdiv v (res_units r, 1)))
          end;
  py_fromtimestamp x aware.
