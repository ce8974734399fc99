(** Property theorems: Timestamp and Float fields (C50-C52).
    Vocabulary: SpecNum.v (IEEE bit fields, [is_datetime]), Spec.v and VarintSpec.v. *)
From Coq Require Import QArith Qabs.
From Verif Require Import StructModel SpecNum SpecRound VarintSpec FloatMore TimeProofs RoundLeaf.
Open Scope Z_scope.

Definition cfg (s : sizespec) : fconf := basic "x" s.
Lemma cfg_takes s v : takes (cfg s) v.
Proof. repeat split; constructor. Qed.

(** C50: whole seconds round-trip whenever they fit the field, and are rejected otherwise. *)
Theorem C50_seconds_roundtrip : forall E fuel c tz sg e n s aware ctx d,
  c_size c = SInt n -> 0 <= n -> accepts c (VTime (s * 1000000) aware) -> is_datetime aware (s * 1000000) ->
  (int_range sg n s ->
   exists bs, field_to_stream E fuel (Field c (KTime ResS tz sg e)) (VTime (s * 1000000) aware) ctx d = (bs, Ok tt)
     /\ zlen bs = n
     /\ forall E' fuel' ctx' d' pre suf, is_datetime tz (s * 1000000) -> takes c (VTime (s * 1000000) tz) ->
          field_from_stream E' fuel' (Field c (KTime ResS tz sg e)) ctx' d' (at_data pre bs suf)
          = (after_data pre bs suf, Ok (VTime (s * 1000000) tz)))
  /\ (~ int_range sg n s ->
      field_to_stream E fuel (Field c (KTime ResS tz sg e)) (VTime (s * 1000000) aware) ctx d
      = ([], Raise (EUnserializable (c_name c)))).
Proof. exact seconds_roundtrip. Qed.
Print Assumptions C50_seconds_roundtrip.

(** Millisecond and microsecond resolution, from the epoch to the year 2096: an aware datetime
    with a whole number [k] of units comes back unchanged or exactly one unit early. *)
Theorem C50_fine_loses_at_most_one_unit : forall E fuel c r u tz sg e n us k ctx d bs,
  time_unit r u -> us = k * u -> 0 <= us <= 4000000000000000 ->
  c_size c = SInt n -> accepts c (VTime us true) ->
  field_to_stream E fuel (Field c (KTime r tz sg e)) (VTime us true) ctx d = (bs, Ok tt) ->
  zlen bs = n
  /\ exists us', (us' = us \/ us' = us - u)
     /\ forall E' fuel' ctx' d' pre suf, takes c (VTime us' tz) ->
          field_from_stream E' fuel' (Field c (KTime r tz sg e)) ctx' d' (at_data pre bs suf)
          = (after_data pre bs suf, Ok (VTime us' tz)).
Proof. exact fine_loss. Qed.
Print Assumptions C50_fine_loses_at_most_one_unit.

(** The stored integer: the number of seconds; the number of units or one less. *)
Theorem C50_seconds_stored : forall E fuel c tz sg e n s aware ctx d, c_size c = SInt n ->
  accepts c (VTime (s * 1000000) aware) -> accepts c (VInt s) -> is_datetime aware (s * 1000000) ->
  field_to_stream E fuel (Field c (KTime ResS tz sg e)) (VTime (s * 1000000) aware) ctx d
  = field_to_stream E fuel (Field c (KInt sg e)) (VInt s) ctx d.
Proof. exact seconds_stored. Qed.
Print Assumptions C50_seconds_stored.

Theorem C50_fine_stored : forall E fuel c r u tz sg e n us k ctx d,
  time_unit r u -> us = k * u -> 0 <= us <= 4000000000000000 ->
  c_size c = SInt n -> accepts c (VTime us true) -> (forall z, accepts c (VInt z)) ->
  exists k', (k' = k \/ k' = k - 1)
    /\ field_to_stream E fuel (Field c (KTime r tz sg e)) (VTime us true) ctx d
       = field_to_stream E fuel (Field c (KInt sg e)) (VInt k') ctx d.
Proof. exact fine_stored. Qed.
Print Assumptions C50_fine_stored.

(** Loading a number of units loses nothing. *)
Theorem C50_fine_loaded : forall E fuel c r u tz sg e n us k bs ctx d, time_unit r u -> us = k * u ->
  0 <= us <= 4000000000000000 -> c_size c = SInt n -> accepts c (VInt k) ->
  field_to_stream E fuel (Field c (KInt sg e)) (VInt k) ctx d = (bs, Ok tt) ->
  forall E' fuel' ctx' d' pre suf, takes c (VTime us tz) ->
  field_from_stream E' fuel' (Field c (KTime r tz sg e)) ctx' d' (at_data pre bs suf)
  = (after_data pre bs suf, Ok (VTime us tz)).
Proof. exact fine_loaded. Qed.
Print Assumptions C50_fine_loaded.

(** The loss does happen: 1970-01-01T00:00:00.001001 at microsecond resolution and
    1970-01-01T00:00:01.001 at millisecond resolution. *)
Theorem C50_fine_roundtrip_refuted :
  ~ (forall r us, (r = ResMs \/ r = ResUs) -> (us * res_units r) mod 1000000 = 0 -> 0 <= us ->
     forall bs, field_to_stream [] 0 (Field (basic "x" (SInt 8)) (KTime r true true Little)) (VTime us true) VNone [] = (bs, Ok tt) ->
     field_from_stream [] 0 (Field (basic "x" (SInt 8)) (KTime r true true Little)) VNone [] (at_data [] bs [])
     = (after_data [] bs [], Ok (VTime us true))).
Proof. exact fine_refuted. Qed.
Print Assumptions C50_fine_roundtrip_refuted.

(** Whole seconds, however, are stored exactly and come back unchanged, in the whole range of
    datetimes, aware or not. *)
Theorem C50_whole_seconds_stored : forall E fuel c r u tz sg e n s aware ctx d, time_unit r u -> c_size c = SInt n ->
  is_datetime aware (s * 1000000) -> accepts c (VTime (s * 1000000) aware) -> (forall z, accepts c (VInt z)) ->
  field_to_stream E fuel (Field c (KTime r tz sg e)) (VTime (s * 1000000) aware) ctx d
  = field_to_stream E fuel (Field c (KInt sg e)) (VInt (s * 1000000 / u)) ctx d.
Proof. exact whole_stored. Qed.
Print Assumptions C50_whole_seconds_stored.

Theorem C50_whole_seconds_roundtrip : forall E fuel c r tz sg e n s aware ctx d bs,
  r = ResMs \/ r = ResUs -> c_size c = SInt n ->
  is_datetime aware (s * 1000000) -> accepts c (VTime (s * 1000000) aware) ->
  field_to_stream E fuel (Field c (KTime r tz sg e)) (VTime (s * 1000000) aware) ctx d = (bs, Ok tt) ->
  zlen bs = n
  /\ forall E' fuel' ctx' d' pre suf, is_datetime tz (s * 1000000) -> takes c (VTime (s * 1000000) tz) ->
       field_from_stream E' fuel' (Field c (KTime r tz sg e)) ctx' d' (at_data pre bs suf)
       = (after_data pre bs suf, Ok (VTime (s * 1000000) tz)).
Proof. exact whole_roundtrip. Qed.
Print Assumptions C50_whole_seconds_roundtrip.

Example C50_whole_seconds_example :
  let us := Field (cfg (SInt 8)) (KTime ResUs true true Big) in
  is_datetime false (253402300799 * 1000000)
  /\ field_to_stream [] 0 us (VTime (253402300799 * 1000000) false) VNone [] = ([3; 132; 68; 12; 204; 100; 29; 192], Ok tt).
Proof. unfold is_datetime. repeat split; try (vm_compute; reflexivity); lia. Qed.

Example C50_example :
  let sec := Field (cfg (SInt 4)) (KTime ResS true true Little) in
  let ms := Field (cfg (SInt 8)) (KTime ResMs true true Little) in
  let us := Field (cfg (SInt 8)) (KTime ResUs true true Little) in
  is_datetime true (1700000000 * 1000000) /\ int_range true 4 1700000000 /\ ~ int_range true 4 3000000000
  /\ field_to_stream [] 0 sec (VTime (1700000000 * 1000000) true) VNone [] = ([0; 241; 83; 101], Ok tt)
  /\ field_from_stream [] 0 sec VNone [] (at_data [] [0; 241; 83; 101] [7])
     = (after_data [] [0; 241; 83; 101] [7], Ok (VTime (1700000000 * 1000000) true))
  /\ field_to_stream [] 0 sec (VTime (3000000000 * 1000000) true) VNone []
     = ([], Raise (EUnserializable (Some "x"%string)))
  (* one microsecond early *)
  /\ field_to_stream [] 0 us (VTime 1001 true) VNone [] = ([232; 3; 0; 0; 0; 0; 0; 0], Ok tt)
  /\ field_from_stream [] 0 us VNone [] (at_data [] [232; 3; 0; 0; 0; 0; 0; 0] [])
     = (after_data [] [232; 3; 0; 0; 0; 0; 0; 0] [], Ok (VTime 1000 true))
  (* one millisecond early *)
  /\ field_to_stream [] 0 ms (VTime 1001000 true) VNone [] = ([232; 3; 0; 0; 0; 0; 0; 0], Ok tt).
Proof. unfold is_datetime, int_range. repeat split; try (vm_compute; reflexivity); lia. Qed.

(** C51: doubles keep every bit. *)
Theorem C51_double_roundtrip : forall E n c k e x ctx d,
  float_kind double k e -> c_size c = SInt 8 -> takes c (VFloat x) ->
  pattern double x -> ~ is_nan double x ->
  exists bs, field_to_stream E n (Field c k) (VFloat x) ctx d = (bs, Ok tt)
    /\ zlen bs = 8 /\ bytes_ok bs /\ bits_of e bs = x
    /\ forall E' n' ctx' d' pre suf,
         field_from_stream E' n' (Field c k) ctx' d' (at_data pre bs suf)
         = (after_data pre bs suf, Ok (VFloat x)).
Proof. exact double_roundtrip. Qed.
Print Assumptions C51_double_roundtrip.

(** Loading any non-NaN pattern gives the double with the same sign and value; dumping that
    reproduces the bytes. *)
Theorem C51_narrow_roundtrip : forall E n c i k e bs ctx d pre suf,
  float_kind i k e -> c_size c = SInt (i_bits i / 8) ->
  bytes_ok bs -> zlen bs = i_bits i / 8 -> ~ is_nan i (bits_of e bs) ->
  (forall y, takes c (VFloat y)) ->
  exists y, field_from_stream E n (Field c k) ctx d (at_data pre bs suf)
            = (after_data pre bs suf, Ok (VFloat y))
    /\ pattern double y /\ ~ is_nan double y /\ sign_bit double y = sign_bit i (bits_of e bs)
    /\ (is_finite i (bits_of e bs) -> is_finite double y
          /\ (abs_value double y == abs_value i (bits_of e bs))%Q)
    /\ forall E' n' ctx' d', field_to_stream E' n' (Field c k) (VFloat y) ctx' d' = (bs, Ok tt).
Proof. exact small_roundtrip. Qed.
Print Assumptions C51_narrow_roundtrip.

(** A double that some pattern of the narrow format stands for is stored as this pattern and
    loads back unchanged. *)
Theorem C51_representable : forall E n c i k e x y ctx d,
  float_kind i k e -> c_size c = SInt (i_bits i / 8) -> accepts c (VFloat x) -> same_number i y x ->
  exists bs, field_to_stream E n (Field c k) (VFloat x) ctx d = (bs, Ok tt)
    /\ zlen bs = i_bits i / 8 /\ bytes_ok bs /\ bits_of e bs = y
    /\ forall E' n' ctx' d' pre suf, takes c (VFloat x) ->
         field_from_stream E' n' (Field c k) ctx' d' (at_data pre bs suf)
         = (after_data pre bs suf, Ok (VFloat x)).
Proof. exact narrow_roundtrip. Qed.
Print Assumptions C51_representable.

(** -infinity, and the smallest positive half-precision number, 2^-24. *)
Example C51_representable_example :
  same_number half 64512 18442240474082181120 /\ same_number half 1 4499096027743125504
  /\ field_to_stream [] 0 (Field (cfg (SInt 2)) (KFloat binary16 Big)) (VFloat 4499096027743125504) VNone []
     = ([0; 1], Ok tt).
Proof.
  split; [|split; [|vm_compute; reflexivity]]; unfold same_number, pattern, is_nan, is_finite; vm_compute;
    repeat split; try congruence; try (intros [? ?]; congruence).
  - right. split; intros H; discriminate.
  - left. repeat split.
Qed.

(** The exact set of doubles a Float32/Float16 rejects, and how. *)
Theorem C51_overflow : forall E n c i k e x ctx d,
  float_kind i k e -> c_size c = SInt (i_bits i / 8) -> accepts c (VFloat x) ->
  (field_to_stream E n (Field c k) (VFloat x) ctx d = ([], Raise EOverflow)
   <-> is_finite double x /\ (overflow_bound i <= abs_value double x)%Q)
  /\ (~ (is_finite double x /\ (overflow_bound i <= abs_value double x)%Q) ->
      exists bs, field_to_stream E n (Field c k) (VFloat x) ctx d = (bs, Ok tt) /\ zlen bs = i_bits i / 8).
Proof. exact float_overflow. Qed.
Print Assumptions C51_overflow.

(** 1.5 as a double is 0x3ff8000000000000, as a single 0x3fc00000; 1e300 does not fit a single. *)
Example C51_example :
  let f64 := Field (cfg (SInt 8)) (KFloat binary64 Big) in
  let f32 := Field (cfg (SInt 4)) (KFloat binary32 Big) in
  let onehalf := 4609434218613702656 in
  let big := 9094988221292597932 in
  pattern double onehalf /\ ~ is_nan double onehalf /\ (abs_value double onehalf == 3 # 2)%Q
  /\ field_to_stream [] 0 f64 (VFloat onehalf) VNone [] = ([63; 248; 0; 0; 0; 0; 0; 0], Ok tt)
  /\ field_from_stream [] 0 f32 VNone [] (at_data [] [63; 192; 0; 0] [])
     = (after_data [] [63; 192; 0; 0] [], Ok (VFloat onehalf))
  /\ field_to_stream [] 0 f32 (VFloat onehalf) VNone [] = ([63; 192; 0; 0], Ok tt)
  /\ field_to_stream [] 0 f32 (VFloat big) VNone [] = ([], Raise EOverflow)
  /\ is_binobj_Error EOverflow = false.
Proof. repeat split; try (vm_compute; congruence); intros [H _]; vm_compute in H; discriminate. Qed.

(** C52: what is stored is a nearest finite number of the target format, with the same sign. *)
Theorem C52_float_nearest : forall E n c i k e x bs ctx d,
  float_kind i k e -> c_size c = SInt (i_bits i / 8) ->
  accepts c (VFloat x) -> pattern double x -> is_finite double x ->
  field_to_stream E n (Field c k) (VFloat x) ctx d = (bs, Ok tt) ->
  is_finite i (bits_of e bs) /\ sign_bit i (bits_of e bs) = sign_bit double x
  /\ forall z, is_finite i z ->
       (Qabs (abs_value i (bits_of e bs) - abs_value double x) <= Qabs (abs_value i z - abs_value double x))%Q.
Proof. exact float_nearest. Qed.
Print Assumptions C52_float_nearest.

(** 0.1 (0x3fb999999999999a) becomes 0x3dcccccd, slightly larger. *)
Example C52_example :
  let f32 := Field (cfg (SInt 4)) (KFloat binary32 Big) in
  let tenth := 4591870180066957722 in
  is_finite double tenth
  /\ field_to_stream [] 0 f32 (VFloat tenth) VNone [] = ([61; 204; 204; 205], Ok tt)
  /\ (abs_value double tenth < abs_value single (bits_of Big [61; 204; 204; 205]%Z))%Q.
Proof. repeat split; vm_compute; reflexivity. Qed.
