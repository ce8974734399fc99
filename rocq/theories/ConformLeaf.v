(** Conformance of the model to the project's own test suite, part 2:
    fields/numeric_test.py and fields/stringlike_test.py.

    Left out: tests that mock the standard library (test_float__..._exception_translation),
    tests of arguments the model's types exclude (unsupported encodings, resolutions, byte
    orders and pad bytes) and of warnings. *)
From Verif Require Import Conform.
From Coq Require Import ZArith List String.
Import ListNotations.
Open Scope string_scope.
Open Scope list_scope.
Open Scope Z_scope.

(** ---------------------------------------------------------------- numeric_test.py *)

Example test_integer_overflow :
  raises Unserializable (to_b (int_ UInt16 any_endian []) (VInt 65536)) = true.
Proof. vm_compute. reflexivity. Qed.

Example test_integer_neg_with_positive :
  raises Unserializable (to_b (int_ UInt32 any_endian []) (VInt (-1))) = true.
Proof. vm_compute. reflexivity. Qed.

Example test_integer_no_specified_size :
  raises UndefinedSize (from_b (int_ Integer any_endian []) (b "abc")) = true /\
  raises UndefinedSize (to_b (int_ Integer any_endian []) (VInt 123)) = true.
Proof. vm_compute. auto. Qed.

Definition vlq (l : list (kwargs -> kwargs)) : fexpr := XVli VLQ None (kw l).
Definition vli_2 (fmt : vli_format) (l : list (kwargs -> kwargs)) : fexpr :=
  XVli fmt (Some 2) (kw l).

Example test_const_set_size__varint :
  size_is (vlq [const_ (VInt 987654321)]) = Some (SInt 5).
Proof. vm_compute. reflexivity. Qed.

Example test_varint__underflow : raises Unserializable (to_b (vlq []) (VInt (-1))) = true.
Proof. vm_compute. reflexivity. Qed.

(** 0x1234567890 *)
Example test_varint__basic_dump :
  to_b (vlq []) (VInt 127) = Ok (hx "7f") /\
  to_b (vlq []) (VInt (py_from_bytes (hx "12 34 56 78 90") Big false)) = Ok (hx "82 a3 a2 d9 f1 10").
Proof. vm_compute. auto. Qed.

Example test_varint__basic_load : from_b (vlq []) (hx "3f") = Ok (VInt 63).
Proof. vm_compute. reflexivity. Qed.

Example test_varint__max_bytes : raises ValueSize (to_b (vli_2 VLQ []) (VInt 100000)) = true.
Proof. vm_compute. reflexivity. Qed.

Example test_varint__dump_null_value :
  to_b (vli_2 LEB128 [null_ (VInt (-1))]) VNone = Ok (hx "7f") /\
  to_b (vli_2 LEB128 [null_ (hv "7f ff")]) VNone = Ok (hx "7f ff").
Proof. vm_compute. auto. Qed.

Example test_varint__load_null_value :
  from_b (vli_2 LEB128 [null_ (VInt (-1))]) (hx "7f") = Ok VNone /\
  from_b (vli_2 LEB128 [null_ (hv "7f ff")]) (hx "7f ff") = Ok VNone.
Proof. vm_compute. auto. Qed.

Example test_varint__dump_default_null :
  to_b (vli_2 ULEB128 [null_ (VInt 127); default_ VNone]) VNone = Ok (hx "7f").
Proof. vm_compute. reflexivity. Qed.

Example test_varint__dump_factory_null :
  to_b (vli_2 ULEB128 [null_ (VInt 127); factory_ (inl VNone)]) VNone = Ok (hx "7f").
Proof. vm_compute. reflexivity. Qed.

Example test_varint__load_null_value_default_warns :
  raises CannotDetermineNull (from_b (vli_2 LEB128 [null_ VDefault]) (hx "1f")) = true.
Proof. vm_compute. reflexivity. Qed.

Example test_varint__dump_null_value_default_crashes :
  raises Unserializable (to_b (vli_2 LEB128 [null_ VDefault]) VNone) = true.
Proof. vm_compute. reflexivity. Qed.

(** The 64-bit patterns of pi, inf, -inf, nan, and of pi rounded to 32 bits; the expected
    bytes are those of [struct.pack]. *)
Definition pi := VFloat 4614256656552045848.
Definition pi_32 := VFloat 4614256656748904448.
Definition inf := VFloat 9218868437227405312.
Definition minus_inf := VFloat 18442240474082181120.
Definition nan := VFloat 9221120237041090560.
Definition float_ (c : float_class) (e : endian_arg) : fexpr := XFloat c e no_args.

Example test_float__dumps :
  map (to_b (float_ Float32 little)) [pi; inf; minus_inf; nan] =
    map Ok [hx "db 0f 49 40"; hx "00 00 80 7f"; hx "00 00 80 ff"; hx "00 00 c0 7f"] /\
  map (to_b (float_ Float64 little)) [pi; inf; minus_inf; nan] =
    map Ok [hx "18 2d 44 54 fb 21 09 40"; hx "00 00 00 00 00 00 f0 7f";
            hx "00 00 00 00 00 00 f0 ff"; hx "00 00 00 00 00 00 f8 7f"] /\
  map (to_b (float_ Float32 big_)) [pi; inf; minus_inf; nan] =
    map Ok [hx "40 49 0f db"; hx "7f 80 00 00"; hx "ff 80 00 00"; hx "7f c0 00 00"] /\
  map (to_b (float_ Float64 big_)) [pi; inf; minus_inf; nan] =
    map Ok [hx "40 09 21 fb 54 44 2d 18"; hx "7f f0 00 00 00 00 00 00";
            hx "ff f0 00 00 00 00 00 00"; hx "7f f8 00 00 00 00 00 00"].
Proof. vm_compute. auto. Qed.

Example test_float__loads :
  map (from_b (float_ Float32 little)) [hx "db 0f 49 40"; hx "00 00 80 7f"; hx "00 00 80 ff"] =
    map Ok [pi_32; inf; minus_inf] /\
  map (from_b (float_ Float64 little))
      [hx "18 2d 44 54 fb 21 09 40"; hx "00 00 00 00 00 00 f0 7f"; hx "00 00 00 00 00 00 f0 ff"] =
    map Ok [pi; inf; minus_inf] /\
  map (from_b (float_ Float32 big_)) [hx "40 49 0f db"; hx "7f 80 00 00"; hx "ff 80 00 00"] =
    map Ok [pi_32; inf; minus_inf] /\
  map (from_b (float_ Float64 big_))
      [hx "40 09 21 fb 54 44 2d 18"; hx "7f f0 00 00 00 00 00 00"; hx "ff f0 00 00 00 00 00 00"] =
    map Ok [pi; inf; minus_inf].
Proof. vm_compute. auto. Qed.

(** [struct.pack("<e", math.e)]; the result is 2.71875. *)
Example test_float16__loads :
  from_b (float_ Float16 little) (hx "70 41") = Ok (VFloat 4613304499543474176).
Proof. vm_compute. reflexivity. Qed.

Example test_float16__dumps : to_b (float_ Float16 big_) (VInt 65504) = Ok (hx "7b ff").
Proof. vm_compute. reflexivity. Qed.

Definition time_ (c : time_class) (r : resolution) (tz : bool) (e : endian_arg) : fexpr :=
  XTime c r tz e true no_args.

(** 1901-12-13 20:45:52 and 2038-01-19 03:14:07 UTC, in microseconds *)
Example test_timestamp__loads__naive :
  from_b (time_ Timestamp32 ResS true little) (hx "00 00 00 80") =
    Ok (VTime (-2147483648000000) true) /\
  from_b (time_ Timestamp32 ResS true little) (hx "ff ff ff 7f") =
    Ok (VTime 2147483647000000 true).
Proof. vm_compute. auto. Qed.

(** 2024-11-26 01:23:13 UTC *)
Example test_timestamp__loads__aware :
  from_b (time_ Timestamp32 ResS true little) (hx "01 23 45 67") = Ok (VTime 1732584193000000 true).
Proof. vm_compute. reflexivity. Qed.

(** 2019-02-10 07:55:32.105645 UTC *)
Example test_timestamp__loads__microseconds :
  from_b (time_ Timestamp64 ResUs true big_) (hx "00 05 81 85 84 32 c1 ad") =
    Ok (VTime 1549785332105645 true).
Proof. vm_compute. reflexivity. Qed.

(** [now]: 2024-11-26 01:23:13.123456 *)
Definition now_us : Z := 1732584193123456.
Definition there_and_back (x : fexpr) (v : value) : res value := then_ (to_b x v) (from_b x).

Example test_timestamp__roundtrip :
  there_and_back (XTime Timestamp ResUs true None true (kw [size_ 12])) (VTime now_us true) =
    Ok (VTime now_us true).
Proof. vm_compute. reflexivity. Qed.

Example test_timestamp__naive_assumes_local :
  to_b (time_ Timestamp64 ResUs true little) (VTime now_us true) =
  to_b (time_ Timestamp64 ResUs true little) (VTime now_us false) /\
  there_and_back (time_ Timestamp64 ResUs true little) (VTime now_us false) =
    Ok (VTime now_us true).
Proof. vm_compute. auto. Qed.

Example test_timestamp__warn_writing_aware_to_naive :
  to_b (time_ Timestamp64 ResUs false little) (VTime now_us true) =
  to_b (time_ Timestamp64 ResUs false little) (VTime now_us false) /\
  there_and_back (time_ Timestamp64 ResUs false little) (VTime now_us false) =
    Ok (VTime now_us false).
Proof. vm_compute. auto. Qed.

Example test_timestamp__naive_round_trip_truncated :
  there_and_back (time_ Timestamp64 ResS false little) (VTime now_us false) =
    Ok (VTime 1732584193000000 false).
Proof. vm_compute. reflexivity. Qed.

Example test_timestamp__aware_round_trip_truncated :
  there_and_back (time_ Timestamp64 ResS true little) (VTime now_us true) =
    Ok (VTime 1732584193000000 true).
Proof. vm_compute. reflexivity. Qed.

(** 2038-01-20 *)
Example test_2038_problem_caught__dumping :
  raises Unserializable (to_b (time_ Timestamp32 ResS false any_endian) (VTime 2147558400000000 false)) = true /\
  raises Unserializable (to_b (time_ Timestamp32 ResS true any_endian) (VTime 2147558400000000 true)) = true.
Proof. vm_compute. auto. Qed.

(** ---------------------------------------------------------------- stringlike_test.py *)

Example test_bytes__dump_too_short : raises ValueSize (to_b (Bytes_ [size_ 4]) (bv "")) = true.
Proof. vm_compute. reflexivity. Qed.

Example test_bytes__dump_too_long :
  raises ValueSize (to_b (Bytes_ [size_ 4]) (bv "!!!!!!!!!!!")) = true.
Proof. vm_compute. reflexivity. Qed.

Example test_bytes__null :
  to_b (Bytes_ [size_ 7; null_ VDefault]) VNone = Ok [0; 0; 0; 0; 0; 0; 0].
Proof. vm_compute. reflexivity. Qed.

Example test_bytes__dump_null_default :
  to_b (String_ Latin1 [null_ (bv "trash"); default_ VNone]) VNone = Ok (b "trash").
Proof. vm_compute. reflexivity. Qed.

Example test_bytes__dump_null_factory :
  to_b (Bytes_ [null_ (bv "NULL"); factory_ (inl VNone); size_ 4]) VNone = Ok (b "NULL").
Proof. vm_compute. reflexivity. Qed.

(** The shrug: macron, backslash, underscore, bracket, katakana tu, ... *)
Definition shrug : value := VStr [175; 92; 95; 40; 12484; 41; 95; 47; 175].
Definition shrug_utf8 : list Z := hx "c2 af 5c 5f 28 e3 83 84 29 5f 2f c2 af".

Example test_string__load_basic : from_b (String_ Utf8 [size_ 13]) shrug_utf8 = Ok shrug.
Proof. vm_compute. reflexivity. Qed.

Example test_string__dump_basic : to_b (String_ Utf8 [size_ 13]) shrug = Ok shrug_utf8.
Proof. vm_compute. reflexivity. Qed.

Example test_string__dump_no_size :
  raises UndefinedSize (to_b (String_ Latin1 []) (sv "asdf")) = true.
Proof. vm_compute. reflexivity. Qed.

Example test_string__dump_null_default :
  to_b (String_ Latin1 [null_ (sv "NULL"); default_ VNone; size_ 4]) VNone = Ok (b "NULL") /\
  to_b (String_ Latin1 [null_ (bv "NULL"); default_ VNone; size_ 4]) VNone = Ok (b "NULL").
Proof. vm_compute. auto. Qed.

Example test_string__dump_null_factory :
  to_b (String_ Latin1 [null_ (sv "NULL"); factory_ (inl VNone); size_ 4]) VNone = Ok (b "NULL") /\
  to_b (String_ Latin1 [null_ (bv "NULL"); factory_ (inl VNone); size_ 4]) VNone = Ok (b "NULL").
Proof. vm_compute. auto. Qed.

Example test_string__dump_variable_size :
  field_to_bytes [] fuel (fld (String_ Latin1 [size_of_ "size"])) (sv "asdf") VNone
                 [("size", VInt 4)] = Ok (b "asdf").
Proof. vm_compute. reflexivity. Qed.

Example test_string__dump_too_long_before_encoding :
  raises ValueSize (to_b (String_ Utf8 [size_ 5]) (sv "abcdefg")) = true.
Proof. vm_compute. reflexivity. Qed.

(** "très" *)
Example test_string__dump_too_long_after_encoding :
  raises ValueSize (to_b (String_ Utf8 [size_ 4]) (VStr [116; 114; 232; 115])) = true.
Proof. vm_compute. reflexivity. Qed.

Example test_string__dump_too_short_before_encoding :
  raises ValueSize (to_b (String_ Utf8 [size_ 5]) (sv "a")) = true.
Proof. vm_compute. reflexivity. Qed.

Definition padded (cd : codec) (pad : Z) (l : list (kwargs -> kwargs)) : fexpr :=
  XString cd (Some pad) (kw l).

Example test_string__dump_too_short_before_encoding__pad :
  to_b (padded Latin1 32 [size_ 5]) (sv "a") = Ok (b "a    ").
Proof. vm_compute. reflexivity. Qed.

Example test_string__dump_too_short_after_encoding__pad :
  to_b (padded (Utf32 Big) 0 [size_ 8]) (sv "a") = Ok (hx "00 00 00 61 00 00 00 00").
Proof. vm_compute. reflexivity. Qed.

Example test_string__dump_too_long_before_encoding__pad :
  raises ValueSize (to_b (padded Latin1 63 [size_ 5]) (sv "abcdefgh")) = true.
Proof. vm_compute. reflexivity. Qed.

Example test_string__dump_too_long_after_encoding__pad :
  raises ValueSize (to_b (padded (Utf16 Little) 63 [size_ 3]) (sv "ab")) = true.
Proof. vm_compute. reflexivity. Qed.

Example test_stringz__dump_null_default :
  to_b (StringZ_ Latin1 [size_ 7; null_ VDefault]) VNone = Ok [0; 0; 0; 0; 0; 0; 0].
Proof. vm_compute. reflexivity. Qed.

Example test_stringz__unsized_dump_null_default :
  map (fun l => to_b (StringZ_ Latin1 l) VNone)
      [[null_ (sv "NULL"); default_ VNone]; [null_ (sv "NULL"); factory_ (inl VNone)];
       [null_ (hv "4e 55 4c 4c 00"); default_ VNone];
       [null_ (hv "4e 55 4c 4c 00"); factory_ (inl VNone)]] =
  let expected := Ok (hx "4e 55 4c 4c 00") in [expected; expected; expected; expected].
Proof. vm_compute. reflexivity. Qed.

Example test_stringz__dump_too_long :
  raises ValueSize (to_b (StringZ_ Latin1 [size_ 5]) (sv "asdfqwerty")) = true.
Proof. vm_compute. reflexivity. Qed.

Example test_stringz__dump_too_short :
  raises ValueSize (to_b (StringZ_ Latin1 [size_ 5]) (sv "a")) = true.
Proof. vm_compute. reflexivity. Qed.

Example test_string__load_null_default :
  from_b (String_ Latin1 [size_ 7; null_ VDefault]) [0; 0; 0; 0; 0; 0; 0] = Ok VNone.
Proof. vm_compute. reflexivity. Qed.

Definition wide_null : string := "4e 00 55 00 4c 00 4c 00".
Example test_string__null_value :
  from_b (String_ (Utf16 Little) [size_ 8; null_ (hv wide_null)]) (hx wide_null) = Ok VNone /\
  from_b (String_ (Utf16 Little) [size_ 8; null_ (sv "NULL")]) (hx wide_null) = Ok VNone.
Proof. vm_compute. auto. Qed.

Example test_string__pad_default :
  to_b (padded Latin1 32 [size_ 4; default_ (sv "?")]) VDefault = Ok (b "?   ").
Proof. vm_compute. reflexivity. Qed.

Example test_stringz__pad :
  to_b (XStringZ Latin1 (Some 32) (kw [size_ 4])) (sv "a") = Ok (hx "61 00 20 20").
Proof. vm_compute. reflexivity. Qed.

Example test_stringz__load_basic : from_b (StringZ_ Utf8 []) (shrug_utf8 ++ [0]) = Ok shrug.
Proof. vm_compute. reflexivity. Qed.

Example test_stringz__load_eof_before_null :
  raises is_DeserializationError (from_b (StringZ_ Utf8 []) shrug_utf8) = true.
Proof. vm_compute. reflexivity. Qed.

Example test_stringz__dump_basic : to_b (StringZ_ Utf8 []) shrug = Ok (shrug_utf8 ++ [0]).
Proof. vm_compute. reflexivity. Qed.

Example test_stringz__dump_multibyte :
  to_b (StringZ_ (Utf32 Little) []) (sv "AbC") =
    Ok (hx "41 00 00 00 62 00 00 00 43 00 00 00 00 00 00 00").
Proof. vm_compute. reflexivity. Qed.

Example test_stringz__dump_multibyte_with_bom :
  to_b (StringZ_ (Utf16Bom Little) []) (sv "AbCd") =
    Ok (hx "ff fe 41 00 62 00 43 00 64 00 00 00") /\
  to_b (StringZ_ (Utf16Bom Big) []) (sv "AbCd") =
    Ok (hx "fe ff 00 41 00 62 00 43 00 64 00 00").
Proof. vm_compute. auto. Qed.

Example test_stringz_load_multibyte :
  from_b (StringZ_ (Utf16Bom Little) []) (hx "ff fe 41 00 62 00 43 00 64 00 00 00") =
    Ok (sv "AbCd") /\
  from_b (StringZ_ (Utf16Bom Little) []) (hx "fe ff 00 41 00 62 00 43 00 64 00 00") =
    Ok (sv "AbCd").
Proof. vm_compute. auto. Qed.

Example test_stringz__load_null_value :
  from_b (StringZ_ Latin1 [null_ (hv "4e 55 4c 4c 00")]) (hx "4e 55 4c 4c 00") = Ok VNone /\
  from_b (StringZ_ Latin1 [null_ (sv "NULL")]) (hx "4e 55 4c 4c 00") = Ok VNone.
Proof. vm_compute. auto. Qed.

Example test_stringz__load_default_null_crashes :
  raises CannotDetermineNull (from_b (StringZ_ Latin1 [null_ VDefault]) [0]) = true.
Proof. vm_compute. reflexivity. Qed.

Example test_stringz__dump_default_null_crashes :
  raises Unserializable (to_b (StringZ_ Latin1 [null_ VDefault]) VNone) = true.
Proof. vm_compute. reflexivity. Qed.

Example test_stringz__load_with_default :
  from_b (StringZ_ Latin1 [default_ (sv "abc123")]) (b "qwerty" ++ [0]) = Ok (sv "qwerty").
Proof. vm_compute. reflexivity. Qed.

(** [value]: 12345678-9abc-4def-8012-3456789abcde *)
Definition a_uuid : Z := py_from_bytes (hx "12 34 56 78 9a bc 4d ef 80 12 34 56 78 9a bc de") Big false.
Definition uuid_ (fmt : uuid_format) : fexpr := XUuid fmt no_args.

Example test_uuid_round_trip :
  map (fun fmt => to_b (uuid_ fmt) (VUUID a_uuid))
      [BINARY_VARIANT_1; BINARY_VARIANT_2; CANONICAL_STRING; HEX_STRING] =
    map Ok [hx "12 34 56 78 9a bc 4d ef 80 12 34 56 78 9a bc de";
            hx "78 56 34 12 bc 9a ef 4d 80 12 34 56 78 9a bc de";
            b "12345678-9abc-4def-8012-3456789abcde"; b "123456789abc4def80123456789abcde"] /\
  map (fun fmt => there_and_back (uuid_ fmt) (VUUID a_uuid))
      [BINARY_VARIANT_1; BINARY_VARIANT_2; CANONICAL_STRING; HEX_STRING] =
    let expected := Ok (VUUID a_uuid) in [expected; expected; expected; expected].
Proof. vm_compute. auto. Qed.

Example test_uuid_short_read :
  raises UnexpectedEOF (from_b (uuid_ CANONICAL_STRING) (b "asdf")) = true.
Proof. vm_compute. reflexivity. Qed.

(** class StringZStringStruct(Struct): size_field = Int32(); data_field = StringZ(size=size_field) *)
Definition StringZStringStruct : env :=
  class_in [] "StringZStringStruct" [] None
    [("size_field", field_is (int_ Int32 any_endian []));
     ("data_field", field_is (StringZ_ Latin1 [size_of_ "size_field"]))].

Example test_stringz__dump_too_long__size_field :
  raises ValueSize (struct_to_bytes StringZStringStruct fuel 0
    [("size_field", VInt 4); ("data_field", sv "asdfqwerty")] VNone) = true.
Proof. vm_compute. reflexivity. Qed.

Example test_stringz__dump_too_short__size_field :
  raises ValueSize (struct_to_bytes StringZStringStruct fuel 0
    [("size_field", VInt 4); ("data_field", sv "a")] VNone) = true.
Proof. vm_compute. reflexivity. Qed.
