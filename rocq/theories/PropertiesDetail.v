(** Property theorems: formats of variable-length integers (C66), ties and integers in Float
    fields (C67), text of UUIDs (C68), values of the wrong type (C69), errors that are skipped
    (C70), fields made from annotations (C71), and additions to C19, C30, C31, C50 and C60.
    Vocabulary: Spec*.v, the definitions [int_rounded] in FloatTies.v, [text_digit] ...
    [uuid_text] in UuidText.v, [refuses] ... [below_zero] in WrongType.v, [foreign],
    [hint_field] and [plain_field] in DetailProofs.v. *)
From Coq Require Import QArith Qabs.
From Verif Require Import StructModel SpecNum VarintSpec Samples VliAttrs FloatTies UuidText WrongType DetailProofs DetailMore Decimal.
Open Scope Z_scope.

Definition cfg (s : sizespec) : fconf := basic "x" s.

(** C66: what the formats say about themselves is true of the encodings. *)
Theorem C66_signed : forall fmt,
  (vli_signed fmt = true <-> forall v, exists bs, vli_encode fmt v = Ok bs)
  /\ (vli_signed fmt = false <-> forall v, v < 0 -> vli_encode fmt v = Raise EValueErr).
Proof. exact vli_signed_iff. Qed.
Print Assumptions C66_signed.

Theorem C66_little : forall fmt v bs, vli_endian fmt = Little -> vli_encode fmt v = Ok bs ->
  exists b tl, bs = b :: tl /\ b mod 128 = v mod 128.
Proof. exact vli_little. Qed.
Print Assumptions C66_little.

Theorem C66_big : forall fmt v bs, vli_endian fmt = Big -> vli_encode fmt v = Ok bs -> 1 < zlen bs ->
  exists init b, bs = init ++ [b] /\ b mod 128 = Z.abs v mod 128.
Proof. exact vli_big. Qed.
Print Assumptions C66_big.

Example C66_example :
  map (fun fmt => (vli_signed fmt, vli_endian fmt)) [COMPACT_INDICES; LEB128; ULEB128; VLQ]
  = [(true, Big); (true, Little); (false, Little); (false, Big)]
  /\ vli_encode LEB128 (-300) = Ok [212; 125] /\ vli_encode COMPACT_INDICES (-300) = Ok [194; 44].
Proof. repeat split. Qed.

(** C67: of two nearest numbers the even one is stored. *)
Theorem C67_ties_to_even : forall E n c i k e x bs ctx d, float_kind i k e -> c_size c = SInt (i_bits i / 8) ->
  accepts c (VFloat x) -> is_finite double x ->
  field_to_stream E n (Field c k) (VFloat x) ctx d = (bs, Ok tt) ->
  forall z, is_finite i z ->
    (Qabs (abs_value i (bits_of e bs) - abs_value double x) == Qabs (abs_value i z - abs_value double x))%Q ->
    ~ (abs_value i (bits_of e bs) == abs_value i z)%Q ->
    Z.even (fraction_field i (bits_of e bs)) = true.
Proof. exact float_ties. Qed.
Print Assumptions C67_ties_to_even.

(** Integers in a Float64: nearest, ties to even; those too large are refused. *)
Theorem C67_integers : forall E n c k e z ctx d, float_kind double k e -> c_size c = SInt 8 -> accepts c (VInt z) ->
  ((overflow_bound double <= inject_Z (Z.abs z))%Q ->
     field_to_stream E n (Field c k) (VInt z) ctx d = ([], Raise (ESerialization (c_name c))))
  /\ (~ (overflow_bound double <= inject_Z (Z.abs z))%Q ->
     exists bs, field_to_stream E n (Field c k) (VInt z) ctx d = (bs, Ok tt)
       /\ zlen bs = 8 /\ bytes_ok bs /\ int_rounded z (bits_of e bs)).
Proof. exact int_double. Qed.
Print Assumptions C67_integers.

Theorem C67_integers_exact : forall z x, Z.abs z < 2 ^ 53 -> int_rounded z x ->
  (abs_value double x == inject_Z (Z.abs z))%Q.
Proof. exact int_exact. Qed.
Print Assumptions C67_integers_exact.

(** In a narrower field the integer is rounded twice... *)
Theorem C67_integers_narrow : forall E n c i k e z ctx d, float_kind i k e -> c_size c = SInt (i_bits i / 8) ->
  accepts c (VInt z) -> (forall x, accepts c (VFloat x)) ->
  ((overflow_bound double <= inject_Z (Z.abs z))%Q ->
     field_to_stream E n (Field c k) (VInt z) ctx d = ([], Raise (ESerialization (c_name c))))
  /\ (~ (overflow_bound double <= inject_Z (Z.abs z))%Q ->
      exists x, int_rounded z x
        /\ field_to_stream E n (Field c k) (VInt z) ctx d = field_to_stream E n (Field c k) (VFloat x) ctx d).
Proof. exact int_narrow. Qed.
Print Assumptions C67_integers_narrow.

(** ... so that 2^60 + 2^36 + 1 becomes 2^60 in a Float32, although 2^60 + 2^37 is nearer. *)
Theorem C67_integers_nearest_refuted :
  let z := 2 ^ 60 + 2 ^ 36 + 1 in
  let stored := 1568669696 in
  field_to_stream [] 0 (Field (cfg (SInt 4)) (KFloat binary32 Big)) (VInt z) VNone [] = ([93; 128; 0; 0], Ok tt)
  /\ bits_of Big [93; 128; 0; 0] = stored /\ (abs_value single stored == inject_Z (2 ^ 60))%Q
  /\ is_finite single (stored + 1)
  /\ (Qabs (abs_value single (stored + 1) - inject_Z z) < Qabs (abs_value single stored - inject_Z z))%Q.
Proof. repeat split; vm_compute; reflexivity. Qed.
Print Assumptions C67_integers_nearest_refuted.

(** 2049 lies between the half-precision numbers 2048 (fraction 0) and 2050 (fraction 1). *)
Example C67_example :
  let f16 := Field (cfg (SInt 2)) (KFloat binary16 Big) in
  let x := 4656724213724348416 in
  is_finite double x /\ (abs_value double x == inject_Z 2049)%Q
  /\ field_to_stream [] 0 f16 (VFloat x) VNone [] = ([104; 0], Ok tt)
  /\ (abs_value half (bits_of Big [104%Z; 0%Z]) == inject_Z 2048)%Q
  /\ (abs_value half (bits_of Big [104%Z; 1%Z]) == inject_Z 2050)%Q
  /\ (overflow_bound double <= inject_Z (2 ^ 1024))%Q
  /\ ~ (overflow_bound double <= inject_Z (2 ^ 60))%Q.
Proof.
  repeat split; try (vm_compute; reflexivity).
  - vm_compute. discriminate.
  - intros H. vm_compute in H. apply H. reflexivity.
Qed.

(** C68: the texts a UUID field stored as text accepts: prefixes "urn:" and "uuid:", braces,
    32 hexadecimal digits in either case with dashes anywhere. *)
Theorem C68_accepted : forall E n c fmt ctx d pre lb body rb ds front suf, text_format fmt ->
  In pre [[]; urn_prefix; uuid_prefix; urn_prefix ++ uuid_prefix] -> braces lb -> braces rb ->
  dashed ds body -> length ds = 32%nat ->
  let text := pre ++ lb ++ body ++ rb in
  c_size c = SInt (zlen text) -> takes c (VUUID (number ds)) ->
  field_from_stream E n (Field c (KUuid fmt)) ctx d (at_data front text suf)
  = (after_data front text suf, Ok (VUUID (number ds))).
Proof. exact uuid_text_accepted. Qed.
Print Assumptions C68_accepted.

Theorem C68_wrong_length : forall E n c fmt ctx d pre lb body rb ds front suf, text_format fmt ->
  In pre [[]; urn_prefix; uuid_prefix; urn_prefix ++ uuid_prefix] -> braces lb -> braces rb ->
  dashed ds body -> length ds <> 32%nat ->
  let text := pre ++ lb ++ body ++ rb in
  c_size c = SInt (zlen text) -> always_present c -> c_null c = VUndefined ->
  field_from_stream E n (Field c (KUuid fmt)) ctx d (at_data front text suf)
  = (after_data front text suf, Raise EValueErr).
Proof. exact uuid_text_rejected. Qed.
Print Assumptions C68_wrong_length.

(** Exactly the texts accepted, and the number read, for text without the letter u after the
    prefix; everything else is a ValueError. *)
Theorem C68_exactly : forall E n c fmt ctx d pre t front suf, text_format fmt ->
  In pre [[]; urn_prefix; uuid_prefix; urn_prefix ++ uuid_prefix] -> ~ In 117 t ->
  Forall (fun ch => 0 <= ch < 128) t ->
  c_size c = SInt (zlen (pre ++ t)) -> always_present c -> c_null c = VUndefined -> c_const c = VUndefined ->
  c_validators c = [] ->
  let s := at_data front (pre ++ t) suf in let s' := after_data front (pre ++ t) suf in
  (forall v, field_from_stream E n (Field c (KUuid fmt)) ctx d s = (s', Ok (VUUID v)) <-> uuid_text t v)
  /\ ((forall v, ~ uuid_text t v) -> field_from_stream E n (Field c (KUuid fmt)) ctx d s = (s', Raise EValueErr)).
Proof. exact uuid_text_exact. Qed.
Print Assumptions C68_exactly.

(** A field stored as canonical text also dumps any ASCII text of 36 characters. *)
Theorem C68_dumps_text : forall E n c s ctx d, c_size c = SInt 36 -> accepts c (VStr s) ->
  Forall (fun ch => 0 <= ch < 128) s ->
  field_to_stream E n (Field c (KUuid CANONICAL_STRING)) (VStr s) ctx d
  = if zlen s =? 36 then (s, Ok tt) else ([], Raise (EValueSize (c_name c))).
Proof. exact canonical_any_text. Qed.
Print Assumptions C68_dumps_text.

(** ... and any integer whose decimal text has 36 characters; every integer has exactly one. *)
Theorem C68_dumps_integer : forall E n c z t ctx d, c_size c = SInt 36 -> accepts c (VInt z) -> decimal z t ->
  field_to_stream E n (Field c (KUuid CANONICAL_STRING)) (VInt z) ctx d
  = if zlen t =? 36 then (t, Ok tt) else ([], Raise (EValueSize (c_name c))).
Proof. exact canonical_integer. Qed.
Print Assumptions C68_dumps_integer.

Theorem C68_decimal : forall z, exists t, decimal z t /\ forall t', decimal z t' -> t' = t.
Proof. exact decimal_exists. Qed.
Print Assumptions C68_decimal.

Example C68_integer_example :
  decimal (- 120) [45; 49; 50; 48]
  /\ field_to_stream [] 0 (Field (basic "u" (SInt 36)) (KUuid CANONICAL_STRING)) (VInt (10 ^ 35)) VNone []
     = (49 :: repeat 48 35, Ok tt).
Proof.
  split; [|reflexivity]. apply (decimal_negative (- 120) [1; 2; 0]); [lia|].
  split; [repeat constructor; lia|]. split; [reflexivity|]. split; discriminate.
Qed.

(** "What was dumped can be loaded", and "only the canonical (or plain hexadecimal) layout is
    read", both fail: 36 times the letter z; "----" and 32 ones; "+0x_" and 28 ones. *)
Theorem C68_strict_refuted :
  let canonical := Field (cfg (SInt 36)) (KUuid CANONICAL_STRING) in
  let hex := Field (cfg (SInt 32)) (KUuid HEX_STRING) in
  let zs := repeat 122 36 in
  let dashes := repeat 45 4 ++ repeat 49 32 in
  let odd := [43; 48; 120; 95] ++ repeat 49 28 in
  field_to_stream [] 0 canonical (VStr zs) VNone [] = (zs, Ok tt)
  /\ field_from_stream [] 0 canonical VNone [] (mkStream zs 0) = (mkStream zs 36, Raise EValueErr)
  /\ (exists u, field_from_stream [] 0 canonical VNone [] (mkStream dashes 0) = (mkStream dashes 36, Ok (VUUID u))
       /\ fst (field_to_stream [] 0 canonical (VUUID u) VNone []) <> dashes)
  /\ (exists u, field_from_stream [] 0 hex VNone [] (mkStream odd 0) = (mkStream odd 32, Ok (VUUID u))
       /\ fst (field_to_stream [] 0 hex (VUUID u) VNone []) <> odd).
Proof.
  cbv zeta. split; [reflexivity|]. split; [reflexivity|].
  split; (eexists; split; [vm_compute; reflexivity|vm_compute; discriminate]).
Qed.
Print Assumptions C68_strict_refuted.

Example C68_example :
  dashed (repeat 10 32) (repeat 65 8 ++ [45] ++ repeat 97 24)
  /\ uuid_text ([123] ++ [9; 43; 48; 88; 95] ++ repeat 48 24 ++ [49; 95; 70] ++ [125]) 31
  /\ int_literal [32; 43; 48; 120; 95; 49; 95; 70; 10] 31.
Proof.
  assert (H1 : digit_text [1; 15] [49; 95; 70]).
  { apply (dt_under 1 49 [15] [70]); [apply (td_dec 1); lia|]. apply (dt_one 15 70). apply (td_upp 15); lia. }
  split; [|split].
  - cbn. repeat (first [apply da_nil | apply (da_digit 10 65); [apply (td_upp 10); lia|]
                       | apply da_dash | apply (da_digit 10 97); [apply (td_low 10); lia|]]).
  - exists [123], ([9; 43; 48; 88; 95] ++ repeat 48 24 ++ [49; 95; 70]), [125].
    split; [reflexivity|]. split; [constructor; [auto|constructor]|]. split; [constructor; [auto|constructor]|]. cbv zeta.
    split; [reflexivity|]. split; [|lia].
    apply (il_plus [9] [43] [48; 88; 95] (repeat 0 24 ++ [1; 15]) (repeat 48 24 ++ [49; 95; 70]) []).
    + repeat constructor; cbn; auto.
    + constructor.
    + cbn; auto.
    + unfold base_prefix. cbn. tauto.
    + cbn [repeat app]. repeat (apply (dt_more 0 48); [apply (td_dec 0); lia|]). exact H1.
  - apply (il_plus [32] [43] [48; 120; 95] [1; 15] [49; 95; 70] [10]); auto;
      try (unfold base_prefix, blank; repeat constructor; cbn; tauto); cbn; tauto.
Qed.

(** C69: a value of the wrong type writes nothing and raises. *)
Theorem C69_refused : forall E n c k v ctx d e, refuses c d k v e -> a_value v -> accepts c v ->
  field_to_stream E n (Field c k) v ctx d = ([], Raise e).
Proof. exact refused. Qed.
Print Assumptions C69_refused.

(** Its size cannot be asked either. *)
Theorem C69_no_size : forall E n c k d name v e, size_refused k v e -> v <> VNone ->
  c_size c = SNone -> c_name c = Some name -> dget d name = Some v ->
  get_expected_size E n (Field c k) d = Raise e.
Proof. exact size_refused_raises. Qed.
Print Assumptions C69_no_size.

(** Floats in variable-length integers. *)
Theorem C69_floats : forall E n c fmt mx x ctx d, c_size c = SNone -> accepts c (VFloat x) -> pattern double x ->
  (forall m, mx = Some m -> 1 <= m) ->
  let r := field_to_stream E n (Field c (KVli fmt mx)) (VFloat x) ctx d in
  (is_zero x -> r = ([0], Ok tt))
  /\ (~ is_zero x -> fmt = COMPACT_INDICES \/ fmt = LEB128 -> r = ([], Raise EAttrErr))
  /\ (fmt = VLQ \/ fmt = ULEB128 -> below_zero x -> r = ([], Raise (EUnserializable (c_name c))))
  /\ (fmt = VLQ -> ~ is_zero x -> ~ below_zero x -> r = ([], Raise EAttrErr))
  /\ (fmt = ULEB128 -> ~ is_zero x -> ~ below_zero x -> ~ is_nan double x -> r = ([], Raise ETypeErr))
  /\ (fmt = ULEB128 -> is_nan double x -> r = ([], Ok tt)).
Proof. exact vli_float. Qed.
Print Assumptions C69_floats.

(** So it is not true that a successful dump can be loaded: NaN in a ULEB128 field writes
    nothing at all. *)
Theorem C69_floats_refuted :
  let f := Field (cfg SNone) (KVli ULEB128 None) in
  let nan := 9221120237041090560 in
  is_nan double nan
  /\ field_to_stream [] 0 f (VFloat nan) VNone [] = ([], Ok tt)
  /\ field_from_stream [] 0 f VNone [] (mkStream [] 0) = (mkStream [] 0, Raise (EUnexpectedEOF (Some "x"%string) 1 0)).
Proof. split; [split; [reflexivity|vm_compute; discriminate]|]. split; reflexivity. Qed.
Print Assumptions C69_floats_refuted.

(** Comparing an instance that holds a value of the wrong type may raise: an integer in an
    unsized String.  (With bytes in it Python's [list()] hides the TypeError.) *)
Theorem C69_comparison_refuted :
  let text := named "s" (Field (basic "s" SNone) (KString Utf8 None)) in
  let data := named "s" (Field (basic "s" SNone) KBytes) in
  let E := [class_of "T" [text]; class_of "B" [data]] in
  let vals := [("s"%string, VInt 5)] in
  py_eq E 9 (VStruct 0 vals) (VDict vals) = Raise EAttrErr
  /\ py_eq E 9 (VStruct 1 vals) (VDict vals) = Ok true.
Proof. split; reflexivity. Qed.
Print Assumptions C69_comparison_refuted.

Example C69_example :
  a_value (VList [VInt 1])
  /\ refuses (cfg (SInt 4)) [] (KInt false Big) (VList [VInt 1]) EAttrErr
  /\ refuses (cfg (SInt 4)) [] KBytes (VList [VInt 1]) (EValueSize (Some "x"%string))
  /\ refuses (cfg (SInt 1)) [] KBytes (VList [VInt 1]) ETypeErr
  /\ refuses (cfg SNone) [] (KStringZ Utf8 None) (VBytes [65]) ETypeErr
  /\ size_refused KBytes (VInt 5) ETypeErr.
Proof.
  split; [repeat split; discriminate|]. split; [|split; [|split; [|split]]].
  - apply (rf_int _ _ false Big 4); [reflexivity|]. intros [z H]. discriminate.
  - apply (rf_bytes_len (cfg (SInt 4)) [] 4 1); [left; reflexivity|apply (hl_list [VInt 1])|discriminate].
  - apply (rf_bytes _ _ 1); [left; reflexivity|apply (hl_list [VInt 1])].
  - apply rf_stringz. intros [s H]. discriminate.
  - apply sr_bytes. exact I.
Qed.

(** C70: an exception that is not the library's own, raised while the value of a field is
    determined, comes out of to_dict() and len()... *)
Theorem C70_foreign_errors_escape : forall E n cid vals before name f after e,
  k_comps (cls E cid) = before ++ (name, f) :: after ->
  Forall (fun nf => (exists v, value_of E n cid vals (snd nf) = Ok v)
                    \/ exists x, value_of E n cid vals (snd nf) = Raise x /\ ~ foreign x) before ->
  value_of E n cid vals f = Raise e -> foreign e ->
  (forall keep, to_dict E n cid vals keep = Raise e) /\ struct_len E n cid vals = Raise e.
Proof. exact foreign_escapes. Qed.
Print Assumptions C70_foreign_errors_escape.

(** ... and only the library's own are passed over. *)
Theorem C70_only_own_errors_skipped : forall E n cid vals name f, instance_of E cid vals ->
  In (name, f) (k_comps (cls E cid)) ->
  (exists keep d, to_dict E n cid vals keep = Ok d) \/ (exists z, struct_len E n cid vals = Ok z) ->
  (exists v, value_of E n cid vals f = Ok v)
  \/ exists e, value_of E n cid vals f = Raise e /\ ~ foreign e.
Proof. exact skipped_only_own. Qed.
Print Assumptions C70_only_own_errors_skipped.

(** A computed field that raises KeyError, after a field without a value; one that raises a
    ValidationError is measured by its fixed size. *)
Example C70_example :
  let computed e := named "c" (u8 (with_compute (QRaise e) (byte "c"))) in
  let E := [class_of "K" [named "a" (u8 (byte "a")); computed (EKeyErr "k")];
            class_of "V" [named "a" (u8 (byte "a")); computed (EValidation None)]] in
  value_of E 9 0 [] (u8 (byte "a")) = Raise (EMissingRequired (Some "a"%string))
  /\ to_dict E 9 0 [] true = Raise (EKeyErr "k") /\ struct_len E 9 0 [] = Raise (EKeyErr "k")
  /\ struct_len E 9 1 [] = Ok 2.
Proof. repeat split. Qed.

(** C71: an annotation with a field class makes the field of that class with default arguments;
    the class attribute is its default, [Optional] makes it nullable with the default null. *)
Theorem C71_annotation : forall native E n k hs attr k' name anns fc opt,
  dataclass native E n k hs attr = Ok k' -> In (name, anns) hs -> In (AFieldClass fc opt) anns ->
  exists class size kd f, hint_field native fc class size kd /\ In (name, f) (k_comps k')
    /\ plain_field name (attr name) opt size (conf f)
    /\ match kd with
       | KInt sg e0 => exists e, kind f = KInt sg e /\ byte_order (k_defaults k) class false e0 e
       | _ => kind f = kd
       end.
Proof. exact annotation_field. Qed.
Print Assumptions C71_annotation.

(** Classes that need more arguments cannot be used. *)
Theorem C71_needs_more : forall native E n k name opt hs attr, k_own k = 0 ->
  dataclass native E n k ((name, [AFieldClass FNeedsMore opt]) :: hs) attr = Raise ETypeErr.
Proof. exact annotation_needs_more. Qed.
Print Assumptions C71_needs_more.

(** The class attribute that counts: the value bound to the name, if any. *)
Theorem C71_attribute : forall pre name it post, ~ In name (map fst pre) ->
  body_attr (pre ++ (name, it) :: post) name = match it with IValue a => a | _ => DValue VUndefined end.
Proof. exact body_attribute. Qed.
Print Assumptions C71_attribute.

Theorem C71_no_attribute : forall ns name, ~ In name (map fst ns) -> body_attr ns name = DValue VUndefined.
Proof. exact body_no_attribute. Qed.
Print Assumptions C71_no_attribute.

(** class K(Struct): a: Optional[UInt16] = 7; b: Timestamp32 *)
Example C71_example :
  let k := mkClass "K" [] [] [] 0 [("endian"%string, Big)] in
  let ns := [("a"%string, IValue (DValue (VInt 7)))] in
  match dataclass Little [] 5 k [("a"%string, [AFieldClass (FInt UInt16) true]); ("b"%string, [AFieldClass FTime32 false])]
                  (body_attr ns) with
  | Ok k' => map (fun nf => (kind (snd nf), c_default (conf (snd nf)), c_null (conf (snd nf)), c_size (conf (snd nf))))
                 (k_comps k')
  | _ => []
  end = [(KInt false Big, VInt 7, VDefault, SInt 2);
         (KTime ResS false true Little, VUndefined, VUndefined, SInt 4)].
Proof. reflexivity. Qed.

(** Additions to C30 and C31: names that are no fields, and places before the stream. *)
Theorem C30_unknown_field : forall E n cid name ctx s, ~ In name (map fst (k_comps (cls E cid))) ->
  partial_load E n cid (Some name) ctx s = (s, Raise EValueErr).
Proof. exact partial_load_unknown. Qed.
Print Assumptions C30_unknown_field.

Theorem C31_unknown_field : forall E n cid name ctx s, ~ In name (map fst (k_comps (cls E cid))) ->
  get_field E n cid name ctx s = (s, Raise EValueErr).
Proof. exact get_field_unknown. Qed.
Print Assumptions C31_unknown_field.

Theorem C31_before_the_start : forall E n cid name f off ctx s, NoDup (map fst (k_comps (cls E cid))) ->
  In (name, f) (k_comps (cls E cid)) -> c_offset (conf f) = Some off ->
  Z.of_nat (s_pos s) + off < 0 -> get_field E n cid name ctx s = (s, Raise EValueErr).
Proof. exact get_field_before. Qed.
Print Assumptions C31_before_the_start.

Example C31_unknown_example :
  let E := [class_of "K" [named "a" (u8 (with_offset 0 (Some (-1)) (byte "a")))]] in
  ~ In "b"%string (map fst (k_comps (cls E 0)))
  /\ get_field E 5 0 "b" VNone (mkStream [1] 0) = (mkStream [1] 0, Raise EValueErr)
  /\ get_field E 5 0 "a" VNone (mkStream [1] 0) = (mkStream [1] 0, Raise EValueErr)
  /\ get_field E 5 0 "a" VNone (mkStream [1] 1) = (mkStream [1] 1, Ok (VInt 1)).
Proof. split; [cbn; intros [H|[]]; discriminate|]. repeat split. Qed.

(** Addition to C50: numbers of seconds outside the years 1 to 9999; for naive timestamps also
    those of 0001-01-01, which Python does not convert. *)
Theorem C50_outside : forall E n c tz sg e sz z ctx d pre bs suf, c_size c = SInt sz -> always_present c ->
  c_null c = VUndefined -> accepts c (VInt z) ->
  field_to_stream E n (Field c (KInt sg e)) (VInt z) ctx d = (bs, Ok tt) ->
  Z.abs z < 2 ^ 55 -> ~ is_datetime tz (z * 1000000) ->
  field_from_stream E n (Field c (KTime ResS tz sg e)) ctx d (at_data pre bs suf)
  = (after_data pre bs suf, Raise EValueErr).
Proof. exact seconds_not_loaded. Qed.
Print Assumptions C50_outside.

Example C50_outside_example :
  let f := Field (cfg (SInt 8)) (KTime ResS true true Big) in
  field_from_stream [] 0 f VNone [] (mkStream [0; 0; 0; 58; 255; 244; 65; 128] 0)
  = (mkStream [0; 0; 0; 58; 255; 244; 65; 128] 8, Raise EValueErr)
  /\ field_from_stream [] 0 f VNone [] (mkStream [0; 0; 0; 58; 255; 244; 65; 127] 0)
     = (mkStream [0; 0; 0; 58; 255; 244; 65; 127] 8, Ok (VTime 253402300799000000 true)).
Proof. split; vm_compute; reflexivity. Qed.

(** Much further away OSError comes out, and OverflowError where no 64-bit time is left. *)
Theorem C50_far : forall E n c tz sg e sz z ctx d pre bs suf, c_size c = SInt sz -> always_present c ->
  c_null c = VUndefined -> accepts c (VInt z) ->
  field_to_stream E n (Field c (KInt sg e)) (VInt z) ctx d = (bs, Ok tt) ->
  (2 ^ 56 <= Z.abs z < 2 ^ 63 - 4096 ->
   field_from_stream E n (Field c (KTime ResS tz sg e)) ctx d (at_data pre bs suf)
   = (after_data pre bs suf, Raise EOSErr))
  /\ (2 ^ 63 + 4096 <= Z.abs z < 2 ^ 900 ->
   field_from_stream E n (Field c (KTime ResS tz sg e)) ctx d (at_data pre bs suf)
   = (after_data pre bs suf, Raise EOverflow)).
Proof. exact seconds_far_away. Qed.
Print Assumptions C50_far.

Example C50_far_example :
  let f := Field (cfg (SInt 9)) (KTime ResS false true Big) in
  field_from_stream [] 0 f VNone [] (mkStream [0; 1; 0; 0; 0; 0; 0; 0; 0] 0)
  = (mkStream [0; 1; 0; 0; 0; 0; 0; 0; 0] 9, Raise EOSErr)
  /\ field_from_stream [] 0 f VNone [] (mkStream [1; 0; 0; 0; 0; 0; 0; 0; 0] 0)
     = (mkStream [1; 0; 0; 0; 0; 0; 0; 0; 0] 9, Raise EOverflow).
Proof. split; vm_compute; reflexivity. Qed.

(** A naive datetime on that day cannot be dumped: ValueError, not UnserializableValueError. *)
Theorem C50_first_day : forall E n c r tz sg e us ctx d, accepts c (VTime us false) -> us < - 62135510400 * 1000000 ->
  field_to_stream E n (Field c (KTime r tz sg e)) (VTime us false) ctx d = ([], Raise EValueErr).
Proof. exact first_day_refused. Qed.
Print Assumptions C50_first_day.

(** 0001-01-01T00:00:00: aware it round-trips. *)
Example C50_first_day_example :
  let f := Field (cfg (SInt 8)) (KTime ResS true true Big) in
  let g := Field (cfg (SInt 8)) (KTime ResS false true Big) in
  let bs := [255; 255; 255; 241; 136; 110; 9; 0] in
  accepts (cfg (SInt 8)) (VTime (-62135596800 * 1000000) false)
  /\ field_to_stream [] 0 g (VTime (-62135596800 * 1000000) false) VNone [] = ([], Raise EValueErr)
  /\ field_to_stream [] 0 f (VTime (-62135596800 * 1000000) true) VNone [] = (bs, Ok tt)
  /\ field_from_stream [] 0 f VNone [] (at_data [] bs []) = (after_data [] bs [], Ok (VTime (-62135596800 * 1000000) true))
  /\ field_from_stream [] 0 g VNone [] (at_data [] bs []) = (after_data [] bs [], Raise EValueErr).
Proof. split; [exact (Forall_nil _)|]. repeat split; vm_compute; reflexivity. Qed.

(** Addition to C60: the size of a Timestamp is a required argument. *)
Theorem C60_timestamp_size : forall native E n r tz e sg kw, a_size kw = SNone ->
  construct native E n (XTime Timestamp r tz e sg kw) = Raise ETypeErr.
Proof. exact timestamp_needs_size. Qed.
Print Assumptions C60_timestamp_size.

(** Addition to C71: a struct class as an annotation makes a Nested field of it, without default or
    null value whatever the class attribute and [Optional] say. *)
Theorem C71_struct_class : forall native E n k hs attr k' name anns cid,
  dataclass native E n k hs attr = Ok k' -> In (name, anns) hs -> In (AStructClass cid) anns ->
  exists f sz, In (name, f) (k_comps k') /\ kind f = KNested cid /\ get_size E n cid = Ok sz
    /\ plain_field name (DValue VUndefined) false (match sz with Some z => SInt z | None => SNone end) (conf f).
Proof. exact annotation_struct. Qed.
Print Assumptions C71_struct_class.

Example C71_struct_example :
  let E := [class_of "P" [named "a" (u8 (byte "a")); named "b" (u8 (byte "b"))]] in
  let k := mkClass "K" [] [] [] 0 [] in
  match dataclass Little E 5 k [("p"%string, [AStructClass 0])] (fun _ => DValue (VInt 7)) with
  | Ok k' => map (fun nf => (kind (snd nf), c_default (conf (snd nf)), c_size (conf (snd nf)))) (k_comps k')
  | _ => []
  end = [(KNested 0, VUndefined, SInt 2)].
Proof. reflexivity. Qed.

(** Addition to C50: numbers too large for a float. *)
Theorem C50_overflow : forall E n c r tz sg e sz z ctx d pre bs suf, c_size c = SInt sz -> always_present c ->
  c_null c = VUndefined -> accepts c (VInt z) ->
  field_to_stream E n (Field c (KInt sg e)) (VInt z) ctx d = (bs, Ok tt) ->
  (overflow_bound double <= inject_Z (Z.abs z))%Q ->
  field_from_stream E n (Field c (KTime r tz sg e)) ctx d (at_data pre bs suf)
  = (after_data pre bs suf, Raise EOverflow).
Proof. exact time_too_large. Qed.
Print Assumptions C50_overflow.

Example C50_overflow_example :
  let bs := 1 :: repeat 0 129 in
  field_to_stream [] 1 (Field (cfg (SInt 130)) (KInt false Big)) (VInt (256 ^ 129)) VNone [] = (bs, Ok tt)
  /\ (overflow_bound double <= inject_Z (Z.abs (256 ^ 129)))%Q
  /\ field_from_stream [] 1 (Field (cfg (SInt 130)) (KTime ResMs true false Big)) VNone [] (mkStream bs 0)
     = (mkStream bs 130, Raise EOverflow).
Proof. vm_compute. repeat split; discriminate. Qed.

(** Addition to C19: if None cannot be written for another reason than that the null value does not
    fit, nothing at all can be loaded. *)
Theorem C19_null_error : forall E n f ctx ctx' d out e s,
  always_present (conf f) -> c_null (conf f) <> VUndefined ->
  accepts (conf f) VNone -> field_to_stream E n f VNone ctx d = (out, Raise e) ->
  (forall x, e <> EUnserializable x) -> (forall x, e <> EValueSize x) ->
  field_from_stream E n f ctx' d s = (s, Raise e).
Proof. exact null_error. Qed.
Print Assumptions C19_null_error.

(** The size of a String that has none and holds None. *)
Theorem C19_unsized_text : forall E n c cd pad t d, c_size c = SNone -> c_null c = VStr t ->
  oget d (c_name c) = Some VNone ->
  get_expected_size E n (Field c (KString cd pad)) d
  = match encode cd t with Ok _ => Raise (EBuggyField (c_name c)) | Raise e => Raise e | OOF => OOF end.
Proof. exact unsized_null_text. Qed.
Print Assumptions C19_unsized_text.

(** Nor has None a size in a field that is not nullable and has none itself. *)
Theorem C19_unsized_none : forall E n c k d, c_size c = SNone -> c_null c = VUndefined ->
  oget d (c_name c) = Some VNone ->
  get_expected_size E n (Field c k) d = Raise (EUnserializable (c_name c)).
Proof. exact unsized_not_nullable. Qed.
Print Assumptions C19_unsized_none.
Example C19_unsized_none_example :
  get_expected_size [] 1 (Field (basic "x" SNone) (KStringZ Ascii None)) [("x"%string, VNone)]
  = Raise (EUnserializable (Some "x"%string)).
Proof. vm_compute. reflexivity. Qed.

(** The size of a Timestamp that has none and holds None. *)
Theorem C19_unsized_time : forall E n c r tz sg e us tz' d, c_size c = SNone -> c_null c = VTime us tz' ->
  oget d (c_name c) = Some VNone ->
  get_expected_size E n (Field c (KTime r tz sg e)) d = Raise (EBuggyField (c_name c)).
Proof. exact unsized_null_time. Qed.
Print Assumptions C19_unsized_time.

(** String(size=2, encoding="ascii", null_value="é") cannot even load "ab". *)
Example C19_null_error_example :
  let f := Field (with_null (VStr [233]) (basic "x" (SInt 2))) (KString Ascii None) in
  field_to_stream [] 1 f VNone VNone [] = ([], Raise EUnicodeEncode)
  /\ field_from_stream [] 1 f VNone [] (mkStream [97; 98] 0) = (mkStream [97; 98] 0, Raise EUnicodeEncode)
  /\ get_expected_size [] 1 (Field (with_null (VStr [233]) (basic "x" SNone)) (KString Ascii None)) [("x"%string, VNone)]
     = Raise EUnicodeEncode
  /\ get_expected_size [] 1 (Field (with_null (VStr [97]) (basic "x" SNone)) (KString Ascii None)) [("x"%string, VNone)]
     = Raise (EBuggyField (Some "x"%string)).
Proof. vm_compute. auto. Qed.
