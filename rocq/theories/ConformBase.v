(** Conformance of the model to the project's own test suite, part 3: fields/base_test.py.

    Left out: tests of user-defined field classes (BadField, BorkedField), of warnings, and
    test_noninteger_size_field_crashes's message. *)
From Verif Require Import Conform.
From Coq Require Import ZArith List String.
Import ListNotations.
Open Scope string_scope.
Open Scope list_scope.
Open Scope Z_scope.

Definition allows_null (x : fexpr) : bool := allow_null (conf (fld x)).

Example test_load__null_with_null_value_basic :
  let x := Bytes_ [name_ "field"; size_ 4; null_ (bv " :( ")] in
  allows_null x = true /\ from_b x (b " :( ") = Ok VNone.
Proof. vm_compute. auto. Qed.

Example test_load__null_with_default_null_value :
  let x := Bytes_ [name_ "field"; size_ 4; null_ VDefault] in
  allows_null x = true /\ from_b x [0; 0; 0; 0] = Ok VNone.
Proof. vm_compute. auto. Qed.

Example test_loads__field_insufficient_data :
  raises UnexpectedEOF (from_b (String_ Latin1 [size_ 17]) (b "abc")) = true.
Proof. vm_compute. reflexivity. Qed.

Example test_dump_default : to_b (Bytes_ [default_ (hv "00 00")]) VDefault = Ok [0; 0].
Proof. vm_compute. reflexivity. Qed.

Example test_const_sets_size__bytes : size_is (Bytes_ [const_ (bv "abcdef")]) = Some (SInt 6).
Proof. vm_compute. reflexivity. Qed.

Example test_default_doesnt_set_size__bytes :
  size_is (Bytes_ [default_ (bv "asdfghjk")]) = Some SNone.
Proof. vm_compute. reflexivity. Qed.

Example test_const_set_size__string_ascii :
  size_is (String_ Latin1 [const_ (sv "asdfghjkl")]) = Some (SInt 9).
Proof. vm_compute. reflexivity. Qed.

Example test_const_set_size__string_utf16 :
  size_is (String_ (Utf16 Little) [const_ (sv "asdf")]) = Some (SInt 8).
Proof. vm_compute. reflexivity. Qed.

Example test_const_set_size__sized_int_works :
  size_is (int_ Int64 any_endian [const_ (VInt 1234567890)]) = Some (SInt 8).
Proof. vm_compute. reflexivity. Qed.

Example test_const_set_size__stringz :
  size_is (StringZ_ Latin1 [const_ (sv "asdf")]) = Some (SInt 5).
Proof. vm_compute. reflexivity. Qed.

Example test_const_set_size__stringz_utf16 :
  size_is (StringZ_ (Utf16Bom Little) [const_ (sv "wxyz")]) = Some (SInt 12).
Proof. vm_compute. reflexivity. Qed.

Example test_dump__null_with_null_value :
  to_b (Bytes_ [name_ "field"; size_ 4; null_ (bv " :( ")]) VNone = Ok (b " :( ").
Proof. vm_compute. reflexivity. Qed.

Example test_dump__null_with_default_null :
  to_b (Bytes_ [name_ "field"; size_ 4; null_ VDefault]) VNone = Ok [0; 0; 0; 0].
Proof. vm_compute. reflexivity. Qed.

Example test_dump__null_with_default_and_varlen :
  let x := StringZ_ Latin1 [name_ "field"; null_ VDefault] in
  allows_null x = true /\ raises Unserializable (to_b x VNone) = true.
Proof. vm_compute. auto. Qed.

Example test_dump__null_with_default_and_field_ref :
  let x := String_ Latin1 [name_ "string"; size_of_ "size"; null_ VDefault] in
  allows_null x = true /\
  field_to_bytes [] fuel (fld x) VNone VNone [("size", VInt 5)] = Ok [0; 0; 0; 0; 0].
Proof. vm_compute. auto. Qed.

Example test_dump__no_null_value_crashes :
  let x := Bytes_ [name_ "field"; size_ 4] in
  allows_null x = false /\ to_b x VNone = Raise (EUnserializable (Some "field")).
Proof. vm_compute. auto. Qed.

Example test_dump__field_only__no_value_no_default :
  raises MissingRequired (to_b (Bytes_ [name_ "field"; size_ 4]) VDefault) = true.
Proof. vm_compute. reflexivity. Qed.

Definition BasicStructWithArray : env :=
  class_in [] "BasicStructWithArray" [] None
    [("header", field_is (Bytes_ [const_ (bv "ABC")]));
     ("numbers", field_is (Array_ (int_ UInt16 big_ []) (CntInt 2) []));
     ("trailer", field_is (Bytes_ [const_ (bv "XYZ")]))].

(** [__set__] and [__setitem__] are [field_set] and [struct_setitem]. *)
Example test_set_const_crashes__setattr :
  option_map (fun f => raises Immutable (field_set (conf f) [] (bv "ABC")))
             (assoc (comps BasicStructWithArray 0) "header") = Some true.
Proof. vm_compute. reflexivity. Qed.

Example test_set_const_crashes__setitem :
  struct_setitem BasicStructWithArray 0 [] "header" (bv "ABC") =
    Raise (EImmutable (Some "header")).
Proof. vm_compute. reflexivity. Qed.

Example test_load__invalid_const :
  struct_from_bytes BasicStructWithArray fuel 0 (b "ASDFGHJXYZ") VNone true [] =
    Raise (EValidation (Some "header")).
Proof. vm_compute. reflexivity. Qed.

(** [len(all_fields[name])] *)
Definition length_of (name : string) : query value :=
  QGet name (fun r => match r with
                      | inl v => match py_len v with
                                 | Some z => QRet (VInt z)
                                 | None => QRaise ETypeErr
                                 end
                      | inr e => QRaise e
                      end).
Definition CircularReferenceComputedSize : env :=
  class_in [] "CircularReferenceComputedSize" [] None
    [("count", computed_is (int_ UInt16 big_ []) (length_of "stuff"));
     ("stuff", field_is (Array_ (StringZ_ Latin1 []) (CntRef "count") []))].

Example test_set_computed_field__setattr :
  option_map (fun f => raises Immutable (field_set (conf f) [] (VInt 123)))
             (assoc (comps CircularReferenceComputedSize 0) "count") = Some true.
Proof. vm_compute. reflexivity. Qed.

Example test_set_computed_field__setitem :
  raises Immutable (struct_setitem CircularReferenceComputedSize 0 [] "count" (VInt 123)) = true.
Proof. vm_compute. reflexivity. Qed.

Example test_circular_reference__load :
  let loaded := struct_from_bytes CircularReferenceComputedSize fuel 0
                  (hx "00 03 61 62 63 00 00 64 65 66 67 00") VNone true [] in
  then_ loaded (fun v => struct_get CircularReferenceComputedSize fuel 0 v "count") = Ok (VInt 3) /\
  then_ loaded (fun v => struct_get CircularReferenceComputedSize fuel 0 v "stuff") =
    Ok (VList [sv "abc"; sv ""; sv "defg"]).
Proof. vm_compute. auto. Qed.

Definition circular : dict := [("stuff", VList [sv "a"; sv "bc"; sv "def"; sv ""])].
Example test_circular_reference__dump :
  struct_init CircularReferenceComputedSize 0 circular = Ok circular /\
  struct_get CircularReferenceComputedSize fuel 0 circular "count" = Ok (VInt 4) /\
  struct_to_bytes CircularReferenceComputedSize fuel 0 circular VNone =
    Ok (hx "00 04 61 00 62 63 00 64 65 66 00 00").
Proof. vm_compute. auto. Qed.

Example test_circular_reference__updates :
  struct_get CircularReferenceComputedSize fuel 0 circular "count" = Ok (VInt 4) /\
  then_ (struct_setitem CircularReferenceComputedSize 0 circular "stuff"
           (VList [sv "qwerty"; sv "uiop"]))
        (fun v => struct_get CircularReferenceComputedSize fuel 0 v "count") = Ok (VInt 2).
Proof. vm_compute. auto. Qed.

Example test_descriptor_get :
  then_ (struct_init BasicStructWithArray 0 [("header", bv "abc")])
        (fun v => struct_get BasicStructWithArray fuel 0 v "header") = Ok (bv "abc").
Proof. vm_compute. reflexivity. Qed.

Example test_descriptor_set :
  then_ (struct_init BasicStructWithArray 0 [])
        (fun v => then_ (struct_setitem BasicStructWithArray 0 v "numbers" (VList [VInt 1; VInt 2]))
                        (fun v' => Ok (dmem v "numbers", dget v' "numbers"))) =
    Ok (false, Some (VList [VInt 1; VInt 2])).
Proof. vm_compute. reflexivity. Qed.

(** [lambda f, *_: f["flags"] & 0x8000] *)
Definition has_thing : value -> option stream -> query bool :=
  fun _ _ => QGet "flags" (fun r => match r with
                                    | inl (VInt z) => QRet (negb (Z.land z 32768 =? 0))
                                    | inl _ => QRaise ETypeErr
                                    | inr e => QRaise e
                                    end).
(** [all_values.get("flags", 0)]: [Mapping.get] catches the KeyError. *)
Definition compute_flags : query value :=
  QGet "flags" (fun r =>
    let existing := match r with inl (VInt z) => z | _ => 0 end in
    QIn "thing" (fun has => QRet (VInt (if has then Z.lor existing 32768 else existing)))).
Definition BasicPresentStruct : env :=
  class_in [] "BasicPresentStruct" [] None
    [("flags", computed_is (int_ UInt16 little []) compute_flags);
     ("thing", field_is (StringZ_ Latin1 [present_ has_thing]));
     ("other_thing", field_is (int_ UInt16 little [const_ (VInt 4660)]))].
Definition equal_to (E : env) (r : res dict) (d : dict) : res bool :=
  then_ r (fun v => py_eq E fuel (VStruct 0 v) (VDict d)).

Example test_present__load__not_present :
  equal_to BasicPresentStruct
    (struct_from_bytes BasicPresentStruct fuel 0 (hx "ff 7f 34 12") VNone true [])
    [("flags", VInt 32767); ("thing", VNotPresent); ("other_thing", VInt 4660)] = Ok true.
Proof. vm_compute. reflexivity. Qed.

Example test_present__load__present :
  equal_to BasicPresentStruct
    (struct_from_bytes BasicPresentStruct fuel 0 (hx "ff ff" ++ b "hello!" ++ hx "00 34 12") VNone true [])
    [("flags", VInt 65535); ("thing", sv "hello!"); ("other_thing", VInt 4660)] = Ok true.
Proof. vm_compute. reflexivity. Qed.

Example test_present__dump__not_present_not_given :
  struct_to_bytes BasicPresentStruct fuel 0 [("flags", VInt 1); ("other_thing", VInt 4919)] VNone =
    Ok (hx "01 00 37 13").
Proof. vm_compute. reflexivity. Qed.

Example test_present__dump_not_present_given_something :
  map (fun thing => struct_to_bytes BasicPresentStruct fuel 0
         [("flags", VInt 1); ("thing", thing); ("other_thing", VInt 4919)] VNone)
      [VUndefined; VNotPresent] = [Ok (hx "01 00 37 13"); Ok (hx "01 00 37 13")].
Proof. vm_compute. reflexivity. Qed.

Definition endian_of (E : env) (name : string) : option endian :=
  match assoc (comps E 0) name with
  | Some f => match kind f with KInt _ e => Some e | _ => None end
  | None => None
  end.

(** The opposite of the machine's (little) order. *)
Example test_binding_defaults_applied__basic :
  let E := class_in [] "Test" [] (Some [("endian", Big)])
             [("opposite", field_is (int_ Int32 any_endian []));
              ("unaffected", field_is (int_ Int32 little []))] in
  endian_of E "opposite" = Some Big /\ endian_of E "unaffected" = Some Little.
Proof. vm_compute. auto. Qed.

Example test_binding_defaults_applied__class_name_prefix :
  let E := class_in [] "Test" [] (Some [("Int16__endian", Big)])
             [("opposite", field_is (int_ Int16 any_endian []));
              ("same_16", field_is (int_ Int16 little []));
              ("unaffected", field_is (int_ Int32 little []))] in
  endian_of E "opposite" = Some Big /\ endian_of E "same_16" = Some Little /\
  endian_of E "unaffected" = Some Little.
Proof. vm_compute. auto. Qed.

Example test_default_and_factory_triggers_error :
  raises Configuration
    (make [] (int_ Int8 any_endian [name_ "asdf"; default_ (VInt 123); factory_ (inl (VInt 123))])) = true.
Proof. vm_compute. reflexivity. Qed.

Example test_explicit_name_mismatch_triggers_error :
  raises Configuration (create_class [] fuel "Broken" [] None
    [("asdf", field_is (Bytes_ [name_ "qwerty"; size_ 10]))]) = true.
Proof. vm_compute. reflexivity. Qed.

Example test_explicit_name_matches_no_error :
  let E := class_in [] "ThisIsFine" [] None [("asdf", field_is (Bytes_ [name_ "asdf"; size_ 10]))] in
  option_map name_of (assoc (comps E 0) "asdf") = Some (Some "asdf").
Proof. vm_compute. reflexivity. Qed.

Example test_noninteger_size_field_crashes :
  field_from_bytes [] fuel (fld (String_ Latin1 [name_ "foo"; size_of_ "bar"])) (b "sometext")
    VNone true [("bar", sv "8")] = Raise ETypeErr.
Proof. vm_compute. reflexivity. Qed.

Example test_get_expected_size_null_repr :
  get_expected_size [] fuel (fld (String_ Latin1 [name_ "foo"; null_ (bv "NULL")])) [("foo", VNone)] =
    Ok 4.
Proof. vm_compute. reflexivity. Qed.

Example test_unserializable_null :
  raises CannotDetermineNull (from_b (StringZ_ Latin1 [null_ VDefault]) (b "string" ++ [0])) = true.
Proof. vm_compute. reflexivity. Qed.
