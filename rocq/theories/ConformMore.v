(** Conformance of the model to the project's own test suite, part 6: serialization_test.py,
    validators_test.py, decorators_test.py and pep526_test.py.

    Left out: deep copies of sentinels, error messages and warnings, misuse of the decorators
    themselves (test_validates__crash_...), and tests marked as expected failures. *)
From Verif Require Import Conform.
From Coq Require Import ZArith List String.
Import ListNotations.
Open Scope string_scope.
Open Scope list_scope.
Open Scope Z_scope.

(** ---------------------------------------------------------------- serialization_test.py *)

Example test_dump__unserializable :
  to_b (int_ Int32 any_endian [name_ "field"]) (VInt 4294967296) =
    Raise (EUnserializable (Some "field")).
Proof. vm_compute. reflexivity. Qed.

(** 0xDEADBEEF *)
Example test_dump__use_default_value :
  to_b (int_ UInt32 big_ [name_ "field"; default_ (VInt 3735928559)]) VDefault =
    Ok (hx "de ad be ef").
Proof. vm_compute. reflexivity. Qed.

Example test_loads__extraneous_data_crashes :
  raises Extraneous (from_b (Bytes_ [name_ "field"; size_ 3]) (hx "c0 ff ee 21")) = true.
Proof. vm_compute. reflexivity. Qed.

Example test_loads__no_size_crashes :
  raises UndefinedSize (from_b (String_ Latin1 []) (b "123")) = true.
Proof. vm_compute. reflexivity. Qed.

Definition Overrides : env :=
  class_in [] "StructWithFieldOverrides" [] None
    [("one", field_is (int_ UInt32 big_ [])); ("two", field_is (int_ Int32 little []))].
Definition one_1 : dict := [("one", VInt 1)].

Example test_accessor__getitem :
  struct_mem one_1 "one" = true /\ struct_get Overrides fuel 0 one_1 "one" = Ok (VInt 1).
Proof. vm_compute. auto. Qed.

Example test_accessor__getitem__no_such_field :
  struct_setitem Overrides 0 [] "asdf" (VInt 1) = Raise (EKeyErr "asdf").
Proof. vm_compute. reflexivity. Qed.

(** [str(all_fields["int_value"])] *)
Definition str_of (name : string) : query value :=
  QGet name (fun r => match r with
                      | inl (VInt z) => QRet (VStr (int_text z))
                      | inl v => QRet v
                      | inr e => QRaise e
                      end).
Definition ComputedLengthStruct : env :=
  class_in [] "ComputedLengthStruct" [] None
    [("int_value", field_is (int_ UInt32 any_endian []));
     ("value", computed_is (StringZ_ Latin1 []) (str_of "int_value"))].
Example test_computable_field_length :
  struct_len ComputedLengthStruct fuel 0 [("int_value", VInt 1234)] = Ok 9.
Proof. vm_compute. reflexivity. Qed.

Example test_accessor__setitem :
  then_ (struct_setitem Overrides 0 one_1 "two" (VInt 2))
        (fun v => struct_get Overrides fuel 0 v "two") = Ok (VInt 2).
Proof. vm_compute. reflexivity. Qed.

Example test_accessor__setitem__no_such_field :
  struct_setitem Overrides 0 one_1 "basdfdasf" (VInt 1) = Raise (EKeyErr "basdfdasf").
Proof. vm_compute. reflexivity. Qed.

Example test_accessor__delitem :
  then_ (struct_delitem Overrides 0 one_1 "one") (fun v => Ok (struct_mem one_1 "one", struct_mem v "one")) =
    Ok (true, false).
Proof. vm_compute. reflexivity. Qed.

Example test_accessor__delitem__no_such_field :
  struct_delitem Overrides 0 one_1 "basdfdasf" = Raise (EKeyErr "basdfdasf").
Proof. vm_compute. reflexivity. Qed.

Example test_len__basic :
  map (struct_len Overrides fuel 0) [[]; one_1; [("one", VInt 1); ("two", VInt 2)]] =
    [Ok 8; Ok 8; Ok 8].
Proof. vm_compute. reflexivity. Qed.

Definition StringZTestStruct : env :=
  class_in [] "StringZTestStruct" [] None
    [("header", field_is (int_ UInt32 any_endian [])); ("string", field_is (StringZ_ Latin1 []));
     ("trailer", field_is (int_ UInt16 any_endian []))].

Example test_len__variable__assigned :
  struct_len StringZTestStruct fuel 0
    [("header", VInt 10); ("string", sv "abc"); ("trailer", VInt 11)] = Ok 10.
Proof. vm_compute. reflexivity. Qed.

Example test_len__variable__missing_some :
  struct_len StringZTestStruct fuel 0 [("string", sv "abc")] = Ok 10.
Proof. vm_compute. reflexivity. Qed.

Example test_len__variable__missing_varlen :
  struct_len StringZTestStruct fuel 0 [] = Raise (EMissingRequired (Some "string")).
Proof. vm_compute. reflexivity. Qed.

Example test_to_dict__all_defined :
  to_dict Overrides fuel 0 [("one", VInt 1); ("two", VInt 2)] false =
    Ok [("one", VInt 1); ("two", VInt 2)].
Proof. vm_compute. reflexivity. Qed.

Example test_to_dict__crash_on_undefined :
  to_dict Overrides fuel 0 [("two", VInt 2)] false = Raise (EMissingRequired (Some "one")).
Proof. vm_compute. reflexivity. Qed.

(** [len(all_fields[name])] *)
Definition length_of (name : string) : query value :=
  QGet name (fun r => match r with
                      | inl v => match py_len v with
                                 | Some z => QRet (VInt z)
                                 | None => QRaise ETypeErr
                                 end
                      | inr e => QRaise e
                      end).
Definition VLenBytes : env :=
  class_in [] "VLenBytes" [] None
    [("length", computed_is (XVli VLQ None no_args) (length_of "data")); ("data", field_is (Bytes_ []))].
Example test_vli_write_size__dumps :
  struct_to_bytes VLenBytes fuel 0 [("data", bv "asdfghjkl;")] VNone = Ok (hx "0a" ++ b "asdfghjkl;").
Proof. vm_compute. reflexivity. Qed.

(** ---------------------------------------------------------------- validators_test.py *)

(** [value.isalnum()], for ASCII *)
Definition isalnum (v : value) : bool :=
  match v with
  | VStr l => negb (zlen l =? 0) &&
              forallb (fun c => ((48 <=? c) && (c <=? 57)) || ((65 <=? c) && (c <=? 90)) ||
                                ((97 <=? c) && (c <=? 122))) l
  | _ => false
  end.
Definition alnum_validator (v : value) : res unit :=
  if isalnum v then Ok tt else Raise (EValidation None).
Definition alnum_method (v : value) : query unit :=
  if isalnum v then QRet tt else QRaise (EValidation None).
(** Two different ValidationErrors are told apart by their field. *)
Definition even_method (v : value) : query unit :=
  match py_len v with
  | Some z => if z mod 2 =? 0 then QRet tt else QRaise (EValidation (Some "length"))
  | None => QRaise ETypeErr
  end.

Example test_field_validator__load_fails__one_func_passed :
  raises Validation (from_b (String_ Latin1 [size_ 5; validate_ [alnum_validator]]) (b "ab!de")) = true.
Proof. vm_compute. reflexivity. Qed.

Example test_field_validator__dump_fails__one_func_passed :
  raises Validation (to_b (String_ Latin1 [size_ 5; validate_ [alnum_validator]]) (sv "ab!de")) = true.
Proof. vm_compute. reflexivity. Qed.

Definition Alnum : env :=
  class_in [] "Class" [] None [("text", field_is (StringZ_ Latin1 [validate_ [alnum_validator]]))].

Example test_field_validator__set_invalid_value_crashes :
  raises Validation (struct_setitem Alnum 0 [] "text" (sv "!")) = true.
Proof. vm_compute. reflexivity. Qed.

Example test_field_validator__init_invalid_value_doesnt_crash :
  struct_init Alnum 0 [("text", sv "!")] = Ok [("text", sv "!")] /\
  raises Validation (struct_to_bytes Alnum fuel 0 [("text", sv "!")] VNone) = true.
Proof. vm_compute. auto. Qed.

Definition AlnumMethod : env :=
  class_in [] "Class" [] None
    [("text", field_is (StringZ_ Latin1 [])); ("validate_text", IValidates ["text"] alnum_method)].

Example test_field_validator_method__dump_crashes :
  raises Validation (struct_to_bytes AlnumMethod fuel 0 [("text", sv "!")] VNone) = true.
Proof. vm_compute. reflexivity. Qed.

Example test_field_validator_method__load_crashes :
  raises Validation (struct_from_bytes AlnumMethod fuel 0 (hx "21 00") VNone true []) = true.
Proof. vm_compute. reflexivity. Qed.

Definition Both : env :=
  class_in [] "Class" [] None
    [("text", field_is (StringZ_ Latin1 [validate_ [alnum_validator]]));
     ("validate_text", IValidates ["text"] even_method)].
Example test_field_validator_method__both_invoked :
  struct_to_bytes Both fuel 0 [("text", sv "??")] VNone = Raise (EValidation None) /\
  struct_to_bytes Both fuel 0 [("text", sv "asd")] VNone = Raise (EValidation (Some "length")) /\
  raises Validation (struct_to_bytes Both fuel 0 [("text", sv "crash?")] VNone) = true.
Proof. vm_compute. auto. Qed.

(** [dct["string"] != str(dct["integer"])] *)
Definition strings_equal : query unit :=
  QGet "string" (fun s => QGet "integer" (fun i =>
    match s, i with
    | inl (VStr l), inl (VInt z) =>
      if bytes_eqb l (int_text z) then QRet tt else QRaise (EValidation (Some "integer"))
    | inr e, _ | _, inr e => QRaise e
    | _, _ => QRaise ETypeErr
    end)).
Definition Checked : env :=
  class_in [] "Class" [] None
    [("string", field_is (StringZ_ Latin1 [])); ("integer", field_is (int_ Int8 any_endian []));
     ("validator", IValidatesStruct strings_equal)].
Definition CheckedSub : env :=
  class_in Checked "Subclass" [0%nat] None [("const", field_is (Bytes_ [const_ (bv "asdf")]))].

Example test_struct_validator__basic :
  struct_to_bytes Checked fuel 0 [("string", sv "123"); ("integer", VInt 456)] VNone =
    Raise (EValidation (Some "integer")).
Proof. vm_compute. reflexivity. Qed.

Example test_struct_validator__inheriting :
  struct_to_bytes CheckedSub fuel 1 [("string", sv "123"); ("integer", VInt 456)] VNone =
    Raise (EValidation (Some "integer")).
Proof. vm_compute. reflexivity. Qed.

Definition at_most_126 (v : value) : query unit :=
  match v with
  | VInt z => if 126 <? z then QRaise (EValidation (Some "high")) else QRet tt
  | _ => QRaise ETypeErr
  end.
Definition Family : env :=
  class_in
    (class_in [] "Class" [] None
       [("string", field_is (StringZ_ Latin1 [])); ("integer", field_is (int_ Int8 any_endian []));
        ("validator", IValidates ["integer"] at_most_126)])
    "Subclass" [0%nat] None
    [("const", field_is (Bytes_ [const_ (bv "asdf")])); ("validator_2", IValidates ["string"] even_method)].

Example test_field_validator__child_doesnt_affect_parent :
  struct_to_bytes Family fuel 1 [("string", sv "123"); ("integer", VInt 123)] VNone =
    Raise (EValidation (Some "length")) /\
  struct_to_bytes Family fuel 1 [("string", sv "1234"); ("integer", VInt 4567)] VNone =
    Raise (EValidation (Some "high")) /\
  struct_to_bytes Family fuel 0 [("string", sv "123"); ("integer", VInt 123)] VNone =
    Ok (b "123" ++ hx "00 7b").
Proof. vm_compute. auto. Qed.

(** ---------------------------------------------------------------- decorators_test.py *)

Definition u16 : fexpr := int_ UInt16 little [].
Definition Counted : env :=
  class_in [] "Class" [] None
    [("n_items", computed_is u16 (length_of "items")); ("items", field_is (Array_ u16 (CntRef "n_items") []))].
Example test_computes__basic :
  struct_to_bytes Counted fuel 0 [("items", VList [VInt 10; VInt 3; VInt 255; VInt 3])] VNone =
    Ok (hx "04 00 0a 00 03 00 ff 00 03 00").
Proof. vm_compute. reflexivity. Qed.

Example test_computes__rebind_fails :
  raises Configuration (then_ (computes (length_of "items") (made_ [] u16)) (computes (QRet VNone))) = true.
Proof. vm_compute. reflexivity. Qed.

Example test_computes__const_field_fails :
  raises Configuration
    (computes (QRet (VInt 5678)) (made_ [] (int_ UInt16 any_endian [const_ (VInt 1234)]))) = true.
Proof. vm_compute. reflexivity. Qed.

(** ---------------------------------------------------------------- pep526_test.py *)

(** The code page ibm500, as Python decodes it. *)
Definition ibm500 : codec := Charmap (map Some
  [0; 1; 2; 3; 156; 9; 134; 127; 151; 141; 142; 11; 12; 13; 14; 15;
   16; 17; 18; 19; 157; 133; 8; 135; 24; 25; 146; 143; 28; 29; 30; 31;
   128; 129; 130; 131; 132; 10; 23; 27; 136; 137; 138; 139; 140; 5; 6; 7;
   144; 145; 22; 147; 148; 149; 150; 4; 152; 153; 154; 155; 20; 21; 158; 26;
   32; 160; 226; 228; 224; 225; 227; 229; 231; 241; 91; 46; 60; 40; 43; 33;
   38; 233; 234; 235; 232; 237; 238; 239; 236; 223; 93; 36; 42; 41; 59; 94;
   45; 47; 194; 196; 192; 193; 195; 197; 199; 209; 166; 44; 37; 95; 62; 63;
   248; 201; 202; 203; 200; 205; 206; 207; 204; 96; 58; 35; 64; 39; 61; 34;
   216; 97; 98; 99; 100; 101; 102; 103; 104; 105; 171; 187; 240; 253; 254; 177;
   176; 106; 107; 108; 109; 110; 111; 112; 113; 114; 170; 186; 230; 184; 198; 164;
   181; 126; 115; 116; 117; 118; 119; 120; 121; 122; 161; 191; 208; 221; 222; 174;
   162; 163; 165; 183; 169; 167; 182; 188; 189; 190; 172; 124; 175; 168; 180; 215;
   123; 65; 66; 67; 68; 69; 70; 71; 72; 73; 173; 244; 246; 242; 243; 245;
   125; 74; 75; 76; 77; 78; 79; 80; 81; 82; 185; 251; 252; 249; 250; 255;
   92; 247; 83; 84; 85; 86; 87; 88; 89; 90; 178; 212; 214; 210; 211; 213;
   48; 49; 50; 51; 52; 53; 54; 55; 56; 57; 179; 219; 220; 217; 218; 159]).

(** [@dataclass class name(Struct): ...] with these hints and class attributes *)
Definition annotated (E : env) (name : string) (bases : list nat) (ns : namespace) (hs : hints)
  : res classdef :=
  then_ (create_class E fuel name bases None ns)
        (fun k => dataclass Little E fuel k hs (body_attr ns)).
Definition annotated_in (E : env) (name : string) (bases : list nat) (ns : namespace) (hs : hints) : env :=
  match annotated E name bases ns hs with Ok k => E ++ [k] | _ => E end.

(** An instance annotation and a PEP-593 annotation both come down to the Field object. *)
Definition basic_hints : hints :=
  [("some_value", [AFieldClass (FInt UInt16) false]); ("other_string", [AFieldClass FStringZ false]);
   ("string", [AInstance (made_ [] (String_ ibm500 [size_ 16]))])].
Definition basic_ns : namespace := [("other_string", IValue (DValue (sv "Default Value")))].
Definition BasicClass : env := annotated_in [] "BasicClass" [] basic_ns basic_hints.

Example test_field_extraction__basic :
  k_own (cls BasicClass 0) = 3 /\
  map fst (comps BasicClass 0) = ["some_value"; "other_string"; "string"].
Proof. vm_compute. auto. Qed.

Example test_field_extraction__default_values :
  option_map (fun f => c_default (conf f)) (assoc (comps BasicClass 0) "other_string") =
    Some (sv "Default Value").
Proof. vm_compute. reflexivity. Qed.

Example test_field_extraction__field_properties_assigned :
  option_map kind (assoc (comps BasicClass 0) "string") = Some (KString ibm500 None).
Proof. vm_compute. reflexivity. Qed.

Example test_field_redefine_detected_crashes :
  raises (fun e => match e with EFieldRedefined _ => true | _ => false end)
    (annotated BasicClass "_BrokenClass" [0%nat] []
       (type_hints basic_hints [("other_string", [AFieldClass FStringZ false])])) = true /\
  raises (fun e => match e with EFieldRedefined _ => true | _ => false end)
    (annotated BasicClass "_BrokenClass" [0%nat] []
       (type_hints basic_hints [("other_string", [AFieldClass (FInt UInt16) false])])) = true.
Proof. vm_compute. auto. Qed.

Example test_typing_union_breaks :
  annotated [] "_BrokenClass" [] [] [("some_value", [AUnion])] =
    Raise (EInvalidTypeAnnotation "some_value").
Proof. vm_compute. reflexivity. Qed.

Example test_optional_resolved_correctly :
  let E := annotated_in [] "NullableFieldsStruct" [] []
             [("nullable", [AFieldClass (FInt Int32) true]); ("not_nullable", [AFieldClass FStringZ false])] in
  map (fun nf => allow_null (conf (snd nf))) (comps E 0) = [true; false].
Proof. vm_compute. reflexivity. Qed.

Example test_unmarked_fields_ignored :
  k_own (cls (annotated_in [] "IgnoredFields" [] [("ignored", IValue (DValue (VInt 1234)))]
    [("ignored", [AOther]); ("unmarked_ignored", [AOther]); ("real_field", [AFieldClass FStringZ false])]) 0) = 1.
Proof. vm_compute. reflexivity. Qed.

Example test_mixed_declarations_crashes :
  annotated [] "_BrokenClass" [] [("normal_field", field_is (int_ UInt16 any_endian []))]
    [("pep526_field", [AFieldClass FStringZ false])] = Raise EMixedDeclarations.
Proof. vm_compute. reflexivity. Qed.

Example test_decorator_with_only_assigned_fields_crashes :
  annotated [] "MyStruct" [] [("field", field_is (Bytes_ [size_ 10]))] [] = Raise EMixedDeclarations.
Proof. vm_compute. reflexivity. Qed.

Example test_nested_works :
  let E := annotated_in BasicClass "NestedFields" [] []
             [("basic", [AStructClass 0]); ("other", [AFieldClass (FFloat Float32) false])] in
  option_map kind (assoc (comps E 1) "basic") = Some (KNested 0).
Proof. vm_compute. reflexivity. Qed.

(** name, index, offset, size and default of the fields; the int, float, bool, Union, ...
    outside or beside the field annotation are of no interest. *)
Definition described (E : env) : list (fname * option Z * option Z * sizespec * value) :=
  map (fun nf => let c := conf (snd nf) in (c_name c, c_index c, c_offset c, c_size c, c_default c))
      (comps E 0).
Definition string_16 : annot := AInstance (made_ [] (String_ Latin1 [size_ 16])).
Definition foo_123 : namespace := [("foo", IValue (DValue (VInt 123)))].
Definition expected : list (fname * option Z * option Z * sizespec * value) :=
  [(Some "foo", Some 0, Some 0, SInt 4, VInt 123); (Some "bar", Some 1, Some 4, SInt 16, VUndefined)].

Example test_pep593_annotated__basic :
  described (annotated_in [] "PEP593Class" [] foo_123
    [("foo", [AFieldClass (FInt UInt32) false]); ("bar", [string_16]); ("ignore_me", [AOther]);
     ("ignore_as_well", [AOther])]) = expected.
Proof. vm_compute. reflexivity. Qed.

Example test_pep593_annotated__not_as_first :
  described (annotated_in [] "PEP593Class" [] foo_123
    [("foo", [AOther; AFieldClass (FInt UInt32) false; AOther]); ("bar", [AOther; string_16]);
     ("ignore_me", [AOther]); ("ignore_as_well", [AOther])]) = expected.
Proof. vm_compute. reflexivity. Qed.

Example test_pep593_annotated__multiple_fields_crash__same_type :
  annotated [] "BrokenPEP593" [] []
    [("okay", [AOther; AFieldClass (FInt UInt32) false; AOther]); ("broken", [string_16; string_16]);
     ("ignore_me", [AOther]); ("ignore_as_well", [AOther])] = Raise (EConfig (Some "broken")).
Proof. vm_compute. reflexivity. Qed.
