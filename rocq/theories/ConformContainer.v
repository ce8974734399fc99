(** Conformance of the model to the project's own test suite, part 4:
    fields/containers_test.py.

    Left out: counts that are not an int, a string or a field (test_array__bogus_count,
    test_array__count_wrong_type), a class passed to Union (test_union__field_class_crashes)
    and the test marked as an expected failure.  A set of six integers is written as a
    list. *)
From Verif Require Import Conform.
From Coq Require Import ZArith List String.
Import ListNotations.
Open Scope string_scope.
Open Scope list_scope.
Open Scope Z_scope.

(** Integers in hexadecimal. *)
Definition n (s : string) : Z := py_from_bytes (hx s) Big false.
Definition in_class (E : env) (x : fexpr) : item := IField (made_ E x).
Definition nested (cid : nat) : fexpr := XNested cid no_args.
Definition to_bE (E : env) (x : fexpr) (v : value) : res (list Z) :=
  field_to_bytes E fuel (d_field (made_ E x)) v VNone [].
Definition from_bE (E : env) (x : fexpr) (data : list Z) (exact : bool) : res value :=
  field_from_bytes E fuel (d_field (made_ E x)) data VNone exact [].

(** SubStruct is class 0, MainStruct class 1. *)
Definition Sub : env :=
  class_in [] "SubStruct" [] None
    [("first", field_is (int_ UInt64 big_ [])); ("second", field_is (String_ Latin1 [size_ 7]))].
Definition Main : env :=
  class_in Sub "MainStruct" [] None
    [("before", field_is (int_ Int16 big_ [])); ("nested", in_class Sub (nested 0));
     ("after", field_is (int_ Int8 any_endian []))].

Example test_nested__load_basic :
  struct_from_bytes Main fuel 1
    (hx "01 02 76 54 32 10 fe dc ba 98" ++ b "String!" ++ hx "7f") VNone true [] =
  Ok [("before", VInt (n "01 02"));
      ("nested", VStruct 0 [("first", VInt (n "76 54 32 10 fe dc ba 98")); ("second", sv "String!")]);
      ("after", VInt 127)].
Proof. vm_compute. reflexivity. Qed.

Definition main_bytes : list Z := hx "0b ad 00 00 00 00 00 00 0f ad" ++ b "HllWrld" ++ hx "7f".
Definition sub_values : dict := [("first", VInt (n "0f ad")); ("second", sv "HllWrld")].

Example test_nested__dump_basic :
  then_ (struct_init Main 1 [("before", VInt (n "0b ad")); ("after", VInt 127)])
    (fun v => then_ (struct_setitem Main 1 v "nested" (VStruct 0 sub_values))
       (fun v => struct_to_bytes Main fuel 1 v VNone)) = Ok main_bytes.
Proof. vm_compute. reflexivity. Qed.

Example test_nested__dump_basic_dict_or_instance :
  map (fun data => then_ (struct_init Main 1
          [("before", VInt (n "0b ad")); ("after", VInt 127); ("nested", data)])
         (fun v => struct_to_bytes Main fuel 1 v VNone))
      [VDict sub_values; VStruct 0 sub_values] = [Ok main_bytes; Ok main_bytes].
Proof. vm_compute. reflexivity. Qed.

Definition u8 : fexpr := int_ UInt8 any_endian [].

Example test_array__basic :
  from_b (Array_ u8 CntNone []) (hx "de ad be ef") =
    Ok (VList [VInt 222; VInt 173; VInt 190; VInt 239]).
Proof. vm_compute. reflexivity. Qed.

Example test_array__sized__read :
  from_b (Array_ u8 (CntInt 3) []) (hx "de ad be") = Ok (VList [VInt 222; VInt 173; VInt 190]).
Proof. vm_compute. reflexivity. Qed.

(** [values and (values[-1] == 0xDEAD)] *)
Definition halt_at (z : Z) : haltfn :=
  fun _ values _ _ => Ok (match rev values with VInt x :: _ => x =? z | _ => false end, values).
Example test_array__sentinel :
  from_bE [] (XArray (int_ UInt16 little []) CntNone (Some (halt_at (n "de ad"))) no_args)
    (hx "00 00 ff 00 ad de ff ff") false = Ok (VList [VInt 0; VInt 255; VInt (n "de ad")]).
Proof. vm_compute. reflexivity. Qed.

Definition two_subs : list Z :=
  hx "c0 ff ee de ad be ef 00" ++ b "ABCDEFG" ++ hx "fa de db ed a5 51 ed 00" ++ b "HIJKLMN".
Definition two_dicts : value :=
  VList [VDict [("first", VInt (n "c0 ff ee de ad be ef 00")); ("second", sv "ABCDEFG")];
         VDict [("first", VInt (n "fa de db ed a5 51 ed 00")); ("second", sv "HIJKLMN")]].

Example test_array__load_nested :
  then_ (from_bE Sub (Array_ (nested 0) (CntInt 2) []) two_subs true)
        (fun loaded => py_eq Sub fuel loaded two_dicts) = Ok true.
Proof. vm_compute. reflexivity. Qed.

Example test_array__dump_nested :
  to_bE Sub (Array_ (nested 0) (CntInt 2) []) two_dicts = Ok two_subs.
Proof. vm_compute. reflexivity. Qed.

Definition BasicStructWithArray : env :=
  class_in [] "BasicStructWithArray" [] None
    [("header", field_is (String_ Latin1 [const_ (sv "ABC")]));
     ("numbers", field_is (Array_ (int_ UInt16 big_ []) (CntInt 2) []));
     ("trailer", field_is (String_ Latin1 [const_ (sv "XYZ")]))].
Definition loaded_from (E : env) (data : list Z) : option dict :=
  match struct_from_stream E fuel 0 VNone [] (mkStream data 0) with
  | (_, Ok v) => Some v
  | _ => None
  end.

Example test_array__fixed_in_struct :
  loaded_from BasicStructWithArray (b "ABC" ++ hx "de ad be ef" ++ b "XYZ") =
    Some [("header", sv "ABC"); ("numbers", VList [VInt (n "de ad"); VInt (n "be ef")]);
          ("trailer", sv "XYZ")].
Proof. vm_compute. reflexivity. Qed.

(** The sentinel is removed from the end of the array. *)
Definition bswsa_should_halt : haltfn :=
  fun _ values _ _ => match rev values with
                      | VInt 0 :: l => Ok (true, rev l)
                      | _ => Ok (false, values)
                      end.
Definition BasicStructWithSentinelArray : env :=
  class_in [] "BasicStructWithSentinelArray" [] None
    [("numbers", field_is (XArray u8 CntNone (Some bswsa_should_halt) no_args));
     ("eof", field_is (String_ Latin1 [const_ (sv "ABC")]))].

Example test_array__variable_length_sentinel_in_struct :
  loaded_from BasicStructWithSentinelArray (hx "01 02 7f 00" ++ b "ABC") =
    Some [("numbers", VList [VInt 1; VInt 2; VInt 127]); ("eof", sv "ABC")].
Proof. vm_compute. reflexivity. Qed.

(** A count given as a Field and as a name. *)
Definition BasicStructWithArraySizeField : env :=
  class_in [] "BasicStructWithArraySizeField" [] None
    [("n_numbers", field_is u8); ("numbers", field_is (Array_ u8 (CntRef "n_numbers") []));
     ("eof", field_is (String_ Latin1 [const_ (sv "ABC")]))].
Example test_array__variable_length_size_in_struct :
  loaded_from BasicStructWithArraySizeField (hx "03 01 02 7f" ++ b "ABC") =
    Some [("n_numbers", VInt 3); ("numbers", VList [VInt 1; VInt 2; VInt 127]); ("eof", sv "ABC")].
Proof. vm_compute. reflexivity. Qed.

Example test_array__variable_length_no_count_field_name_crashes :
  raises Configuration
    (to_b (Array_ u8 CntUnnamed []) (VList [VInt 5; VInt 6; VInt 7; VInt 8])) = true.
Proof. vm_compute. reflexivity. Qed.

Example test_array__variable_length_forward_reference_crashes :
  let E := class_in [] "_Crash" [] None
             [("n_numbers", field_is u8); ("numbers", field_is (Array_ u8 (CntRef "eof") []));
              ("eof", field_is (String_ Latin1 [const_ (sv "ABC")]))] in
  raises FieldReference (struct_from_bytes E fuel 0 (hx "00 00 41 42 43") VNone true []) = true.
Proof. vm_compute. reflexivity. Qed.

Example test_array__dump_basic :
  struct_to_bytes BasicStructWithSentinelArray fuel 0
    [("numbers", VList [VInt 1; VInt 2; VInt 3; VInt 0])] VNone = Ok (hx "01 02 03 00" ++ b "ABC").
Proof. vm_compute. reflexivity. Qed.

Definition two_strings : list value := [sv "abc"; sv "123456"].
Definition two_strings_bytes : list Z := b "abc" ++ [0] ++ b "123456" ++ [0].
Example test_array__sized_dump_ok :
  map (to_b (Array_ (StringZ_ Latin1 []) (CntInt 2) [])) [VList two_strings; VGen two_strings] =
    [Ok two_strings_bytes; Ok two_strings_bytes].
Proof. vm_compute. reflexivity. Qed.

Example test_array__unsized_dump_ok :
  to_b (Array_ (StringZ_ Latin1 []) CntNone []) (VList two_strings) = Ok two_strings_bytes.
Proof. vm_compute. reflexivity. Qed.

Definition range (k : nat) : list value := map (fun i => VInt (Z.of_nat i)) (seq 0 k).
Definition i8 : fexpr := int_ Int8 any_endian [].
Definition i32 : fexpr := int_ Int32 any_endian [].
Definition lost : value := VList [VInt 4; VInt 8; VInt 15; VInt 16; VInt 23; VInt 42].

Example test_array__sized_dump_too_big__unsized_iterable :
  to_b (Array_ i8 (CntInt 2) []) (VGen (range 10)) = Raise (EArraySize None 2 (Some 3)).
Proof. vm_compute. reflexivity. Qed.

Example test_array__sized_dump_too_big__sized_iterable :
  to_b (Array_ i8 (CntInt 2) []) lost = Raise (EArraySize None 2 (Some 6)).
Proof. vm_compute. reflexivity. Qed.

Example test_array__sized_dump_too_small__sized_iterable :
  to_b (Array_ i32 (CntInt 100) []) lost = Raise (EArraySize None 100 (Some 6)).
Proof. vm_compute. reflexivity. Qed.

Example test_array__sized_dump_too_small__unsized_iterable :
  to_b (Array_ i32 (CntInt 100) []) (VGen (range 6)) = Raise (EArraySize None 100 (Some 6)).
Proof. vm_compute. reflexivity. Qed.

Definition twice (name : string) : query value :=
  QGet name (fun r => match r with
                      | inl (VInt z) => QRet (VInt (z * 2))
                      | inl _ => QRaise ETypeErr
                      | inr e => QRaise e
                      end).
Definition StructWithComputedSizeArray : env :=
  class_in [] "StructWithComputedSizeArray" [] None
    [("half_size", field_is u8); ("size", computed_is u8 (twice "half_size"));
     ("stuff", field_is (Array_ u8 (CntRef "size") []))].
Example test_array__computed_size :
  let values := [("half_size", VInt 3);
                 ("stuff", VList [VInt 1; VInt 1; VInt 2; VInt 3; VInt 5; VInt 8])] in
  struct_get StructWithComputedSizeArray fuel 0 values "size" = Ok (VInt 6) /\
  struct_to_bytes StructWithComputedSizeArray fuel 0 values VNone = Ok (hx "03 06 01 01 02 03 05 08").
Proof. vm_compute. auto. Qed.

Example test_array__unbound_count_field :
  raises Configuration (from_b (Array_ i8 CntUnnamed []) []) = true.
Proof. vm_compute. reflexivity. Qed.

(** UnionItemA is class 0, UnionItemB class 1, the containers class 2. *)
Definition Items : env :=
  class_in
    (class_in [] "UnionItemA" [] None
       [("_id", field_is (int_ UInt8 any_endian [const_ (VInt 255)]));
        ("value", field_is (StringZ_ Latin1 []))])
    "UnionItemB" [] None
    [("_id", field_is (int_ UInt8 any_endian [const_ (VInt 127)]));
     ("other", field_is (int_ UInt16 little []))].
(** [choices[fields["data_type"]]] *)
Definition by_data_type (d : dict) : res nat :=
  match dget d "data_type" with
  | Some (VInt z) => Ok (Z.to_nat z)
  | Some _ => Raise ETypeErr
  | None => Raise (EKeyErr "data_type")
  end.
Definition union_of (l : list xchoice) (dump : dict -> res nat) : fexpr :=
  XUnion l (fun _ _ d => by_data_type d) (fun _ _ d => dump d) no_args.
Definition UnionContainer : env :=
  class_in Items "UnionContainer" [] None
    [("data_type", field_is u8);
     ("item", in_class Items (union_of [XCStruct 0; XCStruct 1] by_data_type))].
Definition union_dump (E : env) (data_type : Z) (item : value) : res (list Z) :=
  struct_to_bytes E fuel 2 [("data_type", VInt data_type); ("item", item)] VNone.
Definition union_load (E : env) (data : list Z) : res dict :=
  then_ (struct_from_bytes E fuel 2 data VNone true []) (fun v => to_dict E fuel 2 v false).

Definition value_asdf : dict := [("value", sv "asdf")].
Definition other_aa55 : dict := [("other", VInt (n "aa 55"))].
Definition bytes_A : list Z := hx "00 ff" ++ b "asdf" ++ hx "00".
Definition bytes_B : list Z := hx "01 7f 55 aa".
Example test_union__structs__dump_basic :
  map (union_dump UnionContainer 0) [VDict value_asdf; VStruct 0 value_asdf] =
    [Ok bytes_A; Ok bytes_A] /\
  map (union_dump UnionContainer 1) [VDict other_aa55; VStruct 1 other_aa55] =
    [Ok bytes_B; Ok bytes_B].
Proof. vm_compute. auto. Qed.

Example test_union__structs__load_basic :
  union_load UnionContainer bytes_A =
    Ok [("data_type", VInt 0); ("item", VDict [("_id", VInt 255); ("value", sv "asdf")])] /\
  union_load UnionContainer bytes_B =
    Ok [("data_type", VInt 1); ("item", VDict [("_id", VInt 127); ("other", VInt (n "aa 55"))])].
Proof. vm_compute. auto. Qed.

(** [isinstance(all_fields["item"], str)] *)
Definition by_type (d : dict) : res nat :=
  match dget d "item" with
  | Some (VStr _) => Ok 0%nat
  | Some _ => Ok 1%nat
  | None => Raise (EKeyErr "item")
  end.
Definition FieldsUnionContainer : env :=
  class_in Items "FieldsUnionContainer" [] None
    [("data_type", field_is u8);
     ("item", field_is (union_of [XCField (StringZ_ Latin1 []); XCField (int_ UInt16 little [])]
                                 by_type))].
Example test_union__fields__dump_basic :
  union_dump FieldsUnionContainer 0 (sv "asdf") = Ok (hx "00" ++ b "asdf" ++ hx "00") /\
  union_dump FieldsUnionContainer 1 (VInt (n "aa 55")) = Ok (hx "01 55 aa").
Proof. vm_compute. auto. Qed.

Example test_union__fields__load_basic :
  union_load FieldsUnionContainer (hx "00" ++ b "asdf" ++ hx "00") =
    Ok [("data_type", VInt 0); ("item", sv "asdf")] /\
  union_load FieldsUnionContainer (hx "01 55 aa") =
    Ok [("data_type", VInt 1); ("item", VInt (n "aa 55"))].
Proof. vm_compute. auto. Qed.

Example test_union__dump_non_mapping_for_struct :
  to_bE UnionContainer
    (union_of [XCStruct 2; XCField (StringZ_ Latin1 [])] (fun _ => Ok 0%nat)) (sv "foo") =
    Raise ETypeErr.
Proof. vm_compute. reflexivity. Qed.
