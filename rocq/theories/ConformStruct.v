(** Conformance of the model to the project's own test suite, part 5: structures_test.py.

    Left out: a struct class with its own [__init__] (StructWithArgs) and the tests marked as
    expected failures. *)
From Verif Require Import Conform.
From Coq Require Import ZArith List String.
Import ListNotations.
Open Scope string_scope.
Open Scope list_scope.
Open Scope Z_scope.

Definition basic_body (int64 : list (kwargs -> kwargs)) : namespace :=
  [("string", field_is (String_ Latin1 [size_ 7])); ("int64", field_is (int_ Int64 big_ int64));
   ("uint24", field_is (int_ UnsignedInteger little [size_ 3]))].
(** Class 0 is BasicStruct, 1 BasicStructWithDefaults, 2 InheritedStruct. *)
Definition Basic : env := class_in [] "BasicStruct" [] None (basic_body []).
Definition Defaults : env :=
  class_in Basic "BasicStructWithDefaults" [] None (basic_body [default_ (VInt 0)]).
Definition Inherited : env :=
  class_in Defaults "InheritedStruct" [0%nat] None
    [("other_string", field_is (StringZ_ (Utf16 Little) []))].

Definition item_of (values : dict) (name : string) : res value :=
  then_ (struct_init Basic 0 values) (fun v => struct_get Basic fuel 0 v name).

Example test_getitem__basic :
  item_of [("string", sv "string!"); ("int64", VInt (-1)); ("uint24", VInt 123456)] "int64" =
    Ok (VInt (-1)).
Proof. vm_compute. reflexivity. Qed.

Example test_getitem__no_such_field :
  item_of [] "asdfasdfasfsda" = Raise (EKeyErr "asdfasdfasfsda").
Proof. vm_compute. reflexivity. Qed.

(** A BasicStruct with these values [== other]. *)
Definition equals (values : dict) (other : value) : res bool :=
  then_ (struct_init Basic 0 values) (fun v => py_eq Basic fuel (VStruct 0 v) other).

Example test_eq_undefined :
  equals [] VUndefined = Ok true /\ equals [("int64", VInt 123)] VUndefined = Ok false.
Proof. vm_compute. auto. Qed.

Example test_eq_not_struct_or_mapping :
  equals [] (sv "asduh48q3oth") = Ok false /\
  equals [("int64", VInt 123)] (VInt 123) = Ok false /\
  equals [("string", sv "abcdefg"); ("int64", VInt 0); ("uint24", VInt 12648430)]
         (VBytes (b "abcdefg" ++ hx "00 00 00 00 00 00 00 00 ee ff c0")) = Ok false.
Proof. vm_compute. auto. Qed.

Example test_eq_struct_with_struct :
  equals [] (VStruct 0 []) = Ok true /\
  equals [("int64", VInt 123)] (VStruct 0 [("int64", VInt 123)]) = Ok true /\
  equals [("string", sv "1234")] (VStruct 0 []) = Ok false /\
  equals [("int64", VInt 123); ("string", sv "")] (VStruct 0 [("int64", VInt 123)]) = Ok false /\
  equals [("string", sv "1234")] (VStruct 0 [("string", sv "0987")]) = Ok false.
Proof. vm_compute. auto. Qed.

Example test_iter_skips_undefined_keys :
  struct_keys [] = [] /\ struct_keys [("string", sv "1234567")] = ["string"].
Proof. vm_compute. auto. Qed.

Example test_basic__fields_loaded :
  map (fun nf => (name_of (snd nf), c_index (conf (snd nf)), c_offset (conf (snd nf)))) (comps Basic 0) =
    [(Some "string", Some 0, Some 0); (Some "int64", Some 1, Some 7); (Some "uint24", Some 2, Some 15)].
Proof. vm_compute. reflexivity. Qed.

(** 0x00BADC0FFEE15BAD *)
Definition bad : Z := py_from_bytes (hx "ba dc 0f fe e1 5b ad") Big false.
Definition bad_bytes : list Z := hx "00 ba dc 0f fe e1 5b ad".

Example test_load__basic :
  snd (struct_from_stream Basic fuel 0 VNone [] (mkStream (b "abcdefg" ++ bad_bytes ++ hx "01 02 03") 0)) =
    Ok [("string", sv "abcdefg"); ("int64", VInt bad); ("uint24", VInt 197121)].
Proof. vm_compute. reflexivity. Qed.

Example test_load__short_read :
  snd (struct_from_stream Basic fuel 0 VNone [] (mkStream (b "abcdefg" ++ bad_bytes ++ hx "01") 0)) =
    Raise (EUnexpectedEOF (Some "uint24") 3 15).
Proof. vm_compute. reflexivity. Qed.

Example test_loads__extra_bytes :
  raises Extraneous
    (struct_from_bytes Basic fuel 0 (b "abcdefghijklmnopqrstuwxyz") VNone true []) = true.
Proof. vm_compute. reflexivity. Qed.

Definition short_data : list Z := b "zyxwvut" ++ bad_bytes ++ hx "01".
Example test_partial_load__bad_column :
  snd (partial_load Basic fuel 0 (Some "lol") VNone (mkStream short_data 0)) = Raise EValueErr.
Proof. vm_compute. reflexivity. Qed.

Definition first_two : dict := [("string", sv "zyxwvut"); ("int64", VInt bad)].
Example test_partial_load__short_read :
  partial_load Basic fuel 0 None VNone (mkStream short_data 0) =
    (mkStream short_data 15, Ok first_two).
Proof. vm_compute. reflexivity. Qed.

Example test_partial_load__stops :
  let data := b "zyxwvut" ++ bad_bytes ++ hx "01 02 03" ++ b "extra data!" in
  partial_load Basic fuel 0 (Some "int64") VNone (mkStream data 0) =
    (mkStream data 15, Ok first_two).
Proof. vm_compute. reflexivity. Qed.

Example test_partial_load__short_read_of_required :
  raises UnexpectedEOF (snd (partial_load Basic fuel 0 (Some "int64") VNone
                               (mkStream (b "zyxwvut" ++ hx "0b ad") 0))) = true.
Proof. vm_compute. reflexivity. Qed.

Example test_get_field__basic :
  let stream := mkStream (b "zyxwvut" ++ bad_bytes) 0 in
  get_field Basic fuel 0 "int64" VNone stream = (stream, Ok (VInt bad)) /\
  get_field Basic fuel 0 "string" VNone stream = (stream, Ok (sv "zyxwvut")).
Proof. vm_compute. auto. Qed.

Example test_get_field__bad_name :
  snd (get_field Basic fuel 0 ":)" VNone (mkStream [] 0)) = Raise EValueErr.
Proof. vm_compute. reflexivity. Qed.

Definition to_bytes_of (E : env) (cid : nat) (values : dict) : res (list Z) :=
  then_ (struct_init E cid values) (fun v => struct_to_bytes E fuel cid v VNone).

Example test_dump__basic :
  to_bytes_of Basic 0 [("string", sv "AbCdEfG"); ("int64", VInt (-100)); ("uint24", VInt 65535)] =
    Ok (b "AbCdEfG" ++ hx "ff ff ff ff ff ff ff 9c ff ff 00").
Proof. vm_compute. reflexivity. Qed.

Example test_dump__extra_fields :
  let values := [("string", sv "AbCdEfG"); ("int64", VInt (-100)); ("uint24", VInt 65535)] in
  struct_init Basic 0 (values ++ [("one", VInt 0)]) = Raise (EUnexpectedValue ["one"]) /\
  struct_init Basic 0 (values ++ [("one", VInt 0); ("two", VInt 0)]) =
    Raise (EUnexpectedValue ["one"; "two"]).
Proof. vm_compute. auto. Qed.

Example test_dump__missing_fields :
  to_bytes_of Basic 0 [("string", sv "AbCdEfG"); ("uint24", VInt 65535)] =
    Raise (EMissingRequired (Some "int64")).
Proof. vm_compute. reflexivity. Qed.

Definition i32 : fexpr := int_ Int32 any_endian [].
Definition Varlen : env :=
  class_in [] "VarlenStruct" [] None
    [("n_items", field_is i32); ("items", field_is (Array_ i32 (CntRef "n_items") []))].
(** Class 0 is ConstArrayStruct, 1 NestedConstArrayStruct. *)
Definition ConstArray : env :=
  class_in [] "ConstArrayStruct" [] None [("items", field_is (Array_ i32 (CntInt 10) []))].
Definition NestedConstArray : env :=
  class_in ConstArray "NestedConstArrayStruct" [] None
    [("field_1", field_is (String_ Latin1 [size_ 16]));
     ("field_2", IField (made_ ConstArray (Array_ (XNested 0 no_args) (CntInt 4) [])))].

Example test_struct_size__basic : get_size Basic fuel 0 = Ok (Some 18).
Proof. vm_compute. reflexivity. Qed.
Example test_struct_size__varlen_returns_none : get_size Varlen fuel 0 = Ok None.
Proof. vm_compute. reflexivity. Qed.
Example test_struct_size__fixed_array_ok : get_size ConstArray fuel 0 = Ok (Some 40).
Proof. vm_compute. reflexivity. Qed.
Example test_struct_size__nested_ok : get_size NestedConstArray fuel 1 = Ok (Some 176).
Proof. vm_compute. reflexivity. Qed.

Example test_partial_dump__full :
  partial_dump Defaults fuel 1 [("string", sv "AbCdEfG"); ("uint24", VInt 65535)] None VNone =
    (b "AbCdEfG" ++ hx "00 00 00 00 00 00 00 00 ff ff 00", Ok tt).
Proof. vm_compute. reflexivity. Qed.

Example test_partial_dump__missing_last :
  partial_dump Defaults fuel 1 [("string", sv "AbCdEfG")] None VNone =
    (b "AbCdEfG" ++ hx "00 00 00 00 00 00 00 00", Ok tt).
Proof. vm_compute. reflexivity. Qed.

Example test_partial_dump__include_trailing_default :
  partial_dump Defaults fuel 1 [("string", sv "AbCdEfG"); ("uint24", VInt 65535)] (Some "int64") VNone =
    (b "AbCdEfG" ++ hx "00 00 00 00 00 00 00 00", Ok tt).
Proof. vm_compute. reflexivity. Qed.

Example test_partial_dump__missing_values :
  raises MissingRequired
    (snd (partial_dump Basic fuel 0 [("string", sv "AbCdEfG"); ("uint24", VInt 65535)]
                       (Some "uint24") VNone)) = true.
Proof. vm_compute. reflexivity. Qed.

(** 0xDEADBEEF, 0xFACE11 *)
Example test_inheritance__basic_dump :
  to_bytes_of Inherited 2 [("string", sv "       "); ("int64", VInt 3735928559);
                           ("uint24", VInt 16436753); ("other_string", sv "AbCd!")] =
    Ok (b "       " ++ hx "00 00 00 00 de ad be ef 11 ce fa 41 00 62 00 43 00 64 00 21 00 00 00").
Proof. vm_compute. reflexivity. Qed.

Example test_inheritance__multiple_struct_inheritance_crashes :
  create_class Inherited fuel "_Crash" [0%nat; 1%nat] None [] = Raise EMultipleInheritance.
Proof. vm_compute. reflexivity. Qed.

Example test_inheritance__field_redefinition_crashes :
  create_class Basic fuel "_Crash" [0%nat] None [("string", field_is (String_ Latin1 [size_ 7]))] =
    Raise (EFieldRedefined "string").
Proof. vm_compute. reflexivity. Qed.

Definition Dumb : env :=
  class_in [] "_Dumb" [] None
    [("first", field_is (String_ Latin1 [size_ 2]));
     ("reserved", field_is (Bytes_ [const_ (hv "00 00"); discard_]));
     ("last", field_is (String_ Latin1 [size_ 2]))].
Example test_load__discarded_fields_not_present :
  then_ (struct_from_bytes Dumb fuel 0 (hx "41 42 00 00 43 44") VNone true [])
        (fun v => to_dict Dumb fuel 0 v false) = Ok [("first", sv "AB"); ("last", sv "CD")].
Proof. vm_compute. reflexivity. Qed.
