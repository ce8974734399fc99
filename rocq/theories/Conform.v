(** Conformance of the model to the project's own test suite (/repo/tests), part 1: notation
    for the tests, varints_test.py and helpers_test.py.

    Each [Example] is named after the test it transcribes and is checked by computation.
    These are tests of the model, not properties: they show that the functions the theorems
    are about return what the project's tests expect of the code. *)
From Coq Require Import ZArith List String Ascii.
From Verif Require Export Decl.
Import ListNotations.
Open Scope string_scope.
Open Scope list_scope.
Open Scope Z_scope.

(** ---------------------------------------------------------------- notation *)

(** [b"..."] without escapes, and [bytes.fromhex] *)
Definition b (s : string) : list Z := str_codes s.
Definition hex_digit (c : Z) : option Z :=
  if (48 <=? c) && (c <=? 57) then Some (c - 48)
  else if (97 <=? c) && (c <=? 102) then Some (c - 87)
  else None.
Fixpoint hex_pairs (l : list Z) : list Z :=
  match l with
  | x :: ((y :: l') as l1) =>
    match hex_digit x, hex_digit y with
    | Some a, Some c => 16 * a + c :: hex_pairs l'
    | _, _ => hex_pairs l1
    end
  | _ => []
  end.
Definition hx (s : string) : list Z := hex_pairs (str_codes s).
Example hx_example : hx "00 7f ff 1a" = [0; 127; 255; 26].
Proof. reflexivity. Qed.

(** Values. *)
Definition bv (s : string) : value := VBytes (b s).
Definition hv (s : string) : value := VBytes (hx s).
Definition sv (s : string) : value := VStr (b s).

(** Keyword arguments of a constructor, applied from left to right. *)
Definition kw (l : list (kwargs -> kwargs)) : kwargs := fold_left (fun k f => f k) l no_args.
Definition name_ (x : string) (k : kwargs) : kwargs :=
  mkKw (Some x) (a_const k) (a_default k) (a_factory k) (a_discard k) (a_null k) (a_size k)
       (a_validate k) (a_present k) (a_npv k).
Definition const_ (v : value) (k : kwargs) : kwargs :=
  mkKw (a_name k) v (a_default k) (a_factory k) (a_discard k) (a_null k) (a_size k)
       (a_validate k) (a_present k) (a_npv k).
Definition default_ (v : value) (k : kwargs) : kwargs :=
  mkKw (a_name k) (a_const k) (DValue v) (a_factory k) (a_discard k) (a_null k) (a_size k)
       (a_validate k) (a_present k) (a_npv k).
Definition factory_ (r : value + exn) (k : kwargs) : kwargs :=
  mkKw (a_name k) (a_const k) (a_default k) (Some r) (a_discard k) (a_null k) (a_size k)
       (a_validate k) (a_present k) (a_npv k).
Definition discard_ (k : kwargs) : kwargs :=
  mkKw (a_name k) (a_const k) (a_default k) (a_factory k) true (a_null k) (a_size k)
       (a_validate k) (a_present k) (a_npv k).
Definition null_ (v : value) (k : kwargs) : kwargs :=
  mkKw (a_name k) (a_const k) (a_default k) (a_factory k) (a_discard k) v (a_size k)
       (a_validate k) (a_present k) (a_npv k).
Definition size_ (z : Z) (k : kwargs) : kwargs := with_size (SInt z) k.
Definition size_of_ (x : string) (k : kwargs) : kwargs := with_size (SRef x) k.
Definition validate_ (l : list (value -> res unit)) (k : kwargs) : kwargs :=
  mkKw (a_name k) (a_const k) (a_default k) (a_factory k) (a_discard k) (a_null k) (a_size k)
       l (a_present k) (a_npv k).
Definition present_ (p : value -> option stream -> query bool) (k : kwargs) : kwargs :=
  mkKw (a_name k) (a_const k) (a_default k) (a_factory k) (a_discard k) (a_null k) (a_size k)
       (a_validate k) p (a_npv k).
Definition not_present_ (v : value) (k : kwargs) : kwargs :=
  mkKw (a_name k) (a_const k) (a_default k) (a_factory k) (a_discard k) (a_null k) (a_size k)
       (a_validate k) (a_present k) v.

(** Arguments [endian="little"] and [endian="big"]. *)
Definition little : endian_arg := Some (Some Little).
Definition big_ : endian_arg := Some (Some Big).
Definition any_endian : endian_arg := None.

(** Integer fields: [UInt8(...)] etc.; strings with the default encoding iso-8859-1. *)
Definition int_ (c : int_class) (e : endian_arg) (l : list (kwargs -> kwargs)) : fexpr :=
  XInt c e None (kw l).
Definition Bytes_ (l : list (kwargs -> kwargs)) : fexpr := XBytes (kw l).
Definition String_ (cd : codec) (l : list (kwargs -> kwargs)) : fexpr := XString cd None (kw l).
Definition StringZ_ (cd : codec) (l : list (kwargs -> kwargs)) : fexpr := XStringZ cd None (kw l).
Definition Array_ (x : fexpr) (c : countspec) (l : list (kwargs -> kwargs)) : fexpr :=
  XArray x c None (kw l).

(** A constructor call on a little-endian machine; fuel for everything below. *)
Definition fuel : nat := 40.
Definition make (E : env) (x : fexpr) : res decl := construct Little E fuel x.
Definition placeholder : decl := mkDecl "" false (Field (mkConf None VUndefined VUndefined None
  false VUndefined SNone [] (fun _ _ => QRet true) VNotPresent None None None) KBytes).
Definition made_ (E : env) (x : fexpr) : decl :=
  match make E x with Ok d => d | _ => placeholder end.
(** A field used on its own. *)
Definition fld (x : fexpr) : field := d_field (made_ [] x).
Definition size_is (x : fexpr) : option sizespec :=
  match make [] x with Ok d => Some (c_size (conf (d_field d))) | _ => None end.

(** [field.to_bytes(v)], [field.from_bytes(data)] *)
Definition to_b (x : fexpr) (v : value) : res (list Z) :=
  field_to_bytes [] fuel (fld x) v VNone [].
Definition from_b (x : fexpr) (data : list Z) : res value :=
  field_from_bytes [] fuel (fld x) data VNone true [].

(** Class statements; a class that cannot be created is left out. *)
Definition class_in (E : env) (name : string) (bases : list nat)
    (meta : option (list (string * endian))) (ns : namespace) : env :=
  match create_class E fuel name bases meta ns with Ok k => E ++ [k] | _ => E end.
Definition field_is (x : fexpr) : item := IField (made_ [] x).
(** [@field.computes] *)
Definition computed_is (x : fexpr) (q : query value) : item :=
  match computes q (made_ [] x) with Ok d => IField d | _ => IField placeholder end.

(** One call after another. *)
Definition then_ {A B} (r : res A) (k : A -> res B) : res B :=
  match r with Ok a => k a | Raise e => Raise e | OOF => OOF end.

(** Which exception was raised, without its arguments. *)
Definition raises {A} (p : exn -> bool) (r : res A) : bool :=
  match r with Raise e => p e | _ => false end.
Definition Unserializable (e : exn) := match e with EUnserializable _ => true | _ => false end.
Definition UndefinedSize (e : exn) := match e with EUndefinedSize _ => true | _ => false end.
Definition ValueSize (e : exn) := match e with EValueSize _ => true | _ => false end.
Definition MissingRequired (e : exn) := match e with EMissingRequired _ => true | _ => false end.
Definition UnexpectedEOF (e : exn) := match e with EUnexpectedEOF _ _ _ => true | _ => false end.
Definition Validation (e : exn) := match e with EValidation _ => true | _ => false end.
Definition Immutable (e : exn) := match e with EImmutable _ => true | _ => false end.
Definition CannotDetermineNull (e : exn) :=
  match e with ECannotDetermineNull _ => true | _ => false end.
Definition Configuration := is_ConfigurationError.
Definition Extraneous (e : exn) := match e with EExtraneous _ => true | _ => false end.
Definition ArraySize (e : exn) := match e with EArraySize _ _ _ => true | _ => false end.
Definition UnexpectedValue (e : exn) := match e with EUnexpectedValue _ => true | _ => false end.
Definition FieldReference (e : exn) := match e with EFieldReference _ => true | _ => false end.

(** A loader on all of [data]: the value, and that nothing is left. *)
Definition decoded {A} (l : loader A) (data : list Z) : option (A * list Z) :=
  match l (mkStream data 0) with (s, Ok a) => Some (a, rest s) | _ => None end.

(** ---------------------------------------------------------------- varints_test.py *)

Example test_encode_vlq_basic :
  map encode_integer_vlq [0; 127; 128; 65535] =
  map Ok [hx "00"; hx "7f"; hx "81 00"; hx "83 ff 7f"].
Proof. vm_compute. reflexivity. Qed.

Example test_encode_vlq_negative_crashes : encode_integer_vlq (-1) = Raise EValueErr.
Proof. vm_compute. reflexivity. Qed.

Example test_decode_vlq_basic :
  map (decoded decode_integer_vlq) [hx "00"; hx "7f"; hx "81 00"; hx "83 ff 7f"] =
  map (fun z => Some (z, [])) [0; 127; 128; 65535].
Proof. vm_compute. reflexivity. Qed.

Example test_encode_compact :
  map encode_integer_compact [0; 1; -32767; 895484] =
  map Ok [hx "00"; hx "01"; hx "c1 ff 7f"; hx "b6 d3 7c"].
Proof. vm_compute. reflexivity. Qed.

Example test_decode_compact :
  map (decoded decode_integer_compact) [hx "00"; hx "01"; hx "41"; hx "c1 ff 7f"; hx "b6 d3 7c"] =
  map (fun z => Some (z, [])) [0; 1; -1; -32767; 895484].
Proof. vm_compute. reflexivity. Qed.

(** 0xB1ACC0FFEE2BAD *)
Definition big_number : Z := 50011015805283245.
Example big_number_hex : py_from_bytes (hx "b1 ac c0 ff ee 2b ad") Big false = big_number.
Proof. vm_compute. reflexivity. Qed.

Example test_encode_uleb128 :
  map encode_integer_uleb128 [0; 127; 128; 7345004; big_number] =
  map Ok [hx "00"; hx "7f"; hx "80 01"; hx "ec a6 c0 03"; hx "ad d7 b8 ff 8f 98 eb 58"].
Proof. vm_compute. reflexivity. Qed.

Example test_encode_uleb128__negative_crashes : encode_integer_uleb128 (-1) = Raise EValueErr.
Proof. vm_compute. reflexivity. Qed.

Example test_decode_uleb128 :
  map (decoded decode_integer_uleb128)
      [hx "00"; hx "7f"; hx "d2 85 d8 cc 04"; hx "ad d7 b8 ff 8f 98 eb 58"] =
  map (fun z => Some (z, [])) [0; 127; 1234567890; big_number].
Proof. vm_compute. reflexivity. Qed.

Definition SIGNED_LEB_VALUES : list (Z * list Z) :=
  [(0, hx "00"); (63, hx "3f"); (64, hx "c0 00"); (126, hx "fe 00"); (127, hx "ff 00");
   (128, hx "80 01"); (-126, hx "82 7f"); (-127, hx "81 7f"); (-128, hx "80 7f");
   (big_number, hx "ad d7 b8 ff 8f 98 eb d8 00");
   (- big_number, hx "d3 a8 c7 80 f0 e7 94 a7 7f")].

Example test_encode_signed_leb128 :
  map (fun p => encode_integer_leb128 (fst p)) SIGNED_LEB_VALUES =
  map (fun p => Ok (snd p)) SIGNED_LEB_VALUES.
Proof. vm_compute. reflexivity. Qed.

Example test_decode_signed_leb128 :
  map (fun p => decoded decode_integer_leb128 (snd p)) SIGNED_LEB_VALUES =
  map (fun p => Some (fst p, [])) SIGNED_LEB_VALUES.
Proof. vm_compute. reflexivity. Qed.

(** ---------------------------------------------------------------- helpers_test.py *)

Example test_iter_bytes__zero :
  iter_bytes_all 10 (Some 0) 0 (mkStream (b "abcdefg") 0) = Some ([], mkStream (b "abcdefg") 0).
Proof. vm_compute. reflexivity. Qed.

(** 65432 = 0xff98 *)
Example test_write_int__endianness_default :
  write_int 65432 2 false Little = (hx "98 ff", Ok tt) /\
  write_int 65432 2 false Big = (hx "ff 98", Ok tt).
Proof. vm_compute. auto. Qed.

Definition keys : list Z := b "qwertyuiop{}|".
Example test_peek_bytes__basic :
  peek_bytes 7 true (mkStream keys 0) = (mkStream keys 0, Ok (b "qwertyu")) /\
  peek_bytes 3 true (mkStream keys 9) = (mkStream keys 9, Ok (b "p{}")).
Proof. vm_compute. auto. Qed.

Example test_peek_bytes__short_read_okay_is_default :
  peek_bytes 2 true (mkStream keys 13) = (mkStream keys 13, Ok []) /\
  peek_bytes 5 true (mkStream keys 10) = (mkStream keys 10, Ok (b "{}|")).
Proof. vm_compute. auto. Qed.

Example test_peek_bytes__short_read_crashes :
  peek_bytes 9 false (mkStream keys 13) = (mkStream keys 13, Raise EEOF) /\
  peek_bytes 5 false (mkStream keys 10) = (mkStream keys 10, Raise EEOF).
Proof. vm_compute. auto. Qed.
