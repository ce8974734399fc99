(** Python integers and byte strings.

    Models the CPython builtins used by binobj: [int.bit_length], [int.to_bytes],
    [int.from_bytes] (documented behaviour; used at helpers.py:52, helpers.py:88,
    varints.py:74,130,219,256).  Byte strings are lists of [Z]. *)
From Verif Require Export Base.

(** A byte string is well formed when every element is a byte. *)
Definition byte_ok (b : Z) : Prop := 0 <= b < 256.
Definition bytes_ok (bs : list Z) : Prop := Forall byte_ok bs.

Definition zlen {A} (l : list A) : Z := Z.of_nat (length l).

(** [int.bit_length()] *)
Definition bit_length (v : Z) : Z := if v =? 0 then 0 else Z.log2 (Z.abs v) + 1.

Inductive endian := Big | Little.

(** The [n] low-order base-256 digits of [v], least significant first. *)
Fixpoint le_bytes (n : nat) (v : Z) : list Z :=
  match n with
  | O => []
  | S n' => v mod 256 :: le_bytes n' (v / 256)
  end.

(** Value of a little-endian unsigned byte string. *)
Fixpoint le_value (bs : list Z) : Z :=
  match bs with
  | [] => 0
  | b :: bs' => b + 256 * le_value bs'
  end.

Definition order {A} (e : endian) (l : list A) : list A :=
  match e with Little => l | Big => rev l end.

(** Range check made by [int.to_bytes]: does [v] fit in [n] bytes?
    (For a signed field of size 0, CPython up to 3.12 also accepts -1; not modelled.) *)
Definition fits (signed : bool) (n : Z) (v : Z) : bool :=
  if signed then (- 2 ^ (8 * n) <=? 2 * v) && (2 * v <? 2 ^ (8 * n))
  else (0 <=? v) && (v <? 2 ^ (8 * n)).

(** [int.to_bytes(n, endian, signed=signed)]: ValueError for negative [n],
    OverflowError if the value doesn't fit. *)
Definition py_to_bytes (v n : Z) (e : endian) (signed : bool) : res (list Z) :=
  if n <? 0 then Raise EValueErr
  else if fits signed n v then Ok (order e (le_bytes (Z.to_nat n) (v mod 2 ^ (8 * n))))
  else Raise EOverflow.

(** [int.from_bytes(data, endian, signed=signed)] *)
Definition py_from_bytes (data : list Z) (e : endian) (signed : bool) : Z :=
  let u := le_value (order e data) in
  let m := 2 ^ (8 * zlen data) in
  if signed && (m <=? 2 * u) then u - m else u.

(** [a == b] on bytes *)
Fixpoint bytes_eqb (a b : list Z) : bool :=
  match a, b with
  | [], [] => true
  | x :: a', y :: b' => (x =? y) && bytes_eqb a' b'
  | _, _ => false
  end.
