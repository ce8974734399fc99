(** Small specification vocabulary used in the statements of the field and struct
    properties.  Nothing here refers to how the library computes its results. *)
From Verif Require Import Values VarintSpec.

(** A field that has a value in the data whatever the other fields are
    ([present] always answers true), cannot be None ([null_value] not given), has no
    [const] and no validators. *)
Definition always_present (c : fconf) : Prop :=
  forall ctx so d, run_dict d (c_present c ctx so) = Ok true.

Definition plain (c : fconf) : Prop :=
  always_present c /\ c_null c = VUndefined /\ c_const c = VUndefined
  /\ c_validators c = [].

(** Every validator of the field accepts the value. *)
Definition accepts (c : fconf) (v : value) : Prop :=
  Forall (fun check => check v = Ok tt) (c_validators c).

(** The field is always present, not nullable, has no [const], and its validators accept
    this value. *)
Definition takes (c : fconf) (v : value) : Prop :=
  always_present c /\ c_null c = VUndefined /\ c_const c = VUndefined /\ accepts c v.

(** The declared size of the field is [n]: a constant, or the value of another field. *)
Definition declared_size (c : fconf) (d : dict) (n : Z) : Prop :=
  c_size c = SInt n
  \/ exists name, c_size c = SRef name /\ dget d name = Some (VInt n).

(** The integers an [n]-byte two's-complement / unsigned field can hold. *)
Definition int_range (signed : bool) (n v : Z) : Prop :=
  if signed then - 2 ^ (8 * n) <= 2 * v < 2 ^ (8 * n) else 0 <= v < 2 ^ (8 * n).

(** Simplest configuration, used in examples. *)
Definition basic (name : string) (size : sizespec) : fconf :=
  mkConf (Some name) VUndefined VUndefined None false VUndefined size []
         (fun _ _ => QRet true) VNotPresent None None None.

(** Text form of a byte: two lower-case hexadecimal digits (ASCII codes). *)
Definition hex_digits : list Z := [48; 49; 50; 51; 52; 53; 54; 55; 56; 57; 97; 98; 99; 100; 101; 102].
Definition hex2 (b : Z) : list Z :=
  [nth (Z.to_nat (b / 16)) hex_digits 0; nth (Z.to_nat (b mod 16)) hex_digits 0].
Definition hex_text (bs : list Z) : list Z := flat_map hex2 bs.
(** Big-endian value of a byte string. *)
Definition be_value (bs : list Z) : Z := fold_left (fun a b => a * 256 + b) bs 0.

(** Two fields that differ only in [null_value]. *)
Definition set_null (c : fconf) (nv : value) : fconf :=
  mkConf (c_name c) (c_const c) (c_default c) (c_factory c) (c_discard c) nv (c_size c)
         (c_validators c) (c_present c) (c_npv c) (c_compute c) (c_index c) (c_offset c).
