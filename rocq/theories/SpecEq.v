(** Specification vocabulary for equality: when two converted values denote the same data. *)
From Coq Require Import QArith.
From Verif Require Export StructModel SpecField SpecNum.
Open Scope Z_scope.

(** The number a finite double denotes. *)
Definition double_value (x : Z) : Q :=
  if sign_bit double x =? 0 then abs_value double x else (- abs_value double x)%Q.

Inductive number : value -> Q -> Prop :=
| num_int : forall z, number (VInt z) (inject_Z z)
| num_float : forall x, is_finite double x -> number (VFloat x) (double_value x).

(** Values without identity: everything else that has no parts. *)
Definition atom (v : value) : Prop :=
  match v with
  | VNone | VUndefined | VDefault | VNotPresent | VBytes _ | VStr _ | VUUID _ | VTime _ _ => True
  | _ => False
  end.

(** Same data: numbers by value, infinities by sign, lists item by item, dictionaries as
    finite maps, anything else identical. *)
Inductive same : value -> value -> Prop :=
| same_atom : forall v, atom v -> same v v
| same_number : forall a b p q, number a p -> number b q -> (p == q)%Q -> same a b
| same_infinity : forall x y, ~ is_finite double x -> ~ is_finite double y ->
    ~ is_nan double x -> ~ is_nan double y ->
    sign_bit double x = sign_bit double y -> same (VFloat x) (VFloat y)
| same_list : forall l m, length l = length m ->
    (forall i x y, nth_error l i = Some x -> nth_error m i = Some y -> same x y) ->
    same (VList l) (VList m)
| same_dict : forall d e, (forall k, dget d k = None <-> dget e k = None) ->
    (forall k x y, dget d k = Some x -> dget e k = Some y -> same x y) ->
    same (VDict d) (VDict e).

(** Data without NaN, generators and struct instances; dictionary keys are unique. *)
Inductive comparable : value -> Prop :=
| cmp_atom : forall v, atom v -> comparable v
| cmp_int : forall z, comparable (VInt z)
| cmp_float : forall x, pattern double x -> ~ is_nan double x -> comparable (VFloat x)
| cmp_list : forall l, (forall x, In x l -> comparable x) -> comparable (VList l)
| cmp_dict : forall d, NoDup (dkeys d) -> (forall k x, In (k, x) d -> comparable x) ->
    comparable (VDict d).

(** The values of an instance that are set. *)
Definition set_values (vals : dict) : dict :=
  filter (fun kv => negb (is_undefined (snd kv))) vals.

(** What is compared: the set values of a struct, or the items of a dict, converted by
    [recursive_to_dicts]. *)
Inductive view (E : env) (n : nat) : value -> dict -> Prop :=
| view_struct : forall cid vals d, dicts_of E n (set_values vals) = Ok d -> view E n (VStruct cid vals) d
| view_dict : forall m d, dicts_of E n m = Ok d -> view E n (VDict m) d.

(** An instance, or a dict with unique keys. *)
Definition mapping (E : env) (v : value) : Prop :=
  match v with
  | VStruct cid vals => instance_of E cid vals
  | VDict d => NoDup (dkeys d)
  | _ => False
  end.
Definition is_struct (v : value) : Prop := match v with VStruct _ _ => True | _ => False end.

(** The converted contents contain no NaN and no generator. *)
Definition tame (E : env) (v : value) : Prop :=
  exists n d, view E n v d /\ comparable (VDict d).

(** [len()] of the instance is defined, or undefined in the way Python tolerates. *)
Definition measured (E : env) (n : nat) (v : value) : Prop :=
  match v with
  | VStruct cid vals =>
    (exists z, struct_len E n cid vals = Ok z) \/ struct_len E n cid vals = Raise ETypeErr
  | _ => True
  end.
