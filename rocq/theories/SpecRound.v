(** Specification vocabulary for the struct round trip: which schemas and values it is
    claimed for, and when two dictionaries hold the same data. *)
From Coq Require Import QArith.
From Verif Require Export SpecField SpecNum SpecAccess SpecEq SpecHalt.
Open Scope Z_scope.

(** The double [x] and the bit pattern [y] of another format denote the same number, or the
    same infinity. *)
Definition same_number (i : ieee) (y x : Z) : Prop :=
  pattern i y /\ pattern double x /\ ~ is_nan i y /\ ~ is_nan double x
  /\ sign_bit double x = sign_bit i y
  /\ (is_finite i y /\ is_finite double x /\ (abs_value double x == abs_value i y)%Q
      \/ ~ is_finite i y /\ ~ is_finite double x).

(** A leaf field (not a container) holding value [v] in a struct whose values are [d]. *)
Inductive leaf_suits (c : fconf) (d : dict) : fkind -> value -> Prop :=
| suits_int : forall sg e n z, c_size c = SInt n -> leaf_suits c d (KInt sg e) (VInt z)
| suits_vli : forall fmt mx z, leaf_suits c d (KVli fmt mx) (VInt z)
| suits_bytes : forall bs, declared_size c d (zlen bs) -> leaf_suits c d KBytes (VBytes bs)
| suits_string : forall cd pad t bs, encode cd t = Ok bs -> declared_size c d (zlen bs) ->
    leaf_suits c d (KString cd pad) (VStr t)
| suits_stringz : forall cd pad t, c_size c = SNone -> c_factory c = None ->
    c_default c = VUndefined -> Forall (fun cp => cp <> 0) t ->
    leaf_suits c d (KStringZ cd pad) (VStr t)
| suits_uuid : forall fmt u, 0 <= u < 2 ^ 128 ->
    c_size c = SInt (match fmt with CANONICAL_STRING => 36 | HEX_STRING => 32 | _ => 16 end) ->
    leaf_suits c d (KUuid fmt) (VUUID u)
| suits_double : forall e x, c_size c = SInt 8 -> pattern double x -> ~ is_nan double x ->
    leaf_suits c d (KFloat binary64 e) (VFloat x)
| suits_seconds : forall tz sg e n s, c_size c = SInt n -> is_datetime tz (s * 1000000) ->
    leaf_suits c d (KTime ResS tz sg e) (VTime (s * 1000000) tz)
| suits_narrow : forall i k e x y, float_kind i k e -> c_size c = SInt (i_bits i / 8) ->
    same_number i y x -> leaf_suits c d k (VFloat x)
| suits_fine : forall r tz sg e n s, r = ResMs \/ r = ResUs -> c_size c = SInt n ->
    is_datetime tz (s * 1000000) -> leaf_suits c d (KTime r tz sg e) (VTime (s * 1000000) tz)
| suits_nanos : forall tz sg e n us, c_size c = SInt n -> Z.abs us < 2147483648 * 1000000 ->
    leaf_suits c d (KTime ResNs tz sg e) (VTime us tz).

(** Values without parts. *)
Definition scalar (v : value) : Prop :=
  match v with
  | VNone | VInt _ | VFloat _ | VBytes _ | VStr _ | VUUID _ | VTime _ _ => True
  | _ => False
  end.

Definition is_leaf (k : fkind) : Prop :=
  match k with KArray _ _ _ | KNested _ | KUnion _ _ _ => False | _ => True end.

(** Names of the fields from which the field takes its size or count. *)
Definition size_refs (s : sizespec) : list string :=
  match s with SRef name => [name] | _ => [] end.
Definition count_refs (cnt : countspec) : list string :=
  match cnt with CntRef name => [name] | _ => [] end.

(** Whether the field is present: always, or decided by the value of an earlier field. *)
Definition shown (known : list string) (d : dict) (c : fconf) (b : bool) : Prop :=
  unconditional c /\ b = true
  \/ exists name p v, In name known /\ dget d name = Some v /\ scalar v /\ p v = b
     /\ forall mem get keys ctx so,
          run_q mem get keys (c_present c ctx so) = do v <- get name; Ok (p v).

(** The bytes standing for None: given ones, zeros filling the declared size, or the
    serialized form of a constant. *)
Inductive null_bytes (E : env) (c : fconf) (k : fkind) (d : dict) : list Z -> Prop :=
| null_given : forall nb, c_null c = VBytes nb -> null_bytes E c k d nb
| null_zeros : forall m, c_null c = VNone \/ c_null c = VDefault -> declared_size c d m ->
    null_bytes E c k d (repeat 0 (Z.to_nat m))
| null_constant : forall nb, leaf_suits c d k (c_null c) -> (forall bs, c_null c <> VBytes bs) ->
    do_dump E O (Field c k) (c_null c) VNone d = (nb, Ok tt) -> null_bytes E c k d nb.

(** Neither byte string is the beginning of the other. *)
Definition clash (a b : list Z) : Prop :=
  exists i x y, nth_error a i = Some x /\ nth_error b i = Some y /\ x <> y.

(** The value is not what [null_value] says stands for None.  (Structs are left out: their
    comparison may raise.) *)
Definition unlike (v nv : value) : Prop :=
  (forall m, v <> VDict m)
  /\ (nv = VNone \/ nv = VDefault \/ (exists b, nv = VBytes b /\ v <> VBytes b)
      \/ scalar v /\ comparable v /\ comparable nv /\ scalar nv /\ ~ same v nv).

(** The value cannot be mistaken for None. *)
Definition not_null (E : env) (f : field) (d : dict) (v : value) : Prop :=
  c_null (conf f) = VUndefined
  \/ unlike v (c_null (conf f)) /\ exists nb, null_bytes E (conf f) (kind f) d nb
     /\ forall n ctx bs, field_to_stream E n f v ctx d = (bs, Ok tt) -> clash bs nb.

(** A class without methods or struct-level validators. *)
Definition straight_class (k : classdef) : Prop :=
  well_formed k /\ (forall name methods, In (name, methods) (k_fvals k) -> methods = [])
  /\ k_svals k = [].

(** Exactly the fields of the class that are not discarded have a value. *)
Definition filled (k : classdef) (m : dict) : Prop :=
  NoDup (dkeys m) /\ forall name, In name (dkeys m)
    <-> exists f, In (name, f) (k_comps k) /\ c_discard (conf f) = false.

(** A discarded field is a constant, which is also its default. *)
Definition fixed (known : list string) (d : dict) (f : field) : Prop :=
  let c := conf f in
  unconditional c /\ c_null c = VUndefined /\ c_factory c = None /\ c_default c = c_const c
  /\ incl (size_refs (c_size c)) known /\ leaf_suits c d (kind f) (c_const c).

(** An absent field: what stands for it after loading is acceptable to its validators. *)
Definition left_out (known : list string) (d : dict) (f : field) : Prop :=
  shown known d (conf f) false /\ is_undefined (c_npv (conf f)) = false
  /\ accepts (conf f) (c_npv (conf f)).

(** Nothing follows the component if nothing follows the struct and it is the last one. *)
Definition at_end (last : bool) (post : list (string * field)) : bool :=
  match post with [] => last | _ => false end.

(** The field and its value are among those the round trip is claimed for: leaves, arrays,
    nested structs and unions.  [known] are the names of the earlier fields; [last] says
    that nothing follows; [d] are the values of the enclosing struct. *)
Inductive suits (E : env) : list string -> bool -> dict -> field -> value -> Prop :=
| suits_null : forall known last d c k nb, shown known d c true ->
    incl (size_refs (c_size c)) known -> null_bytes E c k d nb ->
    suits E known last d (Field c k) VNone
| suits_value : forall known last d c k v, shown known d c true ->
    incl (size_refs (c_size c)) known -> not_null E (Field c k) d v ->
    c_const c = VUndefined \/ is_leaf k /\ c_const c = v -> is_leaf k \/ c_validators c = [] ->
    holds E known last d (Field c k) v ->
    suits E known last d (Field c k) v
(** The class-specific part, apart from presence, null, [const] and validators. *)
with holds (E : env) : list string -> bool -> dict -> field -> value -> Prop :=
| holds_leaf : forall known last d c k v, incl (size_refs (c_size c)) known ->
    leaf_suits c d k v -> holds E known last d (Field c k) v
| holds_array : forall known last d c comp cnt l, incl (count_refs cnt) known ->
    c_name (conf comp) = None \/ c_name (conf comp) = c_name c ->
    counted cnt d (zlen l) -> (forall x, In x l -> suits E known false d comp x) ->
    holds E known last d (Field c (KArray comp cnt None)) (VList l)
| holds_rest : forall known d c comp l,
    c_name (conf comp) = None \/ c_name (conf comp) = c_name c ->
    (forall x, In x l -> suits E known false d comp x) ->
    (forall x n ctx, In x l -> field_to_stream E n comp x ctx d <> ([], Ok tt)) ->
    holds E known true d (Field c (KArray comp CntNone None)) (VList l)
| holds_sentinel : forall known last d c comp cnt stop vs w,
    c_name (conf comp) = None \/ c_name (conf comp) = c_name c ->
    (forall x, In x (vs ++ [w]) -> suits E known false d comp x) ->
    Forall (fun x => scalar x /\ stop x = false) vs -> scalar w -> stop w = true ->
    holds E known last d (Field c (KArray comp cnt (Some (sentinel_kept stop)))) (VList (vs ++ [w]))
| holds_nested : forall known last d c cid m, holds_struct E last cid m ->
    holds E known last d (Field c (KNested cid)) (VDict m)
| holds_union_field : forall known last d c choices ld dd name w pick g v, In name known ->
    dget d name = Some w -> scalar w ->
    (forall s ctx d, ld s ctx d = do v <- dget_res d name; Ok (pick v)) ->
    (forall v ctx d, dd v ctx d = do v <- dget_res d name; Ok (pick v)) ->
    nth_error choices (pick w) = Some (CField g) ->
    c_name (conf g) = None \/ c_name (conf g) = c_name c ->
    holds E known last d g v ->
    holds E known last d (Field c (KUnion choices ld dd)) v
| holds_union_struct : forall known last d c choices ld dd name w pick cid m, In name known ->
    dget d name = Some w -> scalar w ->
    (forall s ctx d, ld s ctx d = do v <- dget_res d name; Ok (pick v)) ->
    (forall v ctx d, dd v ctx d = do v <- dget_res d name; Ok (pick v)) ->
    nth_error choices (pick w) = Some (CStruct cid) -> holds_struct E last cid m ->
    holds E known last d (Field c (KUnion choices ld dd)) (VDict m)
with holds_struct (E : env) : bool -> nat -> dict -> Prop :=
| holds_all : forall last cid m, straight_class (cls E cid) -> filled (cls E cid) m ->
    (forall pre name f post, k_comps (cls E cid) = pre ++ (name, f) :: post ->
       c_discard (conf f) = true -> fixed (map fst pre) m f) ->
    (forall pre name f post, k_comps (cls E cid) = pre ++ (name, f) :: post ->
       dget m name = Some VNotPresent -> left_out (map fst pre) m f) ->
    (forall pre name f post x, k_comps (cls E cid) = pre ++ (name, f) :: post ->
       dget m name = Some x -> x <> VNotPresent ->
       suits E (map fst pre) (at_end last post) m f x) ->
    holds_struct E last cid m.

(** The same data: equal up to the order of dictionary entries, at any depth. *)
Inductive same_data : value -> value -> Prop :=
| data_refl : forall v, same_data v v
| data_list : forall l m, length l = length m ->
    (forall i x y, nth_error l i = Some x -> nth_error m i = Some y -> same_data x y) ->
    same_data (VList l) (VList m)
| data_dict : forall d e, (forall k, dget d k = None <-> dget e k = None) ->
    (forall k x y, dget d k = Some x -> dget e k = Some y -> same_data x y) ->
    same_data (VDict d) (VDict e).
