(** Specification of the wire format: which bytes stand for which data, written down from
    the documentation of the field classes, without the library's own dump code.  (Text
    codecs are the only functions used.)  Then the schemas and data it is claimed for. *)
From Verif Require Export SpecRound VarintSpec.
Open Scope Z_scope.

(** [bs] is [z] in base 256, negative numbers being stored modulo [256 ^ length]. *)
Definition int_form (sg : bool) (e : endian) (z : Z) (bs : list Z) : Prop :=
  bytes_ok bs /\ int_range sg (zlen bs) z /\ (z - bits_of e bs) mod 2 ^ (8 * zlen bs) = 0.

(** The shortest form, except that LEB128 takes as many bytes for [z] as for [- z], and that
    the sign bit of 0 is clear. *)
Definition vli_form (fmt : vli_format) (z : Z) (bs : list Z) : Prop :=
  terminated bs /\ spec_value fmt bs = z
  /\ match fmt with
     | LEB128 => 2 * Z.abs z < 2 ^ (7 * zlen bs)
                 /\ (zlen bs = 1 \/ 2 ^ (7 * (zlen bs - 1)) <= 2 * Z.abs z)
     | _ => (z = 0 -> bs = [0])
            /\ forall other, terminated other -> spec_value fmt other = z -> zlen bs <= zlen other
     end.

Definition uuid_form (fmt : uuid_format) (u : Z) (bs : list Z) : Prop :=
  exists b0 b1 b2 b3 b4 b5 b6 b7 tl, length tl = 8%nat
    /\ let v1 := [b0; b1; b2; b3; b4; b5; b6; b7] ++ tl in
       bytes_ok v1 /\ be_value v1 = u
       /\ bs = match fmt with
               | BINARY_VARIANT_1 => v1
               | BINARY_VARIANT_2 => [b3; b2; b1; b0; b5; b4; b7; b6] ++ tl
               | HEX_STRING => hex_text v1
               | CANONICAL_STRING =>
                 hex_text [b0; b1; b2; b3] ++ [45] ++ hex_text [b4; b5] ++ [45] ++ hex_text [b6; b7]
                 ++ [45] ++ hex_text (firstn 2 tl) ++ [45] ++ hex_text (skipn 2 tl)
               end.

(** Units per second. *)
Definition per_second (r : resolution) : Z :=
  match r with ResS => 1 | ResMs => 1000 | ResUs => 1000000 | ResNs => 1000000000 end.

(** What the class of a leaf field makes of a value, before the size is checked. *)
Inductive leaf_form (c : fconf) (d : dict) : fkind -> value -> list Z -> Prop :=
| form_int : forall sg e z bs, c_size c = SInt (zlen bs) -> int_form sg e z bs ->
    leaf_form c d (KInt sg e) (VInt z) bs
| form_vli : forall fmt mx z bs, vli_form fmt z bs -> (forall m, mx = Some m -> zlen bs <= m) ->
    leaf_form c d (KVli fmt mx) (VInt z) bs
| form_float : forall i k e x bs, float_kind i k e -> bytes_ok bs -> zlen bs = i_bits i / 8 ->
    same_number i (bits_of e bs) x -> leaf_form c d k (VFloat x) bs
| form_time : forall r tz sg e s aware bs, declared_size c d (zlen bs) ->
    int_form sg e (s * per_second r) bs ->
    leaf_form c d (KTime r tz sg e) (VTime (s * 1000000) aware) bs
| form_bytes : forall bs, declared_size c d (zlen bs) -> leaf_form c d KBytes (VBytes bs) bs
| form_string : forall cd t raw, encode cd t = Ok raw -> declared_size c d (zlen raw) ->
    forall pad, leaf_form c d (KString cd pad) (VStr t) raw
| form_padded : forall cd p t raw j, encode cd t = Ok raw ->
    declared_size c d (zlen (raw ++ repeat p j)) ->
    leaf_form c d (KString cd (Some p)) (VStr t) (raw ++ repeat p j)
| form_stringz : forall cd pad t bs, encode cd (t ++ [0]) = Ok bs ->
    leaf_form c d (KStringZ cd pad) (VStr t) bs
| form_uuid : forall fmt u bs, uuid_form fmt u bs -> leaf_form c d (KUuid fmt) (VUUID u) bs.

(** [bs] is [raw], filled up to the declared size if the field has a pad byte. *)
Definition filled_up (c : fconf) (d : dict) (k : fkind) (raw bs : list Z) : Prop :=
  c_size c = SNone /\ bs = raw
  \/ declared_size c d (zlen bs)
     /\ (bs = raw \/ exists cd p j, (k = KString cd (Some p) \/ k = KStringZ cd (Some p))
                                   /\ bs = raw ++ repeat p j).

(** The bytes standing for None. *)
Inductive none_form (c : fconf) (d : dict) (k : fkind) : list Z -> Prop :=
| none_given : forall nb, c_null c = VBytes nb -> none_form c d k nb
| none_zeros : forall m, c_null c = VNone \/ c_null c = VDefault -> declared_size c d m ->
    none_form c d k (repeat 0 (Z.to_nat m))
| none_constant : forall nb, (forall bs, c_null c <> VBytes bs) -> leaf_form c d k (c_null c) nb ->
    none_form c d k nb.

(** The value of a component: the one given, or the default if the component is discarded. *)
Definition component_value (m : dict) (name : string) (f : field) (v : value) : Prop :=
  dget m name = Some v
  \/ dget m name = None /\ c_discard (conf f) = true /\ v = c_default (conf f).

(** The validators accept all values. *)
Definition all_accepted (k : classdef) (m : dict) : Prop :=
  forall name f v, In name (map fst (k_fvals k)) -> In (name, f) (k_comps k) ->
    component_value m name f v -> accepts (conf f) v.

(** [wire E d f v bs]: field [f] with value [v], in a struct whose values are [d], is stored
    as [bs]. *)
Inductive wire (E : env) : dict -> field -> value -> list Z -> Prop :=
| wire_none : forall d c k bs, accepts c VNone -> none_form c d k bs -> wire E d (Field c k) VNone bs
| wire_leaf : forall d c k v raw bs, accepts c v -> leaf_form c d k v raw -> filled_up c d k raw bs ->
    wire E d (Field c k) v bs
| wire_array : forall d c comp cnt halt l bs, accepts c (VList l) ->
    counted cnt d (zlen l) \/ uncounted cnt d -> wire_items E d comp l bs -> fits_size c d bs ->
    wire E d (Field c (KArray comp cnt halt)) (VList l) bs
| wire_nested : forall d c cid m bs, accepts c (VDict m) -> all_accepted (cls E cid) m ->
    wire_fields E m (k_comps (cls E cid)) bs -> fits_size c d bs ->
    wire E d (Field c (KNested cid)) (VDict m) bs
| wire_union_field : forall d c choices ld dd i g v bs, accepts c v ->
    (forall ctx, dd v ctx d = Ok i) -> nth_error choices i = Some (CField g) -> v <> VNone ->
    wire E d g v bs -> fits_size c d bs -> wire E d (Field c (KUnion choices ld dd)) v bs
| wire_union_struct : forall d c choices ld dd i cid m bs, accepts c (VDict m) ->
    (forall ctx, dd (VDict m) ctx d = Ok i) -> nth_error choices i = Some (CStruct cid) ->
    all_accepted (cls E cid) m -> wire_fields E m (k_comps (cls E cid)) bs -> fits_size c d bs ->
    wire E d (Field c (KUnion choices ld dd)) (VDict m) bs
(** Elements follow each other. *)
with wire_items (E : env) : dict -> field -> list value -> list Z -> Prop :=
| items_nil : forall d f, wire_items E d f [] []
| items_cons : forall d f v l b bs, wire E d f v b -> wire_items E d f l bs ->
    wire_items E d f (v :: l) (b ++ bs)
(** Components follow each other; absent ones leave no trace. *)
with wire_fields (E : env) : dict -> list (string * field) -> list Z -> Prop :=
| fields_nil : forall m, wire_fields E m [] []
| fields_absent : forall m name f fs bs, dget m name = Some VNotPresent ->
    wire_fields E m fs bs -> wire_fields E m ((name, f) :: fs) bs
| fields_present : forall m name f fs v b bs, component_value m name f v -> v <> VNotPresent ->
    wire E m f v b -> wire_fields E m fs bs -> wire_fields E m ((name, f) :: fs) (b ++ bs).

(** ** The schemas and data this is claimed for *)

(** The value has the type the class is made for; classes that need a size have one. *)
Inductive typed (c : fconf) (d : dict) : fkind -> value -> Prop :=
| typed_int : forall sg e z n, c_size c = SInt n -> typed c d (KInt sg e) (VInt z)
| typed_vli : forall fmt mx z, typed c d (KVli fmt mx) (VInt z)
| typed_float : forall i k e x y, float_kind i k e -> same_number i y x -> typed c d k (VFloat x)
| typed_time : forall r tz sg e s aware n, r <> ResNs -> is_datetime aware (s * 1000000) ->
    declared_size c d n -> typed c d (KTime r tz sg e) (VTime (s * 1000000) aware)
| typed_bytes : forall bs n, declared_size c d n -> typed c d KBytes (VBytes bs)
| typed_string : forall cd pad t n, declared_size c d n -> typed c d (KString cd pad) (VStr t)
| typed_stringz : forall cd pad t, typed c d (KStringZ cd pad) (VStr t)
| typed_uuid : forall fmt u, 0 <= u < 2 ^ 128 -> typed c d (KUuid fmt) (VUUID u).

(** What stands for None needs no computation at run time. *)
Definition typed_null (c : fconf) (d : dict) (k : fkind) : Prop :=
  match c_null c with
  | VUndefined | VBytes _ => True
  | VNone | VDefault => exists n, declared_size c d n
  | v => typed c d k v
  end.

(** A discarded component that is always present and has a plain default. *)
Definition padding_field (f : field) : Prop :=
  unconditional (conf f) /\ c_factory (conf f) = None
  /\ is_undefined (c_default (conf f)) = false /\ is_not_present (c_default (conf f)) = false
  /\ is_default (c_default (conf f)) = false.

Inductive regular (E : env) : dict -> field -> value -> Prop :=
| regular_none : forall d c k, typed_null c d k -> regular E d (Field c k) VNone
| regular_leaf : forall d c k v, typed c d k v -> regular E d (Field c k) v
| regular_array : forall d c comp cnt halt l, (forall v, In v l -> regular E d comp v) ->
    regular E d (Field c (KArray comp cnt halt)) (VList l)
| regular_nested : forall d c cid m, regular_struct E cid m ->
    regular E d (Field c (KNested cid)) (VDict m)
| regular_union_field : forall d c choices ld dd i g v, (forall ctx, dd v ctx d = Ok i) ->
    nth_error choices i = Some (CField g) -> v <> VNone -> regular E d g v ->
    regular E d (Field c (KUnion choices ld dd)) v
| regular_union_struct : forall d c choices ld dd i cid m, (forall ctx, dd (VDict m) ctx d = Ok i) ->
    nth_error choices i = Some (CStruct cid) -> regular_struct E cid m ->
    regular E d (Field c (KUnion choices ld dd)) (VDict m)
with regular_struct (E : env) : nat -> dict -> Prop :=
| regular_all : forall cid m, straight_class (cls E cid) -> filled (cls E cid) m ->
    (forall name f, In (name, f) (k_comps (cls E cid)) -> c_discard (conf f) = true ->
       padding_field f) ->
    (forall name f, In (name, f) (k_comps (cls E cid)) -> c_discard (conf f) = true ->
       regular E m f (c_default (conf f))) ->
    (forall name f v, In (name, f) (k_comps (cls E cid)) -> dget m name = Some v ->
       v <> VNotPresent -> shown (dkeys m) m (conf f) true) ->
    (forall name f v, In (name, f) (k_comps (cls E cid)) -> dget m name = Some v ->
       v <> VNotPresent -> regular E m f v) ->
    (forall name f, In (name, f) (k_comps (cls E cid)) -> dget m name = Some VNotPresent ->
       exists b, shown (dkeys m) m (conf f) b) ->
    regular_struct E cid m.
