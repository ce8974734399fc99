(** Specification vocabulary for data that ends before a field (C84). *)
From Verif Require Export SpecInherit SpecCut.

(** A field that cannot be read from no data at all: a number, text, UUID of positive
    constant size, a variable-length integer, a struct that starts with such a field, a
    constant positive number of such fields. *)
Inductive needs_data (E : env) : field -> Prop :=
| needs_sized : forall c k size,
    match k with
    | KInt _ _ | KBytes | KString _ _ | KFloat _ _ | KTime _ _ _ _ | KUuid _ => True
    | _ => False
    end -> c_size c = SInt size -> 0 < size -> always_present c -> c_null c = VUndefined ->
    needs_data E (Field c k)
| needs_varint : forall c fmt mx, always_present c -> c_null c = VUndefined ->
    needs_data E (Field c (KVli fmt mx))
| needs_first : forall c cid name f fs, k_comps (cls E cid) = (name, f) :: fs ->
    needs_data E f -> always_present c -> c_null c = VUndefined ->
    needs_data E (Field c (KNested cid))
| needs_element : forall c comp cnt, 0 < cnt -> needs_data E comp -> always_present c ->
    c_null c = VUndefined -> needs_data E (Field c (KArray comp (CntInt cnt) None)).
