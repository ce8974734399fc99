(** Specification vocabulary for rewriting: schemas whose instances, loaded from any data they
    accept, can be dumped, and whose dump is loaded as the same instance.  Unlike canonical
    schemas (SpecCanon.v) they may contain fields with several byte forms for one value. *)
From Verif Require Export SpecCanon.

(** Leaf fields that accept several byte forms of a value and write one of them:
    variable-length integers, UUIDs as text, text in a code page with several bytes for one
    character, terminated text with or without byte order mark. *)
Inductive several_forms (nats : list string) (c : fconf) : fkind -> Prop :=
| several_vli : forall fmt, c_size c = SNone -> several_forms nats c (KVli fmt None)
| several_uuid : forall fmt, fmt = CANONICAL_STRING /\ c_size c = SInt 36 \/ fmt = HEX_STRING /\ c_size c = SInt 32 ->
    several_forms nats c (KUuid fmt)
| several_page : forall t pad, natural_size nats c -> several_forms nats c (KString (Charmap t) pad)
| several_text : forall cd pad, c_size c = SNone -> c_factory c = None -> c_default c = VUndefined ->
    several_forms nats c (KStringZ cd pad).

Inductive settling_leaf (nats : list string) (c : fconf) (k : fkind) : Prop :=
| settle_one : canonical_leaf nats c k -> canonical_null nats c k -> delimited_null nats c k ->
    settling_leaf nats c k
| settle_several : several_forms nats c k -> c_null c = VUndefined -> settling_leaf nats c k.

(** The declared size of a container, if any, is the size of everything it writes. *)
Definition sized_dumps (E : env) (f : field) : Prop :=
  c_size (conf f) = SNone \/ exists m, c_size (conf f) = SInt m
    /\ forall n v ctx d bs, do_dump E n f v ctx d = (bs, Ok tt) -> zlen bs = m.

(** A part of a container has no name, or that of the container. *)
Definition same_name (part whole : fconf) : Prop :=
  c_name part = None \/ c_name part = c_name whole.

(** As [canonical], with leaves of either kind. *)
Inductive settling (E : env) (known nats : list string) : field -> Prop :=
| settling_of_leaf : forall c k, settling_leaf nats c k -> settling E known nats (Field c k)
| settling_array : forall c comp cnt, bare c -> natural_count nats cnt ->
    sized_dumps E (Field c (KArray comp cnt None)) -> same_name (conf comp) c ->
    unconditional (conf comp) -> settling E known nats comp ->
    settling E known nats (Field c (KArray comp cnt None))
| settling_nested : forall c cid, bare c -> sized_dumps E (Field c (KNested cid)) ->
    settling E known nats (Field c (KNested cid))
| settling_union : forall c choices ld dd name pick, bare c ->
    sized_dumps E (Field c (KUnion choices ld dd)) -> In name known ->
    (forall s ctx d, ld s ctx d = do v <- dget_res d name; Ok (pick v)) ->
    (forall v ctx d, dd v ctx d = do v <- dget_res d name; Ok (pick v)) ->
    (forall g, In (CField g) choices -> c_validators (conf g) = [] /\ same_name (conf g) c
       /\ settling E known nats g) ->
    settling E known nats (Field c (KUnion choices ld dd)).

Inductive settling_fields (E : env) : list string -> list string -> list (string * field) -> Prop :=
| settles_nil : forall known nats, settling_fields E known nats []
| settles_natural : forall known nats name f fs, settling E known nats f -> referable f ->
    natural_field f -> settling_fields E (name :: known) (name :: nats) fs ->
    settling_fields E known nats ((name, f) :: fs)
| settles_known : forall known nats name f fs, settling E known nats f -> referable f ->
    settling_fields E (name :: known) nats fs -> settling_fields E known nats ((name, f) :: fs)
| settles_other : forall known nats name f fs, settling E known nats f -> steady known (conf f) ->
    discard_ok f -> settling_fields E known nats fs ->
    settling_fields E known nats ((name, f) :: fs).

Definition settling_schema (E : env) : Prop := forall cid,
  well_formed (cls E cid) /\ settling_fields E [] [] (k_comps (cls E cid))
  /\ (forall name methods, In (name, methods) (k_fvals (cls E cid)) -> methods = [])
  /\ k_svals (cls E cid) = [].
