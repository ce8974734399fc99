(** Specification vocabulary for canonical schemas: those for which dumping what was loaded
    reproduces the bytes that were read. *)
From Verif Require Export SpecLocal SpecAccess SpecRound.

(** A constant that compares equal only to itself. *)
Definition plain_const (v : value) : Prop :=
  match v with VInt _ | VBytes _ | VStr _ | VUUID _ | VTime _ _ => True | _ => False end.

(** No floating-point NaN anywhere in the value. *)
Inductive nan_free : value -> Prop :=
| nan_free_float : forall x, ~ is_nan double x -> nan_free (VFloat x)
| nan_free_scalar : forall v,
    match v with VFloat _ | VList _ | VDict _ | VStruct _ _ => False | _ => True end -> nan_free v
| nan_free_list : forall l, Forall nan_free l -> nan_free (VList l)
| nan_free_dict : forall d, Forall (fun kv => nan_free (snd kv)) d -> nan_free (VDict d)
| nan_free_struct : forall cid d, Forall (fun kv => nan_free (snd kv)) d -> nan_free (VStruct cid d).

(** A text encoding with one form for each text: without byte order mark; in a code page no
    character has two bytes. *)
Definition one_form (cd : codec) : Prop :=
  match cd with
  | Utf8Sig | Utf16Bom _ | Utf32Bom _ => False
  | Charmap t => forall a b cp, page_char t a = Some cp -> page_char t b = Some cp -> a = b
  | _ => True
  end.

(** Leaf fields with one byte representation per value. *)
Inductive canonical_leaf (nats : list string) (c : fconf) : fkind -> Prop :=
| canon_int : forall sg e n, c_size c = SInt n -> 0 <= n -> canonical_leaf nats c (KInt sg e)
| canon_float : forall i k e, float_kind i k e -> c_size c = SInt (i_bits i / 8) ->
    canonical_leaf nats c k
| canon_seconds : forall tz sg e n, c_size c = SInt n -> 0 <= n <= 100 ->
    canonical_leaf nats c (KTime ResS tz sg e)
| canon_bytes : natural_size nats c -> canonical_leaf nats c KBytes
| canon_string : forall cd pad, one_form cd -> natural_size nats c -> canonical_leaf nats c (KString cd pad)
| canon_stringz : forall cd pad, one_form cd -> c_size c = SNone -> canonical_leaf nats c (KStringZ cd pad)
| canon_uuid : forall fmt, fmt = BINARY_VARIANT_1 \/ fmt = BINARY_VARIANT_2 -> c_size c = SInt 16 ->
    canonical_leaf nats c (KUuid fmt).

(** Null is refused, or has one representation too: given bytes, zeros filling the declared
    size, or the field's form of some constant. *)
Definition canonical_null (nats : list string) (c : fconf) (k : fkind) : Prop :=
  c_null c = VUndefined
  \/ (c_null c = VNone \/ c_null c = VDefault) /\ natural_size nats c
  \/ (exists bs, c_null c = VBytes bs)
  \/ plain_const (c_null c) /\ match k with KFloat _ _ => False | _ => True end.

(** Leaves whose values equal nothing but themselves (1.0 == 1). *)
Definition strict_leaf (k : fkind) : Prop :=
  match k with KFloat _ _ | KArray _ _ _ | KNested _ | KUnion _ _ _ => False | _ => True end.

(** Always present, or present if a predicate holds of an earlier field. *)
Definition steady (known : list string) (c : fconf) : Prop :=
  unconditional c
  \/ c_validators c = [] /\ is_undefined (c_npv c) = false /\ exists name p, In name known
     /\ forall mem get keys ctx so, run_q mem get keys (c_present c ctx so) = do v <- get name; Ok (p v).

(** The declared size of a container, if any, is what its loads consume. *)
Definition size_holds (E : env) (f : field) : Prop :=
  c_size (conf f) = SNone \/ exists m, c_size (conf f) = SInt m
    /\ forall n ctx d s s' v, do_load E n f ctx d s = (s', Ok v) ->
         Z.of_nat (s_pos s') = Z.of_nat (s_pos s) + m.

(** Containers are not nullable and have no validators or constants. *)
Definition bare (c : fconf) : Prop :=
  c_null c = VUndefined /\ c_const c = VUndefined /\ c_validators c = [].

Definition natural_count (nats : list string) (cnt : countspec) : Prop :=
  match cnt with
  | CntNone => True
  | CntInt n => 0 <= n
  | CntRef name => In name nats
  | CntUnnamed => False
  end.

(** [known]: names of the earlier fields that may be referred to; [nats]: those that hold
    natural numbers. *)
Inductive canonical (E : env) (known nats : list string) : field -> Prop :=
| canonical_of_leaf : forall c k, canonical_leaf nats c k -> canonical_null nats c k ->
    canonical E known nats (Field c k)
| canonical_array : forall c comp cnt, bare c -> natural_count nats cnt ->
    size_holds E (Field c (KArray comp cnt None)) ->
    unconditional (conf comp) -> canonical E known nats comp ->
    canonical E known nats (Field c (KArray comp cnt None))
| canonical_nested : forall c cid, bare c -> size_holds E (Field c (KNested cid)) ->
    canonical E known nats (Field c (KNested cid))
| canonical_union : forall c choices ld dd name pick, bare c ->
    size_holds E (Field c (KUnion choices ld dd)) -> In name known ->
    (forall s ctx d, ld s ctx d = do v <- dget_res d name; Ok (pick v)) ->
    (forall v ctx d, dd v ctx d = do v <- dget_res d name; Ok (pick v)) ->
    (forall g, In (CField g) choices -> c_validators (conf g) = [] /\ canonical E known nats g) ->
    canonical E known nats (Field c (KUnion choices ld dd)).

(** A discarded field must be a constant. *)
Definition discard_ok (f : field) : Prop :=
  c_discard (conf f) = true ->
  strict_leaf (kind f) /\ unconditional (conf f) /\ c_null (conf f) = VUndefined
  /\ plain_const (c_const (conf f)) /\ c_default (conf f) = c_const (conf f)
  /\ c_factory (conf f) = None.

Definition referable (f : field) : Prop :=
  is_leaf (kind f) /\ unconditional (conf f) /\ c_discard (conf f) = false.

Inductive canonical_fields (E : env) : list string -> list string -> list (string * field) -> Prop :=
| canon_nil : forall known nats, canonical_fields E known nats []
| canon_natural : forall known nats name f fs, canonical E known nats f -> referable f ->
    natural_field f -> canonical_fields E (name :: known) (name :: nats) fs ->
    canonical_fields E known nats ((name, f) :: fs)
| canon_known : forall known nats name f fs, canonical E known nats f -> referable f ->
    canonical_fields E (name :: known) nats fs -> canonical_fields E known nats ((name, f) :: fs)
| canon_other : forall known nats name f fs, canonical E known nats f -> steady known (conf f) ->
    discard_ok f -> canonical_fields E known nats fs ->
    canonical_fields E known nats ((name, f) :: fs).

(** Every class: such fields, no validator methods, no struct validators. *)
Definition canonical_schema (E : env) : Prop := forall cid,
  well_formed (cls E cid) /\ canonical_fields E [] [] (k_comps (cls E cid))
  /\ (forall name methods, In (name, methods) (k_fvals (cls E cid)) -> methods = [])
  /\ k_svals (cls E cid) = [].
