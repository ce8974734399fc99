(** Specification vocabulary for loading arbitrary (possibly malformed) data: which schemas
    the claims are about, and which exceptions count as a report of malformed data. *)
From Verif Require Export SpecField.

(** How malformed data is reported: DeserializationError (with UnexpectedEOFError) or
    ValidationError. *)
Definition malformed (e : exn) : Prop :=
  is_DeserializationError e = true \/ exists fld, e = EValidation fld.

(** Exceptions of the standard library that a field class lets through when its data is
    malformed: decoding text, parsing a textual UUID, converting a timestamp. *)
Definition escapes (k : fkind) (e : exn) : Prop :=
  match k with
  | KStringZ (Utf16Bom _) _ | KStringZ (Utf32Bom _) _ => e = EUnicodeDecode \/ e = EUnicodeErr
  | KString _ _ | KStringZ _ _ => e = EUnicodeDecode
  | KUuid CANONICAL_STRING | KUuid HEX_STRING => e = EUnicodeDecode \/ e = EValueErr
  | KTime _ _ _ _ => e = EValueErr \/ e = EOverflow \/ e = EOSErr
  | _ => False
  end.

(** The field named by an exception of binobj (its [field] attribute). *)
Definition named_field (e : exn) : option fname :=
  match e with
  | EDeserialization f | EUnexpectedEOF f _ _ | EExtraneous f => Some f
  | _ => None
  end.

(** A number of bytes that is known when the field is read: a constant, or the value of one
    of the integer fields [ints] read before. *)
Definition known_size (ints : list string) (c : fconf) : Prop :=
  (exists n, c_size c = SInt n) \/ exists name, c_size c = SRef name /\ In name ints.

Definition known_count (ints : list string) (cnt : countspec) : Prop :=
  (exists n, cnt = CntInt n) \/ exists name, cnt = CntRef name /\ In name ints.

Inductive sized_leaf (ints : list string) (c : fconf) : fkind -> Prop :=
| sized_int : forall sg e n, c_size c = SInt n -> sized_leaf ints c (KInt sg e)
| sized_vli : forall fmt mx, sized_leaf ints c (KVli fmt mx)
| sized_float : forall fmt e, c_size c = SInt (ff_bytes fmt) -> sized_leaf ints c (KFloat fmt e)
| sized_time : forall r tz sg e, known_size ints c -> sized_leaf ints c (KTime r tz sg e)
| sized_bytes : known_size ints c -> sized_leaf ints c KBytes
| sized_string : forall cd pad, known_size ints c -> sized_leaf ints c (KString cd pad)
| sized_stringz : forall cd pad, known_size ints c \/
    (c_size c = SNone /\ c_default c = VUndefined /\ c_factory c = None) ->
    sized_leaf ints c (KStringZ cd pad)
| sized_uuid : forall fmt, c_size c = SInt (uuid_size fmt) -> sized_leaf ints c (KUuid fmt).

(** [null_value] is not given, or its representation is known. *)
Inductive null_known (ints : list string) (c : fconf) : fkind -> Prop :=
| null_refused : forall k, c_null c = VUndefined -> null_known ints c k
| null_literal : forall k bs, c_null c = VBytes bs -> null_known ints c k
| null_zeros : forall k, c_null c = VNone \/ c_null c = VDefault -> known_size ints c ->
    null_known ints c k
| null_int : forall sg e z, c_null c = VInt z -> null_known ints c (KInt sg e)
| null_vli : forall fmt mx z, c_null c = VInt z -> null_known ints c (KVli fmt mx).

(** The user's callables of the field raise nothing but [A]. *)
Definition callables_raise (A : exn -> Prop) (c : fconf) : Prop :=
  (forall check v e, In check (c_validators c) -> check v = Raise e -> A e)
  /\ (forall ctx so d e, run_dict d (c_present c ctx so) = Raise e -> A e).

Definition constant_scalar (c : fconf) : Prop :=
  match c_const c with VList _ | VDict _ | VStruct _ _ | VGen _ => False | _ => True end.

(** The schemas: every size and count is known when it is needed; all other exceptions that
    may come up ([escapes], user callables) are in [A].  [ints] are the integer fields read
    before this one, [nm] is the name of the component it belongs to. *)
Inductive robust (A : exn -> Prop) (ints : list string) (nm : fname) : field -> Prop :=
| robust_leaf : forall c k, callables_raise A c -> c_name c = None \/ c_name c = nm ->
    sized_leaf ints c k -> null_known ints c k -> constant_scalar c ->
    (forall e, escapes k e -> A e) -> robust A ints nm (Field c k)
| robust_array : forall c comp cnt, callables_raise A c -> c_null c = VUndefined ->
    c_const c = VUndefined -> cnt = CntNone \/ known_count ints cnt -> robust A ints nm comp ->
    robust A ints nm (Field c (KArray comp cnt None))
| robust_nested : forall c cid, callables_raise A c -> c_null c = VUndefined ->
    c_const c = VUndefined -> robust A ints nm (Field c (KNested cid))
| robust_union : forall c choices ld dd, callables_raise A c -> c_null c = VUndefined ->
    c_const c = VUndefined -> (forall s ctx d e, ld s ctx d = Raise e -> A e) ->
    (forall s ctx d i, ld s ctx d = Ok i -> (i < length choices)%nat) ->
    (forall g, In (CField g) choices -> robust A ints nm g) ->
    robust A ints nm (Field c (KUnion choices ld dd)).

(** A field that always loads as an integer. *)
Definition integer_field (f : field) : Prop :=
  match kind f with KInt _ _ | KVli _ _ => True | _ => False end
  /\ c_null (conf f) = VUndefined
  /\ (always_present (conf f) \/ exists z, c_npv (conf f) = VInt z).

Inductive robust_fields (A : exn -> Prop) : list string -> list (string * field) -> Prop :=
| robust_nil : forall ints, robust_fields A ints []
| robust_integer : forall ints name f fs, robust A ints (Some name) f -> integer_field f ->
    robust_fields A (name :: ints) fs -> robust_fields A ints ((name, f) :: fs)
| robust_other : forall ints name f fs, robust A ints (Some name) f ->
    robust_fields A ints fs -> robust_fields A ints ((name, f) :: fs).

(** All classes of the table: fields as above; methods and struct validators raise only [A]. *)
Definition robust_schema (A : exn -> Prop) (E : env) : Prop :=
  forall cid, well_formed (cls E cid) /\ robust_fields A [] (k_comps (cls E cid))
    /\ (forall n vals name methods q v e, In (name, methods) (k_fvals (cls E cid)) ->
          In q methods -> run_struct E n cid vals (q v) = Raise e -> A e)
    /\ (forall n vals q e, In q (k_svals (cls E cid)) ->
          run_struct E n cid vals q = Raise e -> A e).

(** Termination.  Structs are not nested in themselves: every class has a [rank] above those
    of the classes it refers to.  Callables return (or raise). *)
Definition callables_return (c : fconf) : Prop :=
  forall check v, In check (c_validators c) -> check v <> OOF.

Inductive bounded (E : env) (rank : nat -> nat) (r : nat) : field -> Prop :=
| bounded_leaf : forall c k, callables_return c ->
    match k with KArray _ _ _ | KNested _ | KUnion _ _ _ => False | _ => True end ->
    bounded E rank r (Field c k)
| bounded_counted : forall c comp cnt, callables_return c -> cnt <> CntNone ->
    always_present (conf comp) \/ c_npv (conf comp) <> VNotPresent ->
    bounded E rank r comp -> bounded E rank r (Field c (KArray comp cnt None))
| bounded_to_end : forall c comp, callables_return c ->
    (forall ctx d s s1 v, loads_to E comp ctx d s s1 v -> rest s <> [] ->
       (s_pos s < s_pos s1)%nat) ->
    bounded E rank r comp -> bounded E rank r (Field c (KArray comp CntNone None))
| bounded_nested : forall c cid, callables_return c -> (rank cid < r)%nat ->
    bounded E rank r (Field c (KNested cid))
| bounded_union : forall c choices ld dd, callables_return c ->
    (forall s ctx d, ld s ctx d <> OOF) ->
    (forall g, In (CField g) choices -> bounded E rank r g) ->
    (forall cid, In (CStruct cid) choices -> (rank cid < r)%nat) ->
    bounded E rank r (Field c (KUnion choices ld dd)).

Definition bounded_schema (E : env) (rank : nat -> nat) : Prop :=
  forall cid name f, In (name, f) (k_comps (cls E cid)) -> bounded E rank (rank cid) f.
