(** Specification vocabulary for self-delimiting schemas: those for which a load depends on
    nothing but the bytes it consumes. *)
From Verif Require Export SpecLoad.

(** Success depends only on the bytes consumed: whatever follows them (or precedes the
    stream's position), the same bytes give the same answer, and are consumed. *)
Definition self_delimiting {A} (l : loader A) : Prop := forall s s1 a, bytes_ok (rest s) ->
  l s = (s1, Ok a) -> exists bs suf, rest s = bs ++ suf /\ s1 = advance s (length bs)
    /\ forall s' suf', rest s' = bs ++ suf' -> l s' = (advance s' (length bs), Ok a).

(** A size that is not negative: a constant, or the value of an unsigned field read before. *)
Definition natural_size (nats : list string) (c : fconf) : Prop :=
  (exists n, c_size c = SInt n /\ 0 <= n) \/ exists name, c_size c = SRef name /\ In name nats.

(** [present] does not look at the stream. *)
Definition blind (c : fconf) : Prop := forall ctx s s' d,
  run_dict d (c_present c ctx (Some s)) = run_dict d (c_present c ctx (Some s')).

Definition exact_kind (k : fkind) : Prop :=
  match k with
  | KInt _ _ | KFloat _ _ | KTime _ _ _ _ | KBytes | KString _ _ | KUuid _ => True
  | _ => False
  end.

Definition delimited_leaf (nats : list string) (c : fconf) (k : fkind) : Prop :=
  match k with
  | KVli _ _ | KStringZ _ _ => True
  | _ => exact_kind k /\ natural_size nats c
  end.

(** Null values are not accepted, or no longer than a value. *)
Inductive delimited_null (nats : list string) (c : fconf) : fkind -> Prop :=
| dnull_refused : forall k, c_null c = VUndefined -> delimited_null nats c k
| dnull_bytes : forall k bs n, c_null c = VBytes bs -> c_size c = SInt n -> zlen bs <= n ->
    exact_kind k -> delimited_null nats c k
| dnull_zeros : forall k, c_null c = VNone \/ c_null c = VDefault -> exact_kind k ->
    delimited_null nats c k
| dnull_int : forall sg e z, c_null c = VInt z -> delimited_null nats c (KInt sg e).

Inductive delimited (nats : list string) : field -> Prop :=
| delimited_a_leaf : forall c k, blind c -> delimited_leaf nats c k -> delimited_null nats c k ->
    delimited nats (Field c k)
| delimited_array : forall c comp cnt, blind c -> c_null c = VUndefined -> cnt <> CntNone ->
    delimited nats comp -> delimited nats (Field c (KArray comp cnt None))
| delimited_nested : forall c cid, blind c -> c_null c = VUndefined ->
    delimited nats (Field c (KNested cid))
| delimited_union : forall c choices ld dd, blind c -> c_null c = VUndefined ->
    (forall s s' ctx d, ld s ctx d = ld s' ctx d) ->
    (forall g, In (CField g) choices -> delimited nats g) ->
    delimited nats (Field c (KUnion choices ld dd)).

(** A field that always loads as a natural number. *)
Definition natural_field (f : field) : Prop :=
  match kind f with KInt false _ | KVli ULEB128 _ | KVli VLQ _ => True | _ => False end
  /\ c_null (conf f) = VUndefined
  /\ (always_present (conf f) \/ exists z, c_npv (conf f) = VInt z /\ 0 <= z).

Inductive delimited_fields : list string -> list (string * field) -> Prop :=
| delimited_nil : forall nats, delimited_fields nats []
| delimited_natural : forall nats name f fs, delimited nats f -> natural_field f ->
    delimited_fields (name :: nats) fs -> delimited_fields nats ((name, f) :: fs)
| delimited_other : forall nats name f fs, delimited nats f ->
    delimited_fields nats fs -> delimited_fields nats ((name, f) :: fs).

Definition delimited_schema (E : env) : Prop := forall cid,
  NoDup (map fst (k_comps (cls E cid))) /\ delimited_fields [] (k_comps (cls E cid)).

(** Reading one struct after another from a stream. *)
Inductive reads_all (E : env) (n cid : nat) (ctx : value) : stream -> list dict -> stream -> Prop :=
| reads_none : forall s, reads_all E n cid ctx s [] s
| reads_next : forall s vals s1 rest s2,
    struct_from_stream E n cid ctx [] s = (s1, Ok vals) ->
    reads_all E n cid ctx s1 rest s2 -> reads_all E n cid ctx s (vals :: rest) s2.
