(** Specification vocabulary for the exceptions of a dump: values of the right type, callables
    that raise only what they may, and which schemas the claims are about. *)
From Verif Require Export SpecNum SpecField StructModel.

(** Reported by the library: errors.Error. *)
Definition reported (e : exn) : Prop := is_binobj_Error e = true.

(** Exceptions of the standard library that a field class lets through although the value has
    the right type: text that cannot be encoded, numbers too large for a narrow float. *)
Definition dump_escapes (k : fkind) (e : exn) : Prop :=
  match k with
  | KString _ _ | KStringZ _ _ => e = EUnicodeEncode
  | KFloat fmt _ => fmt <> binary64 /\ e = EOverflow
  | _ => False
  end.

(** The Python type that belongs to a scalar field class. *)
Definition right_type (k : fkind) (v : value) : Prop :=
  match k, v with
  | KInt _ _, VInt _ | KVli _ _, VInt _ | KFloat _ _, VFloat _ | KFloat _ _, VInt _
  | KBytes, VBytes _ | KString _ _, VStr _ | KStringZ _ _, VStr _ | KUuid _, VUUID _ => True
  | KTime _ _ _ _, VTime us aware => is_datetime aware us
  | _, _ => False
  end.

(** A field without a presence condition. *)
Definition unconditioned (f : field) : Prop := forall ctx so, c_present (conf f) ctx so = QRet true.

(** A field that other fields may use as a size or count: an integer, always there. *)
Definition counts (f : field) : Prop :=
  match kind f with KInt _ _ | KVli _ _ => True | _ => False end
  /\ c_null (conf f) = VUndefined /\ unconditioned f.

(** Values of the right type at all levels.  A nested value is a dictionary, or an instance
    with all fields set; what a Union is given contains no instances, nor do values with names
    the class does not know. *)
Inductive typed (E : env) : field -> value -> Prop :=
| typed_leaf : forall c k v, right_type k v -> typed E (Field c k) v
| typed_none : forall c k, c_null c <> VUndefined -> typed E (Field c k) VNone
| typed_list : forall c comp cnt halt l, (forall v, In v l -> typed E comp v) ->
    typed E (Field c (KArray comp cnt halt)) (VList l)
| typed_gen : forall c comp cnt halt l, (forall v, In v l -> typed E comp v) ->
    typed E (Field c (KArray comp cnt halt)) (VGen l)
| typed_dict : forall c cid d, NoDup (dkeys d) ->
    (forall name v f, In (name, v) d -> In (name, f) (k_comps (cls E cid)) -> v <> VNotPresent ->
       typed E f v) ->
    (forall name f, In (name, VNotPresent) d -> In (name, f) (k_comps (cls E cid)) -> ~ unconditioned f) ->
    (forall name v, In (name, v) d -> ~ In name (map fst (k_comps (cls E cid))) -> struct_free v) ->
    typed E (Field c (KNested cid)) (VDict d)
| typed_instance : forall c cid vals, instance_of E cid vals ->
    (forall name, In name (map fst (k_comps (cls E cid))) -> In name (dkeys vals)) ->
    (forall name v f, In (name, v) vals -> In (name, f) (k_comps (cls E cid)) -> v <> VNotPresent ->
       typed E f v) ->
    (forall name f, In (name, VNotPresent) vals -> In (name, f) (k_comps (cls E cid)) -> ~ unconditioned f) ->
    typed E (Field c (KNested cid)) (VStruct cid vals)
| typed_union : forall c choices ld dd v, struct_free v -> (forall ctx d, exists i, dd v ctx d = Ok i) ->
    (forall ctx d i, dd v ctx d = Ok i -> exists ch, nth_error choices i = Some ch) ->
    (forall ctx d i g, dd v ctx d = Ok i -> nth_error choices i = Some (CField g) -> typed E g v) ->
    (forall ctx d i cid, dd v ctx d = Ok i -> nth_error choices i = Some (CStruct cid) ->
       (exists d', v = VDict d') /\ typed E (Field c (KNested cid)) v) ->
    typed E (Field c (KUnion choices ld dd)) v.

(** The value of a component: of the right type, or NOT_PRESENT if it has a condition. *)
Definition suits (E : env) (f : field) (v : value) : Prop :=
  typed E f v \/ (v = VNotPresent /\ ~ unconditioned f).
Definition values_fit (E : env) (cid : nat) (d : dict) : Prop :=
  forall name v f, In (name, v) d -> In (name, f) (k_comps (cls E cid)) -> suits E f v.

(** Fields of the class; those that are not discarded; those that can be sizes or counts. *)
Definition member (E : env) (cid : nat) (name : string) : Prop :=
  In name (map fst (k_comps (cls E cid))).
Definition kept (E : env) (cid : nat) (name : string) : Prop :=
  exists f, In (name, f) (k_comps (cls E cid)) /\ c_discard (conf f) = false.
Definition counter (E : env) (cid : nat) (name : string) : Prop :=
  exists f, In (name, f) (k_comps (cls E cid)) /\ counts f.

(** The size is a constant or a counter; where a size is needed, there is one. *)
Definition size_ok (counter : string -> Prop) (c : fconf) (k : fkind) : Prop :=
  match c_size c with
  | SInt _ => True
  | SRef name => counter name
  | SNone => match k with KTime _ _ _ _ | KBytes | KString _ _ => False | _ => True end
  end.

Definition count_ok (counter : string -> Prop) (cnt : countspec) : Prop :=
  match cnt with CntNone | CntInt _ => True | CntRef name => counter name | CntUnnamed => True end.

(** [null_value] has a representation. *)
Definition null_ok (c : fconf) (k : fkind) : Prop :=
  match c_null c with
  | VUndefined | VBytes _ => True
  | VNone | VDefault => c_size c <> SNone
  | v => right_type k v
  end.

Definition checks_raise (A : exn -> Prop) (c : fconf) : Prop :=
  forall check v e, In check (c_validators c) -> check v = Raise e -> A e.

Inductive safe (A : exn -> Prop) (counter : string -> Prop) : field -> Prop :=
| safe_leaf : forall c k, match k with KArray _ _ _ | KNested _ | KUnion _ _ _ => False | _ => True end ->
    checks_raise A c -> size_ok counter c k -> null_ok c k -> (forall e, dump_escapes k e -> A e) ->
    safe A counter (Field c k)
| safe_array : forall c comp cnt halt, checks_raise A c -> size_ok counter c (KArray comp cnt halt) ->
    null_ok c (KArray comp cnt halt) -> count_ok counter cnt -> safe A counter comp ->
    safe A counter (Field c (KArray comp cnt halt))
| safe_nested : forall c cid, checks_raise A c -> size_ok counter c (KNested cid) -> null_ok c (KNested cid) ->
    safe A counter (Field c (KNested cid))
| safe_union : forall c choices ld dd, checks_raise A c -> size_ok counter c (KUnion choices ld dd) ->
    null_ok c (KUnion choices ld dd) -> (forall g, In (CField g) choices -> safe A counter g) ->
    safe A counter (Field c (KUnion choices ld dd)).

(** Lookups in a mapping give values of the right type. *)
Definition lookups_fit (E : env) (cid : nat) (get : string -> res value) : Prop :=
  forall x w g, get x = Ok w -> In (x, g) (k_comps (cls E cid)) -> suits E g w.

(** A callable that raises nothing of its own but exceptions in [A], as long as the values it
    reads have the right type and the fields in [S] raise nothing else. *)
Definition raises_only {T} (A : exn -> Prop) (E : env) (cid : nat) (S : string -> Prop) (q : query T) : Prop :=
  forall mem get keys e, lookups_fit E cid get ->
    (forall x y, S x -> get x = Raise y -> reported y \/ A y) ->
    run_q mem get keys q = Raise e -> reported e \/ A e.

(** A condition that can be evaluated as soon as the fields in [S] can be read. *)
Definition decides (E : env) (cid : nat) (S : string -> Prop) (q : query bool) : Prop :=
  forall mem get keys, lookups_fit E cid get -> (forall x, S x -> exists v, get x = Ok v) ->
    exists b, run_q mem get keys q = Ok b.

(** Computed values have the right type if the values read have. *)
Definition computes_well (A : exn -> Prop) (E : env) (cid : nat) (f : field) (q : query value) : Prop :=
  raises_only A E cid (kept E cid) q
  /\ forall mem get keys v, lookups_fit E cid get -> run_q mem get keys q = Ok v -> v = VUndefined \/ suits E f v.

Definition safe_class (A : exn -> Prop) (E : env) (cid : nat) : Prop :=
  well_formed (cls E cid)
  /\ incl (map fst (k_comps (cls E cid))) (map fst (k_fvals (cls E cid)))
  /\ (forall name f, In (name, f) (k_comps (cls E cid)) ->
        safe A (counter E cid) f
        /\ (forall v, default_of (conf f) = Ok v -> v = VUndefined \/ suits E f v)
        /\ (forall e, default_of (conf f) = Raise e -> A e)
        /\ (forall ctx, raises_only A E cid (kept E cid) (c_present (conf f) ctx None)
                      /\ decides E cid (kept E cid) (c_present (conf f) ctx None))
        /\ (forall q, c_compute (conf f) = Some q -> computes_well A E cid f q))
  /\ (forall name methods q v, In (name, methods) (k_fvals (cls E cid)) -> In q methods ->
        raises_only A E cid (member E cid) (q v))
  /\ (forall q, In q (k_svals (cls E cid)) -> raises_only A E cid (member E cid) q).

Definition safe_schema (A : exn -> Prop) (E : env) : Prop := forall cid, safe_class A E cid.
