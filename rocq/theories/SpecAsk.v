(** What a callable finds when it looks at a mapping, and what reading a field of a struct gives:
    a description without fuel. *)
From Coq Require Import ZArith List String.
From Verif Require Import Base Stream Values FieldModel StructModel SpecField.
Import ListNotations.

(** [answers has item names q x]: the callable [q] ends with [x] when it looks at a mapping with the
    names [names], where [name in m] is [has name] and [m[name]] gives or raises [item name]. *)
Inductive answers {A} (has : string -> Prop) (item : string -> value + exn -> Prop) (names : list string)
  : query A -> A + exn -> Prop :=
| answers_ret : forall a, answers has item names (QRet a) (inl a)
| answers_raise : forall e, answers has item names (QRaise e) (inr e)
| answers_in : forall name k x, has name -> answers has item names (k true) x ->
    answers has item names (QIn name k) x
| answers_not_in : forall name k x, ~ has name -> answers has item names (k false) x ->
    answers has item names (QIn name k) x
| answers_get : forall name k y x, item name y -> answers has item names (k y) x ->
    answers has item names (QGet name k) x
| answers_keys : forall k x, answers has item names (k names) x -> answers has item names (QKeys k) x.

(** A dict as a mapping. *)
Inductive dict_item (d : dict) : string -> value + exn -> Prop :=
| item_there : forall name v, dget d name = Some v -> dict_item d name (inl v)
| item_missing : forall name, ~ In name (map fst d) -> dict_item d name (inr (EKeyErr name)).

Definition dict_answers {A} (d : dict) (q : query A) (x : A + exn) : Prop :=
  answers (fun name => In name (map fst d)) (dict_item d) (map fst d) q x.

(** The names a struct has: those with a stored value other than UNDEFINED. *)
Definition shown (vals : dict) : list string :=
  flat_map (fun kv => match snd kv with VUndefined => [] | _ => [fst kv] end) vals.

(** What a callable gives for a field without a value: [present] is not asked about a value that is
    NOT_PRESENT, and a missing value matters only if the field is there. *)
Inductive given (c : fconf) : value -> bool + exn -> value + exn -> Prop :=
| given_error : forall v e, v <> VNotPresent -> given c v (inr e) (inr e)
| given_absent : forall v, v <> VNotPresent -> given c v (inl false) (inl VNotPresent)
| given_missing : given c VUndefined (inl true) (inr (EMissingRequired (c_name c)))
| given_value : forall v, v <> VNotPresent -> v <> VUndefined -> given c v (inl true) (inl v).

(** [reads E cid vals name x]: reading the field [name] of an instance of class [cid] with the
    stored values [vals] gives or raises [x].  [supplies ... c x]: the default or computed value. *)
Inductive reads (E : env) (cid : nat) (vals : dict) : string -> value + exn -> Prop :=
| reads_unknown : forall name, ~ In name (map fst (k_comps (cls E cid))) ->
    reads E cid vals name (inr (EKeyErr name))
| reads_stored : forall name v, In name (map fst (k_comps (cls E cid))) -> dget vals name = Some v ->
    reads E cid vals name (inl v)
| reads_nothing : forall name f e, In (name, f) (k_comps (cls E cid)) -> ~ In name (map fst vals) ->
    supplies E cid vals (conf f) (inr e) -> reads E cid vals name (inr e)
| reads_not_present : forall name f, In (name, f) (k_comps (cls E cid)) -> ~ In name (map fst vals) ->
    supplies E cid vals (conf f) (inl VNotPresent) -> reads E cid vals name (inl VNotPresent)
| reads_given : forall name f v p x, In (name, f) (k_comps (cls E cid)) -> ~ In name (map fst vals) ->
    supplies E cid vals (conf f) (inl v) ->
    answers (fun other => In other (shown vals)) (reads E cid vals) (shown vals)
            (c_present (conf f) VNone None) p ->
    given (conf f) v p x -> reads E cid vals name x
with supplies (E : env) (cid : nat) (vals : dict) : fconf -> value + exn -> Prop :=
| supplies_default : forall c, c_default c <> VUndefined -> c_factory c = None ->
    supplies E cid vals c (inl (c_default c))
| supplies_made : forall c x, c_default c <> VUndefined -> c_factory c = Some x -> supplies E cid vals c x
| supplies_computed : forall c q x, c_default c = VUndefined -> c_compute c = Some q ->
    answers (fun other => In other (shown vals)) (reads E cid vals) (shown vals) q x ->
    supplies E cid vals c x
| supplies_none : forall c, c_default c = VUndefined -> c_compute c = None ->
    supplies E cid vals c (inl VUndefined).

(** A callable looking at a struct. *)
Definition struct_answers {A} (E : env) (cid : nat) (vals : dict) (q : query A) (x : A + exn) : Prop :=
  answers (fun name => In name (shown vals)) (reads E cid vals) (shown vals) q x.

(** The value a struct shows for a field when it is turned into a dict. *)
Inductive dump_value (E : env) (cid : nat) (vals : dict) (name : string) (c : fconf) : value + exn -> Prop :=
| dv_stored_absent : dget vals name = Some VNotPresent -> dump_value E cid vals name c (inl VNotPresent)
| dv_stored : forall v p x, dget vals name = Some v -> v <> VUndefined ->
    struct_answers E cid vals (c_present c VNone None) p -> given c v p x -> dump_value E cid vals name c x
| dv_nothing : forall e, ~ In name (shown vals) -> supplies E cid vals c (inr e) ->
    dump_value E cid vals name c (inr e)
| dv_not_present : ~ In name (shown vals) -> supplies E cid vals c (inl VNotPresent) ->
    dump_value E cid vals name c (inl VNotPresent)
| dv_given : forall v p x, ~ In name (shown vals) -> supplies E cid vals c (inl v) ->
    struct_answers E cid vals (c_present c VNone None) p -> given c v p x -> dump_value E cid vals name c x.

(** The same field, always present. *)
Definition regardless (f : field) : field :=
  let c := conf f in
  Field (mkConf (c_name c) (c_const c) (c_default c) (c_factory c) (c_discard c) (c_null c) (c_size c) (c_validators c)
                (fun _ _ => QRet true) (c_npv c) (c_compute c) (c_index c) (c_offset c)) (kind f).
