(** Specification vocabulary for partial access, sizes and lengths. *)
From Verif Require Export SpecField.

(** The value [partial_dump] uses for a field: the stored one, else the default. *)
Definition own_value (vals : dict) (name : string) (c : fconf) (v : value) : Prop :=
  exists dv, default_of c = Ok dv /\ v = match dget vals name with Some v => v | None => dv end.

(** What one component dumps on its own, i.e. without looking at the other fields. *)
Definition own_part (E : env) (n : nat) (ctx : value) (vals : dict) (nf : string * field)
    (bs : list Z) : Prop :=
  exists v, own_value vals (fst nf) (conf (snd nf)) v
    /\ field_to_stream E n (snd nf) v ctx [] = (bs, Ok tt).

(** The dump of the field does not depend on the other fields. *)
Definition self_contained (E : env) (f : field) : Prop :=
  forall n v ctx d d', field_to_stream E n f v ctx d = field_to_stream E n f v ctx d'.

(** Neither does loading it (before it has a value itself). *)
Definition load_contained (E : env) (f : field) : Prop :=
  forall n ctx d s, oget d (c_name (conf f)) = None ->
    field_from_stream E n f ctx d s = field_from_stream E n f ctx [] s.

(** The presence test says yes whatever it looks at. *)
Definition unconditional (c : fconf) : Prop :=
  forall mem get keys ctx so, run_q mem get keys (c_present c ctx so) = Ok true.

(** A field that needs nothing but its own value: present, not computed, not discarded; its
    default, if any, is plain data. *)
Definition simple (f : field) : Prop :=
  unconditional (conf f) /\ c_compute (conf f) = None /\ c_discard (conf f) = false
  /\ exists dv, default_of (conf f) = Ok dv /\ struct_free dv /\ dv <> VNotPresent.

(** Stored values are plain data (no UNDEFINED, no NOT_PRESENT, no Struct instances). *)
Definition plain_data (vals : dict) : Prop :=
  forall name v, dget vals name = Some v ->
    v <> VUndefined /\ v <> VNotPresent /\ struct_free v.

(** Every successful load of the field gives a value and moves the stream by exactly [m]
    bytes. *)
Definition consumes (E : env) (f : field) (m : Z) : Prop :=
  forall n ctx d s s' v, field_from_stream E n f ctx d s = (s', Ok v) ->
    v <> VNotPresent /\ Z.of_nat (s_pos s') = Z.of_nat (s_pos s) + m.

Definition sum (l : list Z) : Z := fold_right Z.add 0 l.

(** All fields have a constant size. *)
Definition fixed_sizes (fs : list (string * field)) (sizes : list Z) : Prop :=
  Forall2 (fun nf m => c_size (conf (snd nf)) = SInt m) fs sizes.

(** The bytes standing for None, if there are any, are [m] bytes long. *)
Definition null_fits (E : env) (f : field) (m : Z) : Prop :=
  c_null (conf f) <> VUndefined ->
  forall n d nb, null_repr (do_dump E n) f d = Ok nb -> zlen nb = m.

(** Syntactic sufficient conditions: no reference to another field anywhere the field itself
    would have to resolve it. *)
Definition null_needs_size (c : fconf) : Prop := c_null c = VDefault \/ c_null c = VNone.

Inductive ref_free : field -> Prop :=
| rf_sized : forall c k m, c_size c = SInt m ->
    match k with KArray _ _ _ | KNested _ | KUnion _ _ _ => False | _ => True end ->
    ref_free (Field c k)
| rf_unsized : forall c k, c_size c = SNone -> ~ null_needs_size c ->
    match k with KVli _ _ | KStringZ _ _ | KFloat _ _ | KUuid _ => True | _ => False end ->
    ref_free (Field c k)
| rf_array : forall c comp cnt, (forall name, c_size c <> SRef name) ->
    (c_size c = SNone -> ~ null_needs_size c) ->
    (forall name, cnt <> CntRef name) -> ref_free comp ->
    ref_free (Field c (KArray comp cnt None))
| rf_nested : forall c cid, (forall name, c_size c <> SRef name) ->
    (c_size c = SNone -> ~ null_needs_size c) ->
    ref_free (Field c (KNested cid)).

(** No reference to another field, but possibly to the field's own (not yet known) value. *)
Inductive ref_less : field -> Prop :=
| rl_leaf : forall c k, (forall name, c_size c <> SRef name) ->
    match k with KArray _ _ _ | KNested _ | KUnion _ _ _ => False | _ => True end ->
    ref_less (Field c k)
| rl_array : forall c comp cnt, (forall name, c_size c <> SRef name) ->
    (forall name, cnt <> CntRef name) -> ref_less comp -> unconditional (conf comp) ->
    c_name (conf comp) = None \/ c_name (conf comp) = c_name c ->
    ref_less (Field c (KArray comp cnt None))
| rl_nested : forall c cid, (forall name, c_size c <> SRef name) ->
    ref_less (Field c (KNested cid)).

(** A component that is written, and not as None. *)
Definition written (ctx : value) (all : dict) (f : field) : Prop :=
  exists v, run_dict all (compute_value_for_dump (conf f) ctx) = Ok v
    /\ v <> VNotPresent /\ v <> VNone /\ (v = VDefault -> default_of (conf f) <> Ok VNone).

(** A value whose length [len()] can tell: either the class of the field knows it, or the
    field can be dumped on its own. *)
Definition measurable (E : env) (f : field) : Prop :=
  match kind f with
  | KBytes | KString _ _ | KStringZ _ _ | KVli _ _ => True
  | _ => c_size (conf f) = SNone -> self_contained E f
  end.

(** Classes of fields that read exactly their declared size. *)
Definition exact_kind (k : fkind) : bool :=
  match k with
  | KInt _ _ | KFloat _ _ | KTime _ _ _ _ | KBytes | KString _ _ | KUuid _ => true
  | _ => false
  end.
