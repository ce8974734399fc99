(** Specification vocabulary that mentions the field operations of the model. *)
From Verif Require Export StructModel Spec VarintSpec.

(** The value that is really written: the default when DEFAULT is passed. *)
Definition resolved (c : fconf) (v w : value) : Prop :=
  (v <> VDefault /\ w = v) \/ (v = VDefault /\ default_of c = Ok w).

(** The bytes that stand for None: an explicit byte string, [size] zero bytes for
    DEFAULT/None, or the serialized [null_value]. *)
Definition null_form (E : env) (n : nat) (f : field) (d : dict) (nb : list Z) : Prop :=
  match c_null (conf f) with
  | VUndefined => False
  | VBytes bs => nb = bs
  | VDefault | VNone =>
    exists size, declared_size (conf f) d size /\ nb = repeat 0 (Z.to_nat size)
  | nv => do_dump E n f nv VNone d = (nb, Ok tt)
  end.

(** What one component contributes to the serialized struct: nothing if it is absent, else
    what the field itself dumps.  [d] is the dictionary form of the struct. *)
Definition field_part (E : env) (n : nat) (ctx : value) (d : dict) (nf : string * field)
    (bs : list Z) : Prop :=
  exists v, run_dict d (compute_value_for_dump (conf (snd nf)) ctx) = Ok v
    /\ ((v = VNotPresent /\ bs = [])
        \/ (v <> VNotPresent /\ field_to_stream E n (snd nf) v ctx d = (bs, Ok tt))).

(** Reading the listed components one after another, from stream [s] to stream [s'], each
    one seeing the results so far; a name that already has a value keeps it. *)
Inductive loads (E : env) (n : nat) (ctx : value)
  : list (string * field) -> dict -> stream -> dict -> stream -> Prop :=
| loads_nil : forall d s, loads E n ctx [] d s d s
| loads_cons : forall name f fs d s v s1 d' s',
    field_from_stream E n f ctx d s = (s1, Ok v) ->
    loads E n ctx fs (if dmem d name then d else d ++ [(name, v)]) s1 d' s' ->
    loads E n ctx ((name, f) :: fs) d s d' s'.

(** [s'] is [s] moved forward, inside its data. *)
Definition forward (s s' : stream) : Prop :=
  s_data s' = s_data s /\ (s_pos s <= s_pos s')%nat
  /\ (s_pos s' <= Nat.max (s_pos s) (length (s_data s)))%nat.

(** Reading a prefix of a struct: like [loads], but a discard field is read and then
    forgotten. *)
Inductive prefix_loads (E : env) (n : nat) (ctx : value)
  : list (string * field) -> dict -> stream -> dict -> stream -> Prop :=
| prefix_nil : forall d s, prefix_loads E n ctx [] d s d s
| prefix_cons : forall name f fs d s v s1 d' s',
    field_from_stream E n f ctx d s = (s1, Ok v) ->
    prefix_loads E n ctx fs (if c_discard (conf f) then d else d ++ [(name, v)]) s1 d' s' ->
    prefix_loads E n ctx ((name, f) :: fs) d s d' s'.

(** What class creation guarantees (C37, C48): names are distinct and every field carries
    its own; the table of method validators mentions only fields. *)
Definition well_formed (k : classdef) : Prop :=
  NoDup (map fst (k_comps k))
  /\ Forall (fun nf => c_name (conf (snd nf)) = Some (fst nf)) (k_comps k)
  /\ incl (map fst (k_fvals k)) (map fst (k_comps k)).

(** All validators accept the stored values: those of each field, the methods registered
    for it, and those for the whole struct. *)
Definition validated (E : env) (n : nat) (cid : nat) (vals : dict) : Prop :=
  (forall name methods, In (name, methods) (k_fvals (cls E cid)) ->
     exists f v, assoc (k_comps (cls E cid)) name = Some f
       /\ struct_get E n cid vals name = Ok v
       /\ accepts (conf f) v
       /\ Forall (fun q => run_struct E n cid vals (q v) = Ok tt) methods)
  /\ Forall (fun q => run_struct E n cid vals q = Ok tt) (k_svals (cls E cid)).

(** How the dump of one component ends. *)
Definition field_fails (E : env) (n : nat) (ctx : value) (d : dict) (nf : string * field)
    (r : res unit) : Prop :=
  is_ok r = false /\
  match run_dict d (compute_value_for_dump (conf (snd nf)) ctx) with
  | Ok v => v <> VNotPresent /\ snd (field_to_stream E n (snd nf) v ctx d) = r
  | Raise e => r = Raise e
  | OOF => r = OOF
  end.

(** The names of the fields marked [discard=True]. *)
Definition discarded (fs : list (string * field)) (name : string) : bool :=
  existsb (fun nf => String.eqb (fst nf) name && c_discard (conf (snd nf))) fs.

(** Outcomes without fuel: the operation finishes with that result; it never finishes. *)
Definition dumps_to (E : env) (f : field) (v ctx : value) (d : dict) (bs : list Z) : Prop :=
  exists n, field_to_stream E n f v ctx d = (bs, Ok tt).
Definition dump_raises (E : env) (f : field) (v ctx : value) (d : dict) (e : exn) : Prop :=
  exists n, field_to_stream E n f v ctx d = ([], Raise e).
Definition loads_to (E : env) (f : field) (ctx : value) (d : dict) (s s' : stream) (v : value)
  : Prop :=
  exists n, field_from_stream E n f ctx d s = (s', Ok v).
Definition load_raises (E : env) (f : field) (ctx : value) (d : dict) (s : stream) (e : exn)
  : Prop :=
  exists n s', field_from_stream E n f ctx d s = (s', Raise e).
Definition load_finishes (E : env) (f : field) (ctx : value) (d : dict) (s : stream) : Prop :=
  exists n, snd (field_from_stream E n f ctx d s) <> OOF.
Definition load_diverges (E : env) (f : field) (ctx : value) (d : dict) (s : stream) : Prop :=
  forall n, snd (field_from_stream E n f ctx d s) = OOF.

(** The count of an array is [m]: a constant, or the value of another field. *)
Definition counted (cnt : countspec) (d : dict) (m : Z) : Prop :=
  cnt = CntInt m \/ exists name, cnt = CntRef name /\ dget d name = Some (VInt m).

(** The array imposes no length: no count, or the field it refers to is None. *)
Definition uncounted (cnt : countspec) (d : dict) : Prop :=
  cnt = CntNone \/ exists name, cnt = CntRef name /\ dget d name = Some VNone.

(** [bs] has the size the field declares, if it declares one. *)
Definition fits_size (c : fconf) (d : dict) (bs : list Z) : Prop :=
  match c_size c with
  | SNone => True
  | SInt m => zlen bs = m
  | SRef name => dget d name = Some (VInt (zlen bs))
  end.

(** Elements read one after another from [s] to [s']; absent ones leave no element.  The
    last one read is an element. *)
Inductive elements (E : env) (comp : field) (ctx : value) (d : dict)
  : list value -> stream -> stream -> Prop :=
| elements_nil : forall s, elements E comp ctx d [] s s
| elements_take : forall s s1 s' v vs,
    loads_to E comp ctx d s s1 v -> v <> VNotPresent ->
    elements E comp ctx d vs s1 s' -> elements E comp ctx d (v :: vs) s s'
| elements_skip : forall s s1 s' vs,
    loads_to E comp ctx d s s1 VNotPresent -> vs <> [] ->
    elements E comp ctx d vs s1 s' -> elements E comp ctx d vs s s'.

(** The same, reading on as long as there is data. *)
Inductive elements_to_end (E : env) (comp : field) (ctx : value) (d : dict)
  : list value -> stream -> stream -> Prop :=
| to_end_nil : forall s, rest s = [] -> elements_to_end E comp ctx d [] s s
| to_end_take : forall s s1 s' v vs, rest s <> [] ->
    loads_to E comp ctx d s s1 v -> v <> VNotPresent ->
    elements_to_end E comp ctx d vs s1 s' -> elements_to_end E comp ctx d (v :: vs) s s'
| to_end_skip : forall s s1 s' vs, rest s <> [] ->
    loads_to E comp ctx d s s1 VNotPresent ->
    elements_to_end E comp ctx d vs s1 s' -> elements_to_end E comp ctx d vs s s'.

(** An instance of class number [cid]: distinct stored names, all of them fields. *)
Definition instance_of (E : env) (cid : nat) (vals : dict) : Prop :=
  well_formed (cls E cid) /\ NoDup (dkeys vals)
  /\ incl (dkeys vals) (map fst (k_comps (cls E cid))).

(** No Struct instance anywhere inside (generators are opaque). *)
Inductive struct_free : value -> Prop :=
| free_scalar : forall v,
    match v with VList _ | VDict _ | VStruct _ _ => False | _ => True end -> struct_free v
| free_list : forall l, Forall struct_free l -> struct_free (VList l)
| free_dict : forall d, Forall (fun kv => struct_free (snd kv)) d -> struct_free (VDict d).

(** The same field without [const], validators and presence condition (all of which are
    checked by [from_stream], not by the class-specific [_do_load]). *)
Definition unchecked (f : field) : field :=
  let c := conf f in
  Field (mkConf (c_name c) VUndefined (c_default c) (c_factory c) (c_discard c) (c_null c)
                (c_size c) [] (fun _ _ => QRet true) (c_npv c) (c_compute c) (c_index c)
                (c_offset c)) (kind f).

(** Item operations on an instance ([s[name] = v], [del s[name]]); attribute assignment is the
    former with a field name.  An operation that raises leaves the stored values alone. *)
Inductive op := OpSet (name : string) (v : value) | OpDel (name : string).

Definition op_name (o : op) : string := match o with OpSet n _ => n | OpDel n => n end.

Definition perform (E : env) (cid : nat) (vals : dict) (o : op) : res dict :=
  match o with
  | OpSet name v => struct_setitem E cid vals name v
  | OpDel name => struct_delitem E cid vals name
  end.

Definition after (E : env) (cid : nat) (vals : dict) (o : op) : dict :=
  match perform E cid vals o with Ok vals' => vals' | _ => vals end.

Definition after_all (E : env) (cid : nat) (vals : dict) (ops : list op) : dict :=
  fold_left (after E cid) ops vals.

(** The abstract map: assignment to a mutable field with an accepted value replaces the
    value, deletion of a field removes it, everything else changes nothing. *)
Definition assignable (E : env) (cid : nat) (name : string) (v : value) : Prop :=
  exists f, In (name, f) (k_comps (cls E cid)) /\ c_compute (conf f) = None
    /\ c_const (conf f) = VUndefined /\ accepts (conf f) v.

Inductive abstract_step (E : env) (cid : nat) (m : string -> option value)
  : op -> (string -> option value) -> Prop :=
| step_set : forall name v, assignable E cid name v ->
    abstract_step E cid m (OpSet name v)
      (fun x => if String.eqb x name then Some v else m x)
| step_set_refused : forall name v, ~ assignable E cid name v ->
    abstract_step E cid m (OpSet name v) m
| step_del : forall name, In name (map fst (k_comps (cls E cid))) ->
    abstract_step E cid m (OpDel name) (fun x => if String.eqb x name then None else m x)
| step_del_refused : forall name, ~ In name (map fst (k_comps (cls E cid))) ->
    abstract_step E cid m (OpDel name) m.

Inductive abstract_run (E : env) (cid : nat)
  : (string -> option value) -> list op -> (string -> option value) -> Prop :=
| run_nil : forall m, abstract_run E cid m [] m
| run_cons : forall m o m1 ops m2, abstract_step E cid m o m1 -> abstract_run E cid m1 ops m2 ->
    abstract_run E cid m (o :: ops) m2.
