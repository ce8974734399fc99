(** Values, dictionaries, queries, fields and struct classes. *)
From Verif Require Export Stream Varints Codecs Uuid Floats.

(** Python objects that can be field values.
    Simplifications: no bool (an int in Python), no subclasses; a float is its 64-bit
    pattern; a UUID its 128-bit integer; a datetime its distance from the epoch in
    microseconds and whether it is zone-aware; [VGen] is an iterable without [len]
    (e.g. a generator), observed once.  [VStruct cid d] is an instance of the class number
    [cid] whose [__values__] dict is [d]. *)
Inductive value : Type :=
| VNone
| VUndefined        (* base.py:52  UNDEFINED *)
| VDefault          (* base.py:56  DEFAULT *)
| VNotPresent       (* base.py:63  NOT_PRESENT *)
| VInt (z : Z)
| VFloat (bits : Z)
| VBytes (bs : list Z)
| VStr (cps : list Z)
| VUUID (u : Z)
| VTime (us : Z) (aware : bool)
| VList (l : list value)
| VGen (l : list value)
| VDict (d : list (string * value))
| VStruct (cid : nat) (d : list (string * value)).

(** Python dict with string keys, in insertion order. *)
Definition dict := list (string * value).

Fixpoint dget (d : dict) (name : string) : option value :=
  match d with
  | [] => None
  | (k, v) :: d' => if String.eqb k name then Some v else dget d' name
  end.

Definition dmem (d : dict) (name : string) : bool :=
  match dget d name with Some _ => true | None => false end.

(** [d[name] = v]: an existing key keeps its position. *)
Fixpoint dset (d : dict) (name : string) (v : value) : dict :=
  match d with
  | [] => [(name, v)]
  | (k, w) :: d' => if String.eqb k name then (k, v) :: d' else (k, w) :: dset d' name v
  end.

(** [d.pop(name, None)] *)
Fixpoint ddel (d : dict) (name : string) : dict :=
  match d with
  | [] => []
  | (k, w) :: d' => if String.eqb k name then d' else (k, w) :: ddel d' name
  end.

Definition dkeys (d : dict) : list string := map fst d.

(** Sentinel tests ([x is UNDEFINED] etc.). *)
Definition is_undefined (v : value) : bool := match v with VUndefined => true | _ => false end.
Definition is_default (v : value) : bool := match v with VDefault => true | _ => false end.
Definition is_none (v : value) : bool := match v with VNone => true | _ => false end.
Definition is_not_present (v : value) : bool :=
  match v with VNotPresent => true | _ => false end.

(** A user callable that inspects a mapping (a dict, or a Struct used as one): a pure
    program with the operations [name in m], [m[name]] (whose exception it may handle) and
    [list(m)]. *)
Inductive query (A : Type) : Type :=
| QRet (a : A)
| QRaise (e : exn)
| QIn (name : string) (k : bool -> query A)
| QGet (name : string) (k : value + exn -> query A)
| QKeys (k : list string -> query A).
Arguments QRet {A}. Arguments QRaise {A}. Arguments QIn {A}. Arguments QGet {A}.
Arguments QKeys {A}.

Fixpoint qbind {A B} (q : query A) (k : A -> query B) : query B :=
  match q with
  | QRet a => k a
  | QRaise e => QRaise e
  | QIn n f => QIn n (fun b => qbind (f b) k)
  | QGet n f => QGet n (fun r => qbind (f r) k)
  | QKeys f => QKeys (fun ks => qbind (f ks) k)
  end.

(** Running a query against a mapping. *)
Fixpoint run_q {A} (mem : string -> bool) (get : string -> res value)
    (keys : list string) (q : query A) : res A :=
  match q with
  | QRet a => Ok a
  | QRaise e => Raise e
  | QIn n k => run_q mem get keys (k (mem n))
  | QGet n k =>
    match get n with
    | Ok v => run_q mem get keys (k (inl v))
    | Raise e => run_q mem get keys (k (inr e))
    | OOF => OOF
    end
  | QKeys k => run_q mem get keys (k keys)
  end.

Definition dget_res (d : dict) (name : string) : res value :=
  match dget d name with Some v => Ok v | None => Raise (EKeyErr name) end.

(** The mapping is a dict. *)
Definition run_dict {A} (d : dict) (q : query A) : res A :=
  run_q (dmem d) (dget_res d) (dkeys d) q.

(** base.py:322-331 [Field.size]: None, an int, or a reference to another field by name
    (a [Field] object is a reference to its name; an unbound Field used as a size is not
    modelled).  base.py:333-339 [has_fixed_size]: it is an int. *)
Inductive sizespec := SNone | SInt (n : Z) | SRef (name : string).

(** containers.py:96-118 [Array.count]; [CntUnnamed] is a Field that has no name. *)
Inductive countspec := CntNone | CntInt (n : Z) | CntRef (name : string) | CntUnnamed.

(** base.py:267-320: the attributes of every field.  [c_const], [c_default] and [c_null]
    are [VUndefined] when not given.  [c_factory] is the (fixed) outcome of calling the
    factory.  [c_validators] are called with the value; [c_present] is called with
    (mapping, context, stream); [c_compute] is the function registered by [computes]. *)
Record fconf := mkConf {
  c_name : fname;
  c_const : value;
  c_default : value;
  c_factory : option (value + exn);
  c_discard : bool;
  c_null : value;
  c_size : sizespec;
  c_validators : list (value -> res unit);
  c_present : value -> option stream -> query bool;
  c_npv : value;
  c_compute : option (query value);
  c_index : option Z;
  c_offset : option Z
}.

(** containers.py:34-43 [HaltCheckFn]: stream, values so far, context, loaded fields;
    returns the answer and the (possibly shortened) list of values. *)
Definition haltfn := stream -> list value -> value -> dict -> res (bool * list value).

(** Field classes: numeric.py, stringlike.py, containers.py. *)
Inductive field := Field (fc : fconf) (fk : fkind)
with fkind :=
| KInt (signed : bool) (e : endian)                              (* numeric.py:148-212 *)
| KVli (fmt : vli_format) (max_bytes : option Z)                 (* numeric.py:215-274 *)
| KFloat (fmt : fformat) (e : endian)                            (* numeric.py:56-145 *)
| KTime (r : resolution) (tz_aware : bool) (signed : bool) (e : endian)
                                                                 (* numeric.py:346-495 *)
| KBytes                                                         (* stringlike.py:29-49 *)
| KString (c : codec) (pad : option Z)                           (* stringlike.py:52-149 *)
| KStringZ (c : codec) (pad : option Z)                          (* stringlike.py:152-189 *)
| KUuid (fmt : uuid_format)                                      (* stringlike.py:220-274 *)
| KArray (comp : field) (cnt : countspec) (halt : option haltfn) (* containers.py:62-324 *)
| KNested (cid : nat)                                            (* containers.py:327-371 *)
| KUnion (choices : list choice)                                 (* containers.py:374-501 *)
    (load_decider : stream -> value -> dict -> res nat)
    (dump_decider : value -> value -> dict -> res nat)
with choice := CField (f : field) | CStruct (cid : nat).

Definition conf (f : field) : fconf := match f with Field c _ => c end.
Definition kind (f : field) : fkind := match f with Field _ k => k end.
Definition name_of (f : field) : fname := c_name (conf f).
(** The name of a field bound to a struct (always set, see Decl.v). *)
Definition cname (f : field) : string :=
  match name_of f with Some s => s | None => EmptyString end.

(** structures.py:48-102 [StructMetadata].  Method validators receive the struct as a
    mapping and the value; struct validators receive the struct. *)
Record classdef := mkClass {
  k_name : string;
  k_comps : list (string * field);
  k_fvals : list (string * list (value -> query unit));
  k_svals : list (query unit);
  k_own : Z;                     (* num_own_fields *)
  k_defaults : list (string * endian)   (* argument_defaults (only "endian" can matter) *)
}.

Definition empty_class : classdef := mkClass EmptyString [] [] [] 0 [].

(** Struct classes are referred to by number.  A number outside the table stands for a
    class without fields. *)
Definition env := list classdef.
Definition cls (E : env) (cid : nat) : classdef := nth cid E empty_class.

Fixpoint assoc {A} (l : list (string * A)) (name : string) : option A :=
  match l with
  | [] => None
  | (k, v) :: l' => if String.eqb k name then Some v else assoc l' name
  end.
