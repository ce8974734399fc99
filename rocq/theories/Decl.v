(** Declarations: field constructors, binding of fields, creation of struct classes by
    assignment (structures.py) and by annotations (pep526.py).

    Simplifications.  Objects have no identity: a Field object used in two places is two
    equal fields, so that binding one never changes the other.  Of a field's explicit
    constructor arguments only "endian" is recorded, the only name in any
    [__overrideable_attributes__] (numeric.py:175).  Errors raised by [__set_name__] are
    not wrapped in RuntimeError (as Python before 3.12 does). *)
From Verif Require Export StructModel.

(** ---------------------------------------------------------------- constructors *)

(** The argument [default]: a value ([VUndefined] when not given) or a callable, given by
    its outcome. *)
Inductive default_arg := DValue (v : value) | DCall (r : value + exn).

(** base.py:267-280: the keyword arguments every field takes. *)
Record kwargs := mkKw {
  a_name : fname;
  a_const : value;
  a_default : default_arg;
  a_factory : option (value + exn);
  a_discard : bool;
  a_null : value;
  a_size : sizespec;
  a_validate : list (value -> res unit);
  a_present : value -> option stream -> query bool;
  a_npv : value
}.

Definition no_args : kwargs :=
  mkKw None VUndefined (DValue VUndefined) None false VUndefined SNone [] (fun _ _ => QRet true)
       VNotPresent.

Definition with_size (s : sizespec) (kw : kwargs) : kwargs :=
  mkKw (a_name kw) (a_const kw) (a_default kw) (a_factory kw) (a_discard kw) (a_null kw) s
       (a_validate kw) (a_present kw) (a_npv kw).

(** base.py:320 with 545-566: the size of [const] as computed inside the constructor.  A
    class without its own [_size_for_value] reads [self.size] before [_size] exists. *)
Definition size_for_const (c : fconf) (k : fkind) : res sizespec :=
  match k with
  | KBytes | KString _ _ | KStringZ _ _ | KVli _ _ =>
    do sz <- size_for_value c k (c_const c);
    Ok (match sz with Some z => SInt z | None => SNone end)
  | _ => Raise EAttrErr
  end.

Definition set_size (s : sizespec) (c : fconf) : fconf :=
  mkConf (c_name c) (c_const c) (c_default c) (c_factory c) (c_discard c) (c_null c) s
         (c_validators c) (c_present c) (c_npv c) (c_compute c) (c_index c) (c_offset c).

(** base.py:267-320 [Field.__init__]; [k] tells the class. *)
Definition base_init (k : fkind) (kw : kwargs) : res fconf :=
  let given := match a_default kw with DValue VUndefined => false | _ => true end in
  match a_factory kw, given with
  | Some _, true => Raise (EConfig (a_name kw))
  | _, _ =>
    let dflt := match a_default kw with
                | DValue VUndefined => a_const kw
                | DValue v => v
                | DCall _ => VUndefined
                end in
    let fac := match a_default kw with DCall r => Some r | _ => a_factory kw end in
    let c := mkConf (a_name kw) (a_const kw) dflt fac (a_discard kw) (a_null kw) (a_size kw)
                    (a_validate kw) (a_present kw) (a_npv kw) None None None in
    match a_size kw with
    | SNone =>
      if is_undefined (a_const kw) then Ok c
      else do s <- size_for_const c k; Ok (set_size s c)
    | _ => Ok c
    end
  end.

(** numeric.py:148-212, 277-343: the integer classes, and user subclasses of them that keep
    the constructor. *)
Inductive int_class :=
| Integer | UnsignedInteger | Int8 | Int16 | Int32 | Int64 | UInt8 | UInt16 | UInt32 | UInt64
| IntSubclass (name : string) (c : int_class).

Definition int_name (c : int_class) : string :=
  match c with
  | Integer => "Integer" | UnsignedInteger => "UnsignedInteger"
  | Int8 => "Int8" | Int16 => "Int16" | Int32 => "Int32" | Int64 => "Int64"
  | UInt8 => "UInt8" | UInt16 => "UInt16" | UInt32 => "UInt32" | UInt64 => "UInt64"
  | IntSubclass name _ => name
  end.

(** The size the class passes to its parent's constructor. *)
Fixpoint int_size (c : int_class) : option Z :=
  match c with
  | Integer | UnsignedInteger => None
  | Int8 | UInt8 => Some 1
  | Int16 | UInt16 => Some 2
  | Int32 | UInt32 => Some 4
  | Int64 | UInt64 => Some 8
  | IntSubclass _ c => int_size c
  end.

(** The class passes [signed=False]. *)
Fixpoint int_unsigned (c : int_class) : bool :=
  match c with
  | Integer | Int8 | Int16 | Int32 | Int64 => false
  | UnsignedInteger | UInt8 | UInt16 | UInt32 | UInt64 => true
  | IntSubclass _ c => int_unsigned c
  end.

(** numeric.py:346-495 *)
Inductive time_class := Timestamp | Timestamp32 | Timestamp64.
Definition time_name (c : time_class) : string :=
  match c with
  | Timestamp => "Timestamp" | Timestamp32 => "Timestamp32" | Timestamp64 => "Timestamp64"
  end.
Definition time_size (c : time_class) : option Z :=
  match c with Timestamp => None | Timestamp32 => Some 4 | Timestamp64 => Some 8 end.

(** numeric.py:118-145 *)
Inductive float_class := Float16 | Float32 | Float64.
Definition float_name (c : float_class) : string :=
  match c with Float16 => "Float16" | Float32 => "Float32" | Float64 => "Float64" end.
Definition float_format (c : float_class) : fformat :=
  match c with Float16 => binary16 | Float32 => binary32 | Float64 => binary64 end.

(** A constructor call.  [endian] arguments: [None] when not passed, [Some None] when passed
    as [None]. *)
Definition endian_arg := option (option endian).

Inductive fexpr :=
| XInt (c : int_class) (e : endian_arg) (signed : option bool) (kw : kwargs)
| XVli (fmt : vli_format) (max_bytes : option Z) (kw : kwargs)
| XFloat (c : float_class) (e : endian_arg) (kw : kwargs)
| XTime (c : time_class) (r : resolution) (tz : bool) (e : endian_arg) (signed : bool)
        (kw : kwargs)
| XBytes (kw : kwargs)
| XString (cd : codec) (pad : option Z) (kw : kwargs)
| XStringZ (cd : codec) (pad : option Z) (kw : kwargs)
| XUuid (fmt : uuid_format) (kw : kwargs)
| XArray (comp : fexpr) (cnt : countspec) (halt : option haltfn) (kw : kwargs)
| XNested (cid : nat) (kw : kwargs)
| XUnion (choices : list xchoice) (load_decider : stream -> value -> dict -> res nat)
         (dump_decider : value -> value -> dict -> res nat) (kw : kwargs)
with xchoice := XCField (x : fexpr) | XCStruct (cid : nat).

(** A Field object before it is bound: its class name and whether [endian] is among its
    explicit constructor arguments (base.py:257-265). *)
Record decl := mkDecl { d_class : string; d_endian_given : bool; d_field : field }.

Definition endian_given (e : endian_arg) : bool :=
  match e with Some _ => true | None => false end.

(** A size passed by the class itself; passing [size] as well is a TypeError. *)
Definition class_size (own : option Z) (kw : kwargs) : res kwargs :=
  match own, a_size kw with
  | None, _ => Ok kw
  | Some z, SNone => Ok (with_size (SInt z) kw)
  | Some _, _ => Raise ETypeErr
  end.

(** base.py:1040-1051 [maybe_assign_name], for a new name that may itself be [None]. *)
Definition maybe_assign_name (existing new : fname) : res fname :=
  match existing with
  | None => Ok new
  | Some x =>
    match new with
    | Some y => if String.eqb y x then Ok existing else Raise (EConfig existing)
    | None => Raise (EConfig existing)
    end
  end.

Definition set_name (nm : fname) (f : field) : field :=
  match f with
  | Field c k =>
    Field (mkConf nm (c_const c) (c_default c) (c_factory c) (c_discard c) (c_null c) (c_size c)
                  (c_validators c) (c_present c) (c_npv c) (c_compute c) (c_index c) (c_offset c)) k
  end.

Section Declarations.
(** [sys.byteorder] *)
Variable native : endian.
(** The classes that exist, and the fuel for [get_size]. *)
Variable E : env.
Variable n : nat.

(** [endian or sys.byteorder] *)
Definition byte_order_arg (e : endian_arg) : endian :=
  match e with Some (Some e) => e | _ => native end.

Fixpoint construct (x : fexpr) : res decl :=
  match x with
  | XInt c e sg kw =>               (* numeric.py:177-187, 277-343 *)
    do kw <- class_size (int_size c) kw;
    do s <- match int_unsigned c, sg with
            | true, Some _ => Raise ETypeErr
            | true, None => Ok false
            | false, Some s => Ok s
            | false, None => Ok true
            end;
    let k := KInt s (byte_order_arg e) in
    do fc <- base_init k kw;
    Ok (mkDecl (int_name c) (endian_given e) (Field fc k))
  | XVli fmt mx kw =>               (* numeric.py:225-249 *)
    let k := KVli fmt mx in
    do fc <- base_init k kw; Ok (mkDecl "VariableLengthInteger" false (Field fc k))
  | XFloat c e kw =>                (* numeric.py:72-90, 118-145 *)
    do kw <- class_size (Some (ff_bytes (float_format c))) kw;
    let k := KFloat (float_format c) (byte_order_arg e) in
    do fc <- base_init k kw; Ok (mkDecl (float_name c) (endian_given e) (Field fc k))
  | XTime c r tz e sg kw =>         (* numeric.py:396-421, 476-495 *)
    do kw <- class_size (time_size c) kw;
    do _ <- match a_size kw with SNone => Raise ETypeErr | _ => Ok tt end;
    let k := KTime r tz sg (byte_order_arg e) in
    do fc <- base_init k kw; Ok (mkDecl (time_name c) (endian_given e) (Field fc k))
  | XBytes kw =>                    (* stringlike.py:29-49 *)
    do fc <- base_init KBytes kw; Ok (mkDecl "Bytes" false (Field fc KBytes))
  | XString cd pad kw =>            (* stringlike.py:81-101 *)
    let k := KString cd pad in
    do fc <- base_init k kw; Ok (mkDecl "String" false (Field fc k))
  | XStringZ cd pad kw =>           (* stringlike.py:81-101, 152-189 *)
    let k := KStringZ cd pad in
    do fc <- base_init k kw; Ok (mkDecl "StringZ" false (Field fc k))
  | XUuid fmt kw =>                 (* stringlike.py:228-244 *)
    do kw <- class_size (Some (uuid_size fmt)) kw;
    let k := KUuid fmt in
    do fc <- base_init k kw; Ok (mkDecl "UUID4" false (Field fc k))
  | XArray comp cnt halt kw =>      (* containers.py:96-118 *)
    do d <- construct comp;
    do fc <- base_init (KArray (d_field d) cnt halt) kw;
    do nm <- maybe_assign_name (name_of (d_field d)) (c_name fc);
    let comp' := set_name nm (d_field d) in
    let size := match cnt, c_size (conf comp') with
                | CntInt m, SInt z => SInt (m * z)
                | _, _ => c_size fc
                end in
    Ok (mkDecl "Array" false (Field (set_size size fc) (KArray comp' cnt halt)))
  | XNested cid kw =>               (* containers.py:348-351 *)
    do fc <- base_init (KNested cid) kw;
    do sz <- get_size E n cid;
    let size := match sz with Some z => SInt z | None => SNone end in
    Ok (mkDecl "Nested" false (Field (set_size size fc) (KNested cid)))
  | XUnion choices ld dd kw =>      (* containers.py:453-469 *)
    do cs <- (fix go (l : list xchoice) : res (list choice) :=
                match l with
                | [] => Ok []
                | XCField y :: l' =>
                  do d <- construct y; do r <- go l'; Ok (CField (d_field d) :: r)
                | XCStruct cid :: l' => do r <- go l'; Ok (CStruct cid :: r)
                end) choices;
    let k := KUnion cs ld dd in
    do fc <- base_init k kw; Ok (mkDecl "Union" false (Field fc k))
  end.

(** base.py:490-506 [computes] *)
Definition computes (q : query value) (d : decl) : res decl :=
  match d_field d with
  | Field c k =>
    match c_compute c with
    | Some _ => Raise (EConfig (c_name c))
    | None =>
      if is_undefined (c_const c) then
        Ok (mkDecl (d_class d) (d_endian_given d)
              (Field (mkConf (c_name c) (c_const c) (c_default c) (c_factory c) (c_discard c)
                             (c_null c) (c_size c) (c_validators c) (c_present c) (c_npv c)
                             (Some q) (c_index c) (c_offset c)) k))
      else Raise (EConfig (c_name c))
    end
  end.

(** ---------------------------------------------------------------- binding *)

(** base.py:366-398: the default for the argument "endian". *)
Definition endian_default (defaults : list (string * endian)) (class : string)
  : option endian :=
  match assoc defaults (class ++ "__" ++ "endian") with
  | Some e => Some e
  | None => assoc defaults "endian"
  end.

(** base.py:341-398 [bind_to_container].  Only Integer and its subclasses declare "endian"
    overrideable; a VariableLengthInteger takes the default but never looks at it. *)
Definition bind_to_container (defaults : list (string * endian)) (name : string)
    (index : Z) (offset : option Z) (d : decl) : res field :=
  match d_field d with
  | Field c k =>
    do nm <- maybe_assign_name (c_name c) (Some name);
    let k' := match k with
              | KInt sg e =>
                if d_endian_given d then k
                else match endian_default defaults (d_class d) with
                     | Some e' => KInt sg e'
                     | None => k
                     end
              | _ => k
              end in
    Ok (Field (mkConf nm (c_const c) (c_default c) (c_factory c) (c_discard c) (c_null c)
                      (c_size c) (c_validators c) (c_present c) (c_npv c) (c_compute c)
                      (Some index) offset) k')
  end.

(** structures.py:247-251, pep526.py:259-263: the offset of the next field. *)
Definition next_offset (offset : option Z) (f : field) : option Z :=
  match offset, c_size (conf f) with
  | Some o, SInt z => Some (o + z)
  | _, _ => None
  end.

(** ---------------------------------------------------------------- class creation *)

(** What a name in a class body is bound to. *)
Inductive item :=
| IField (d : decl)
| IValidates (names : list string) (q : value -> query unit)  (* decorators.py:46-82 *)
| IValidatesStruct (q : query unit)                           (* decorators.py:85-107 *)
| IValue (a : default_arg)                                    (* any other attribute *)
.
Definition namespace := list (string * item).

(** base.py:1030-1031 [__set_name__], called by Python for every field of the body before
    [__init_subclass__] runs. *)
Fixpoint set_names (ns : namespace) : res unit :=
  match ns with
  | [] => Ok tt
  | (name, IField d) :: ns' =>
    do _ <- maybe_assign_name (name_of (d_field d)) (Some name); set_names ns'
  | _ :: ns' => set_names ns'
  end.

(** structures.py:204-257 [collect_assigned_fields]: the components and the number of
    fields found. *)
Fixpoint collect_assigned_fields (defaults : list (string * endian)) (ns : namespace)
    (comps : list (string * field)) (index : Z) (offset : option Z) (found : Z)
  : res (list (string * field) * Z) :=
  match ns with
  | [] => Ok (comps, found)
  | (name, IField d) :: ns' =>
    match assoc comps name with
    | Some _ => Raise (EFieldRedefined name)
    | None =>
      do f <- bind_to_container defaults name index offset d;
      collect_assigned_fields defaults ns' (comps ++ [(name, f)]) (index + 1)
                              (next_offset offset f) (found + 1)
    end
  | _ :: ns' => collect_assigned_fields defaults ns' comps index offset found
  end.

Definition fvals := list (string * list (value -> query unit)).

(** [field_validators[name] = l] *)
Fixpoint set_fvals (t : fvals) (name : string) (l : list (value -> query unit)) : fvals :=
  match t with
  | [] => [(name, l)]
  | (k, v) :: t' => if String.eqb k name then (k, l) :: t' else (k, v) :: set_fvals t' name l
  end.

(** structures.py:152-158: an empty list for every field of the body. *)
Fixpoint own_fvals (ns : namespace) (t : fvals) : fvals :=
  match ns with
  | [] => t
  | (name, IField _) :: ns' => own_fvals ns' (set_fvals t name [])
  | _ :: ns' => own_fvals ns' t
  end.

(** structures.py:269-272: the method is added to each named field. *)
Fixpoint attach (names : list string) (q : value -> query unit) (t : fvals) : res fvals :=
  match names with
  | [] => Ok t
  | name :: names' =>
    match assoc t name with
    | Some l => attach names' q (set_fvals t name (l ++ [q]))
    | None => Raise (EKeyErr name)
    end
  end.

(** structures.py:260-276 [bind_validators_to_struct] *)
Fixpoint bind_validators (ns : namespace) (t : fvals) (sv : list (query unit))
  : res (fvals * list (query unit)) :=
  match ns with
  | [] => Ok (t, sv)
  | (_, IValidates names q) :: ns' => do t' <- attach names q t; bind_validators ns' t' sv
  | (_, IValidatesStruct q) :: ns' => bind_validators ns' t (sv ++ [q])
  | _ :: ns' => bind_validators ns' t sv
  end.

(** structures.py:104-174 [StructMetadata.from_class], called from [__init_subclass__]
    (806-815).  [bases] are the struct classes among the bases; [meta] is the
    [argument_defaults] of a [Meta] class in the body (otherwise the attribute lookup finds
    the parent's). *)
Definition create_class (name : string) (bases : list nat)
    (meta : option (list (string * endian))) (ns : namespace) : res classdef :=
  do _ <- set_names ns;
  do start <- match bases with
              | [] => Ok (empty_class, Some 0)
              | [b] => do off <- get_size E n b; Ok (cls E b, off)
              | _ => Raise EMultipleInheritance
              end;
  let '(base, offset) := start in
  let defaults := match meta with Some m => m | None => k_defaults base end in
  do cs <- collect_assigned_fields defaults ns (k_comps base) (zlen (k_comps base)) offset 0;
  do vs <- bind_validators ns (own_fvals ns (k_fvals base)) (k_svals base);
  Ok (mkClass name (fst cs) (fst vs) (snd vs) (snd cs) defaults).

(** ---------------------------------------------------------------- pep526.py *)

(** Field classes that can be used as an annotation, i.e. that can be called with [name],
    [default] and [null_value] only; [FNeedsMore] stands for the others (Array, Nested,
    Union, Timestamp, Float, VariableLengthInteger). *)
Inductive field_class :=
| FInt (c : int_class) | FFloat (c : float_class) | FTime32 | FTime64 | FBytes | FString
| FStringZ | FUuid | FNeedsMore.

Definition instantiate (fc : field_class) (kw : kwargs) : option fexpr :=
  match fc with
  | FInt c => Some (XInt c None None kw)
  | FFloat c => Some (XFloat c None kw)
  | FTime32 => Some (XTime Timestamp32 ResS false None true kw)
  | FTime64 => Some (XTime Timestamp64 ResS false None true kw)
  | FBytes => Some (XBytes kw)
  | FString => Some (XString Latin1 None kw)
  | FStringZ => Some (XStringZ Latin1 None kw)
  | FUuid => Some (XUuid BINARY_VARIANT_1 kw)
  | FNeedsMore => None
  end.

(** An annotation (or one piece of metadata of an [Annotated]): a field class, possibly
    inside [Optional]; a struct class; a Field instance; a [Union] of several types;
    something else. *)
Inductive annot :=
| AFieldClass (fc : field_class) (optional : bool)
| AStructClass (cid : nat)
| AInstance (d : decl)
| AUnion
| AOther.
Definition hints := list (string * list annot).

(** pep526.py:109-125: [Union[X, Y]] is rejected while the annotations are inspected. *)
Definition no_unions (name : string) (anns : list annot) : res unit :=
  if existsb (fun a => match a with AUnion => true | _ => false end) anns
  then Raise (EInvalidTypeAnnotation name) else Ok tt.

(** pep526.py:150-175 [make_field_instance] *)
Definition make_field (name : string) (default : default_arg) (a : annot)
  : res (option decl) :=
  match a with
  | AFieldClass fc optional =>
    let kw := mkKw (Some name) VUndefined default None false
                   (if optional then VDefault else VUndefined) SNone []
                   (fun _ _ => QRet true) VNotPresent in
    match instantiate fc kw with
    | Some x => do d <- construct x; Ok (Some d)
    | None => Raise ETypeErr
    end
  | AStructClass cid => do d <- construct (XNested cid no_args); Ok (Some d)
  | AInstance d => Ok (Some d)
  | AUnion | AOther => Ok None
  end.

(** pep526.py:233-241: the fields among the annotations of one name. *)
Fixpoint make_fields (name : string) (default : default_arg) (anns : list annot)
  : res (list decl) :=
  match anns with
  | [] => Ok []
  | a :: anns' =>
    do d <- make_field name default a;
    do ds <- make_fields name default anns';
    Ok (match d with Some d => d :: ds | None => ds end)
  end.

(** pep526.py:226-280: the loop of [dataclass]; the components, how many were added, and the
    offset after the last one. *)
Fixpoint collect_annotated_fields (defaults : list (string * endian))
    (attr : string -> default_arg) (hs : hints) (comps : list (string * field)) (index : Z)
    (offset : option Z) (found : Z) : res (list (string * field) * Z) :=
  match hs with
  | [] => Ok (comps, found)
  | (name, anns) :: hs' =>
    do _ <- no_unions name anns;
    do ds <- make_fields name (attr name) anns;
    match ds with
    | [] => collect_annotated_fields defaults attr hs' comps index offset found
    | [d] =>
      match assoc comps name with
      | Some _ => Raise (EFieldRedefined name)
      | None =>
        do f <- bind_to_container defaults name index offset d;
        collect_annotated_fields defaults attr hs' (comps ++ [(name, f)])
                                 (index + 1) (next_offset offset f) (found + 1)
      end
    | _ => Raise (EConfig (Some name))
    end
  end.

(** pep526.py:178-283 [dataclass], applied to the class [k] whose type hints (its own and
    those of its bases) are [hs] and whose class attributes are [attr].  [size_bytes] of a
    new class is 0 (structures.py:80). *)
Definition dataclass (k : classdef) (hs : hints) (attr : string -> default_arg)
  : res classdef :=
  if 0 <? k_own k then Raise EMixedDeclarations
  else
    do cs <- collect_annotated_fields (k_defaults k) attr hs (k_comps k) 0 (Some 0) 0;
    if snd cs =? 0 then Raise ENoDefinedFields
    else Ok (mkClass (k_name k) (fst cs) (k_fvals k) (k_svals k) (snd cs) (k_defaults k)).

End Declarations.

(** [typing.get_type_hints]: the hints of the base, updated with those of the class. *)
Fixpoint set_hint (hs : hints) (name : string) (anns : list annot) : hints :=
  match hs with
  | [] => [(name, anns)]
  | (k, v) :: hs' =>
    if String.eqb k name then (k, anns) :: hs' else (k, v) :: set_hint hs' name anns
  end.
Definition type_hints (base own : hints) : hints :=
  fold_left (fun hs na => set_hint hs (fst na) (snd na)) own base.

(** [getattr(struct_class, name, UNDEFINED)] for attributes of the body that are not fields
    (pep526.py:127). *)
Definition body_attr (ns : namespace) (name : string) : default_arg :=
  match assoc ns name with Some (IValue a) => a | _ => DValue VUndefined end.
