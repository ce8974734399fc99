(** Specification vocabulary for class declarations. *)
From Verif Require Export Decl SpecField SpecAccess.

(** Where a field goes, if the fields before it start at [start]: after them when all have
    a constant size and the start is known, otherwise unknown. *)
Definition offset_rule (start : option Z) (before : list (string * field)) (o : option Z)
  : Prop :=
  (exists s sizes, start = Some s /\ fixed_sizes before sizes /\ o = Some (s + sum sizes))
  \/ ((start = None \/ ~ exists sizes, fixed_sizes before sizes) /\ o = None).

(** The components carry their attribute name and their position. *)
Definition numbered (k : classdef) : Prop :=
  forall pre name f post, k_comps k = pre ++ (name, f) :: post ->
    c_name (conf f) = Some name /\ c_index (conf f) = Some (zlen pre).

(** Every component is placed after all earlier ones. *)
Definition placed (k : classdef) : Prop :=
  forall pre name f post, k_comps k = pre ++ (name, f) :: post ->
    offset_rule (Some 0) pre (c_offset (conf f)).

(** No field without a size has a default value. *)
Definition no_unsized_default (k : classdef) : Prop :=
  forall name f, In (name, f) (k_comps k) -> c_size (conf f) = SNone ->
    c_default (conf f) = VUndefined /\ c_factory (conf f) = None.

(** Everything but name, position, offset and byte order is as constructed. *)
Definition attributes_kept (d f : field) : Prop :=
  match conf d, conf f with
  | mkConf _ const dflt fac disc nul size vals pres npv comp _ _,
    mkConf _ const' dflt' fac' disc' nul' size' vals' pres' npv' comp' _ _ =>
    const = const' /\ dflt = dflt' /\ fac = fac' /\ disc = disc' /\ nul = nul' /\ size = size'
    /\ vals = vals' /\ pres = pres' /\ npv = npv' /\ comp = comp'
  end
  /\ match kind d, kind f with
     | KInt sg _, KInt sg' _ => sg = sg'
     | kd, kf => kd = kf
     end.

(** The byte order a bound integer field ends up with ([e0]: as constructed). *)
Inductive byte_order (defaults : list (string * endian)) (class : string) (given : bool)
    (e0 : endian) : endian -> Prop :=
| order_explicit : given = true -> byte_order defaults class given e0 e0
| order_class : forall e, given = false ->
    assoc defaults (class ++ "__endian") = Some e -> byte_order defaults class given e0 e
| order_generic : forall e, given = false -> assoc defaults (class ++ "__endian") = None ->
    assoc defaults "endian" = Some e -> byte_order defaults class given e0 e
| order_constructor : given = false -> assoc defaults (class ++ "__endian") = None ->
    assoc defaults "endian" = None -> byte_order defaults class given e0 e0.

(** The fields of a class body, in order. *)
Fixpoint body_fields (ns : namespace) : list (string * decl) :=
  match ns with
  | [] => []
  | (name, IField d) :: ns' => (name, d) :: body_fields ns'
  | _ :: ns' => body_fields ns'
  end.

(** No field of the body was constructed with a name other than its attribute name. *)
Definition names_fit (ds : list (string * decl)) : Prop :=
  forall name d, In (name, d) ds ->
    c_name (conf (d_field d)) = None \/ c_name (conf (d_field d)) = Some name.

(** [f] is [d] bound as field [name]. *)
Definition bound_as (defaults : list (string * endian)) (nd : string * decl)
    (nf : string * field) : Prop :=
  fst nf = fst nd /\ c_name (conf (snd nf)) = Some (fst nd)
  /\ attributes_kept (d_field (snd nd)) (snd nf)
  /\ forall sg e0 sg' e, kind (d_field (snd nd)) = KInt sg e0 -> kind (snd nf) = KInt sg' e ->
       byte_order defaults (d_class (snd nd)) (d_endian_given (snd nd)) e0 e.

(** The methods of a class body that validate the field [name], in order. *)
Fixpoint methods_for (ns : namespace) (name : string) : list (value -> query unit) :=
  match ns with
  | [] => []
  | (_, IValidates names q) :: ns' =>
    repeat q (count_occ string_dec names name) ++ methods_for ns' name
  | _ :: ns' => methods_for ns' name
  end.
Fixpoint struct_methods (ns : namespace) : list (query unit) :=
  match ns with
  | [] => []
  | (_, IValidatesStruct q) :: ns' => q :: struct_methods ns'
  | _ :: ns' => struct_methods ns'
  end.

(** Classes declared one after the other, by assignment. *)
Inductive declared : env -> Prop :=
| declared_none : declared []
| declared_class : forall E n name bases meta ns k, declared E ->
    create_class E n name bases meta ns = Ok k -> declared (E ++ [k]).

(** The base of a class: no class, or one. *)
Definition base_class (E : env) (bases : list nat) : classdef :=
  match bases with [b] => cls E b | _ => empty_class end.

(** The bytes a value of one of the classes that compute a size is dumped as. *)
Inductive const_form : fkind -> value -> list Z -> Prop :=
| form_bytes : forall bs, const_form KBytes (VBytes bs) bs
| form_string : forall cd pad t bs, encode cd t = Ok bs -> const_form (KString cd pad) (VStr t) bs
| form_stringz : forall cd pad t bs, encode cd (t ++ [0]) = Ok bs ->
    const_form (KStringZ cd pad) (VStr t) bs
| form_vli : forall fmt mx z bs, vli_encode fmt z = Ok bs ->
    (forall m, mx = Some m -> zlen bs <= m) -> const_form (KVli fmt mx) (VInt z) bs.

(** Constructor calls of those classes, with the class and the keyword arguments. *)
Inductive measuring : fexpr -> fkind -> kwargs -> Prop :=
| measuring_bytes : forall kw, measuring (XBytes kw) KBytes kw
| measuring_string : forall cd pad kw, measuring (XString cd pad kw) (KString cd pad) kw
| measuring_stringz : forall cd pad kw, measuring (XStringZ cd pad kw) (KStringZ cd pad) kw
| measuring_vli : forall fmt mx kw, measuring (XVli fmt mx kw) (KVli fmt mx) kw.

(** Constructor calls of the classes that neither have a size nor compute one. *)
Inductive not_measuring : fexpr -> kwargs -> Prop :=
| not_measuring_int : forall c e sg kw, int_size c = None -> int_unsigned c = false ->
    not_measuring (XInt c e sg kw) kw
| not_measuring_array : forall comp cnt halt kw, not_measuring (XArray comp cnt halt kw) kw
| not_measuring_nested : forall cid kw, not_measuring (XNested cid kw) kw
| not_measuring_union : forall cs ld dd kw, not_measuring (XUnion cs ld dd kw) kw.

(** The fields that annotations declare, in order. *)
Inductive annotated (native : endian) (E : env) (n : nat) (attr : string -> default_arg)
  : hints -> list (string * decl) -> Prop :=
| annotated_nil : annotated native E n attr [] []
| annotated_skip : forall name anns hs ds, ~ In AUnion anns ->
    make_fields native E n name (attr name) anns = Ok [] ->
    annotated native E n attr hs ds -> annotated native E n attr ((name, anns) :: hs) ds
| annotated_field : forall name anns hs d ds, ~ In AUnion anns ->
    make_fields native E n name (attr name) anns = Ok [d] ->
    annotated native E n attr hs ds ->
    annotated native E n attr ((name, anns) :: hs) ((name, d) :: ds).

(** The class body that assigns the fields instead. *)
Definition assigned (ds : list (string * decl)) : namespace :=
  map (fun nd => (fst nd, IField (snd nd))) ds.

(** Classes declared one after the other, by assignment or by annotations. *)
Inductive declared_any (native : endian) : env -> Prop :=
| any_none : declared_any native []
| any_assigned : forall E n name bases meta ns k, declared_any native E ->
    create_class E n name bases meta ns = Ok k -> declared_any native (E ++ [k])
| any_annotated : forall E n name bases meta ns k hs attr k', declared_any native E ->
    create_class E n name bases meta ns = Ok k -> dataclass native E n k hs attr = Ok k' ->
    declared_any native (E ++ [k']).

(** The same, where annotated classes have no struct base. *)
Inductive declared_rooted (native : endian) : env -> Prop :=
| rooted_none : declared_rooted native []
| rooted_assigned : forall E n name bases meta ns k, declared_rooted native E ->
    create_class E n name bases meta ns = Ok k -> declared_rooted native (E ++ [k])
| rooted_annotated : forall E n name meta ns k hs attr k', declared_rooted native E ->
    create_class E n name [] meta ns = Ok k -> dataclass native E n k hs attr = Ok k' ->
    declared_rooted native (E ++ [k']).

(** Annotations that stand for a field. *)
Definition is_field_annotation (a : annot) : bool :=
  match a with AFieldClass _ _ | AStructClass _ | AInstance _ => true | AUnion | AOther => false end.
