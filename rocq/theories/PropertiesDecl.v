(** Property theorems: declarations of fields and struct classes (C37, C38, C48, C49, C53-C56, C60).
    Vocabulary: SpecDecl.v, ArgsProofs.v. *)
From Verif Require Import ArgsProofs Samples DeclWitness DefaultSize.

(** C37: the base's fields, unchanged, followed by those of the body in order; positions
    continue after the base; offsets start at the base's get_size(). *)
Theorem C37_class_creation : forall E n name bases meta ns k,
  create_class E n name bases meta ns = Ok k ->
  exists start own,
    (bases = [] /\ start = Some 0 \/ exists b, bases = [b] /\ get_size E n b = Ok start)
    /\ k_name k = name
    /\ k_comps k = k_comps (base_class E bases) ++ own /\ k_own k = zlen own
    /\ Forall2 (bound_as (k_defaults k)) (body_fields ns) own
    /\ forall pre x f post, own = pre ++ (x, f) :: post ->
         c_index (conf f) = Some (zlen (k_comps (base_class E bases)) + zlen pre)
         /\ offset_rule start pre (c_offset (conf f)).
Proof. exact class_creation. Qed.
Print Assumptions C37_class_creation.

(** Over whole chains: component i of every class has index i and its own attribute name. *)
Theorem C37_numbered : forall native E, declared_rooted native E -> forall cid,
  numbered (cls E cid).
Proof. exact rooted_numbered. Qed.
Print Assumptions C37_numbered.

(** ... and is placed after all earlier fields, those of the ancestors included, provided
    no field without a size has a default. *)
Theorem C37_placed : forall native E, declared_rooted native E ->
  (forall cid, no_unsized_default (cls E cid)) -> forall cid, placed (cls E cid).
Proof. exact rooted_placed. Qed.
Print Assumptions C37_placed.

(** Every class that can be declared, in either style, is well formed: names are unique and
    equal to the attribute names (the hypothesis of the theorems about structs). *)
Theorem C37_well_formed : forall native E, declared_any native E -> forall cid,
  well_formed (cls E cid).
Proof. exact declared_any_wf. Qed.
Print Assumptions C37_well_formed.

Theorem C37_redefined : forall E n name b meta ns off pre x d post,
  names_fit (body_fields ns) -> NoDup (map fst ns) -> get_size E n b = Ok off ->
  body_fields ns = pre ++ (x, d) :: post -> In x (map fst (k_comps (cls E b))) ->
  (forall y, In y (map fst pre) -> ~ In y (map fst (k_comps (cls E b)))) ->
  create_class E n name [b] meta ns = Raise (EFieldRedefined x).
Proof. exact create_redefined. Qed.
Print Assumptions C37_redefined.

Theorem C37_multiple_bases : forall E n name b b' bases meta ns, names_fit (body_fields ns) ->
  create_class E n name (b :: b' :: bases) meta ns = Raise EMultipleInheritance.
Proof. exact create_bases. Qed.
Print Assumptions C37_multiple_bases.

Theorem C37_name_mismatch : forall E n name bases meta ns, ~ names_fit (body_fields ns) ->
  exists nm, create_class E n name bases meta ns = Raise (EConfig (Some nm)).
Proof. exact create_mismatch. Qed.
Print Assumptions C37_name_mismatch.

(** "offset None when an earlier field has no constant size" fails across inheritance: the
    base's size may rest on a default, and get_field then reads the wrong bytes. *)
Theorem C37_offset_refuted :
  (declared ST_E /\ ~ placed (cls ST_E 1))
  /\ let s := mkStream [200; 1; 7] 0 in
     let vals := [("v"%string, VInt 200); ("b"%string, VInt 7)] in
     struct_to_bytes ST_E 9 1 vals VNone = Ok [200; 1; 7]
     /\ struct_from_stream ST_E 9 1 VNone [] s = (mkStream [200; 1; 7] 3, Ok vals)
     /\ get_field ST_E 9 1 "b" VNone s = (s, Ok (VInt 1)).
Proof. exact (conj (conj ST_declared ST_misplaced) ST_reads). Qed.
Print Assumptions C37_offset_refuted.

Example C37_example :
  declared_rooted Little AB_E /\ (forall cid, no_unsized_default (cls AB_E cid))
  /\ map (fun nf => (fst nf, c_index (conf (snd nf)), c_offset (conf (snd nf))))
         (k_comps (cls AB_E 1))
     = [("a"%string, Some 0, Some 0); ("w"%string, Some 1, Some 1);
        ("t"%string, Some 2, Some 3); ("z"%string, Some 3, None)]
  /\ create_class AB_E 5 "C" [1%nat] None [("q"%string, IField uint8); ("w"%string, IField uint8)]
     = Raise (EFieldRedefined "w")
  /\ create_class AB_E 5 "C" [1%nat; 0%nat] None [] = Raise EMultipleInheritance
  /\ create_class AB_E 5 "C" [] None [("q"%string, IField (new [] (XBytes (called "p"))))]
     = Raise (EConfig (Some "p"%string)).
Proof.
  exact (conj (declared_is_rooted Little AB_E AB_declared)
              (conj AB_no_default (conj eq_refl (conj eq_refl (conj eq_refl eq_refl))))).
Qed.

(** C38: the byte order of an integer field. *)
Theorem C38_precedence : forall defaults name i o d f sg e0,
  bind_to_container defaults name i o d = Ok f -> kind (d_field d) = KInt sg e0 ->
  exists e, kind f = KInt sg e /\ byte_order defaults (d_class d) (d_endian_given d) e0 e.
Proof. exact bind_order. Qed.
Print Assumptions C38_precedence.

(** No other kind of field changes, integer components of arrays included. *)
Theorem C38_others_unaffected : forall defaults name i o d f,
  bind_to_container defaults name i o d = Ok f -> (forall sg e, kind (d_field d) <> KInt sg e) ->
  kind f = kind (d_field d).
Proof. exact bind_other. Qed.
Print Assumptions C38_others_unaffected.

Theorem C38_nothing_else : forall defaults name i o d f,
  bind_to_container defaults name i o d = Ok f -> attributes_kept (d_field d) f.
Proof. exact bind_kept. Qed.
Print Assumptions C38_nothing_else.

(** The constructor's own byte order: the argument, or the machine's. *)
Theorem C38_constructor : forall native E n c e sg kw d,
  construct native E n (XInt c e sg kw) = Ok d ->
  (forall z, int_size c = Some z -> c_size (conf (d_field d)) = SInt z)
  /\ kind (d_field d) = KInt (if int_unsigned c then false else match sg with Some s => s | None => true end)
                            (match e with Some (Some o) => o | _ => native end).
Proof. exact int_constructed. Qed.
Print Assumptions C38_constructor.

(** The table is the class's own Meta, else the base's. *)
Theorem C38_table : forall E n name bases meta ns k, create_class E n name bases meta ns = Ok k ->
  k_defaults k = match meta with Some m => m | None => k_defaults (base_class E bases) end.
Proof. exact class_defaults. Qed.
Print Assumptions C38_table.

Example C38_example :
  let orders := fun x defaults =>
    match construct Little [] 5 x with
    | Ok d => match bind_to_container defaults "x" 0 None d with Ok f => Some (kind f) | _ => None end
    | _ => None
    end in
  let both := [("endian"%string, Big); ("UInt16__endian"%string, Little)] in
  orders (XInt UInt16 None None no_args) both = Some (KInt false Little)
  /\ orders (XInt UInt32 None None no_args) both = Some (KInt false Big)
  /\ orders (XInt UInt32 (Some (Some Little)) None no_args) both = Some (KInt false Little)
  /\ orders (XInt UInt32 (Some None) None no_args) both = Some (KInt false Little)
  /\ orders (XInt UInt32 None None no_args) [] = Some (KInt false Little)
  /\ orders (XFloat Float32 None no_args) both = Some (KFloat binary32 Little).
Proof. exact (conj eq_refl (conj eq_refl (conj eq_refl (conj eq_refl (conj eq_refl eq_refl))))). Qed.

(** C48: without struct bases, the annotated class equals the assigned one. *)
Theorem C48_same_as_assignment : forall native E n name meta ns k hs attr ds,
  create_class E n name [] meta ns = Ok k -> body_fields ns = [] ->
  annotated native E n attr hs ds -> ds <> [] -> names_fit ds -> NoDup (map fst ds) ->
  exists k1 k2, create_class E n name [] meta (assigned ds) = Ok k1
    /\ dataclass native E n k hs attr = Ok k2
    /\ k_comps k2 = k_comps k1 /\ k_own k2 = k_own k1 /\ k_defaults k2 = k_defaults k1
    /\ k_name k2 = k_name k1.
Proof. exact dataclass_same. Qed.
Print Assumptions C48_same_as_assignment.

(** With any base, the annotated fields are numbered and placed from 0. *)
Theorem C48_restarts_at_zero : forall native E n k hs attr k',
  dataclass native E n k hs attr = Ok k' ->
  exists ds own, annotated native E n attr hs ds /\ k_comps k' = k_comps k ++ own /\ own <> []
    /\ k_own k' = zlen own /\ Forall2 (bound_as (k_defaults k)) ds own
    /\ forall pre x f post, own = pre ++ (x, f) :: post ->
         c_index (conf f) = Some (zlen pre) /\ offset_rule (Some 0) pre (c_offset (conf f)).
Proof. exact annotated_creation. Qed.
Print Assumptions C48_restarts_at_zero.

(** Hence C37 fails for them, and get_field reads the parent's bytes. *)
Theorem C48_inheritance_refuted :
  (declared_any Little PQ_E /\ ~ numbered (cls PQ_E 1) /\ ~ placed (cls PQ_E 1))
  /\ let s := mkStream [1; 2] 0 in
     struct_from_stream PQ_E 9 1 VNone [] s
       = (mkStream [1; 2] 2, Ok [("a"%string, VInt 1); ("b"%string, VInt 2)])
     /\ get_field PQ_E 9 1 "b" VNone s = (s, Ok (VInt 1)).
Proof. exact (conj (conj PQ_declared PQ_misnumbered) PQ_reads). Qed.
Print Assumptions C48_inheritance_refuted.

(** Decorating a subclass of a decorated class: [base] are the hints of the parent, which
    declare at least one field. *)
Theorem C48_subclass_of_dataclass : forall native E n k attr base own x d ds, k_own k = 0 ->
  annotated native E n attr base ((x, d) :: ds) -> In x (map fst (k_comps k)) ->
  (forall y, In y (map fst own) -> ~ In y (map fst base)) ->
  dataclass native E n k (type_hints base own) attr = Raise (EFieldRedefined x).
Proof. exact dataclass_of_dataclass. Qed.
Print Assumptions C48_subclass_of_dataclass.

(** The annotations of a subclass: those of the base in their places, replaced where the subclass
    annotates the name again, then the new ones. *)
Theorem C48_hint_order : forall own base, NoDup (map fst own) ->
  map fst (type_hints base own)
  = (map fst base ++ filter (fun x => negb (existsb (String.eqb x) (map fst base))) (map fst own))%list.
Proof. exact type_hints_names. Qed.
Print Assumptions C48_hint_order.

Theorem C48_hint_replaced : forall own base x, NoDup (map fst own) ->
  assoc (type_hints base own) x = match assoc own x with Some a => Some a | None => assoc base x end.
Proof. exact type_hints_assoc. Qed.
Print Assumptions C48_hint_replaced.

Example C48_hints_example :
  type_hints [("a", [AOther]); ("b", [AUnion])]%string [("c", []); ("a", [AUnion])]%string
  = [("a", [AUnion]); ("b", [AUnion]); ("c", [])]%string.
Proof. reflexivity. Qed.

Theorem C48_mixed : forall native E n k hs attr, 0 < k_own k ->
  dataclass native E n k hs attr = Raise EMixedDeclarations.
Proof. exact dataclass_mixed. Qed.
Print Assumptions C48_mixed.

Theorem C48_no_fields : forall native E n k hs attr, k_own k = 0 ->
  annotated native E n attr hs [] -> dataclass native E n k hs attr = Raise ENoDefinedFields.
Proof. exact dataclass_none. Qed.
Print Assumptions C48_no_fields.

(** Names with annotations that cannot be used, after annotations that can. *)
Theorem C48_two_fields : forall native E n k attr pre ds name anns post, k_own k = 0 ->
  annotated native E n attr pre ds -> names_fit ds -> NoDup (map fst ds) ->
  (forall x, In x (map fst ds) -> ~ In x (map fst (k_comps k))) ->
  ~ In AUnion anns -> (forall a, In a anns -> exists d, make_field native E n name (attr name) a = Ok d) ->
  (2 <= length (filter is_field_annotation anns))%nat ->
  dataclass native E n k (pre ++ (name, anns) :: post) attr = Raise (EConfig (Some name)).
Proof. exact dataclass_two_fields. Qed.
Print Assumptions C48_two_fields.

Theorem C48_union : forall native E n k attr pre ds name anns post, k_own k = 0 ->
  annotated native E n attr pre ds -> names_fit ds -> NoDup (map fst ds) ->
  (forall x, In x (map fst ds) -> ~ In x (map fst (k_comps k))) -> In AUnion anns ->
  dataclass native E n k (pre ++ (name, anns) :: post) attr = Raise (EInvalidTypeAnnotation name).
Proof. exact dataclass_union. Qed.
Print Assumptions C48_union.

(** Names without an annotation that stands for a field might as well not be there. *)
Theorem C48_ignored : forall native E n k attr pre name anns post, Forall (eq AOther) anns ->
  dataclass native E n k (pre ++ (name, anns) :: post) attr = dataclass native E n k (pre ++ post) attr.
Proof. exact dataclass_ignored. Qed.
Print Assumptions C48_ignored.

Example C48_example :
  annotated Little [] 5 none_given M_hints [("a"%string, uint8); ("x"%string, limited_u8)]
  /\ k_comps (cls annotated_E 0) = k_comps (cls assigned_E 0)
  /\ map (fun nf => (fst nf, c_index (conf (snd nf)), c_offset (conf (snd nf))))
         (k_comps (cls annotated_E 0))
     = [("a"%string, Some 0, Some 0); ("x"%string, Some 1, Some 1)]
  /\ match create_class annotated_E 5 "N" [0%nat] None [] with
     | Ok k => dataclass Little annotated_E 5 k (type_hints M_hints [hint_u8 "y"]) none_given
     | r => r
     end = Raise (EFieldRedefined "a")
  /\ (let k := mkClass "K" [] [] [] 0 [] in
      dataclass Little [] 5 k (M_hints ++ [("y"%string, [AFieldClass FUuid false; AInstance uint8])]) none_given
      = Raise (EConfig (Some "y"%string))
      /\ dataclass Little [] 5 k (M_hints ++ [("y"%string, [AUnion])]) none_given
      = Raise (EInvalidTypeAnnotation "y")).
Proof. exact (conj M_annotated (conj eq_refl (conj eq_refl (conj eq_refl (conj eq_refl eq_refl))))). Qed.

(** C49: the size is the number of bytes the constant occupies, and its dump is those
    bytes. *)
Theorem C49_size_from_const : forall native E n x k kw d, measuring x k kw ->
  construct native E n x = Ok d -> a_size kw = SNone -> a_const kw <> VUndefined ->
  exists z, c_size (conf (d_field d)) = SInt z
    /\ forall bs, const_form k (a_const kw) bs -> zlen bs = z
       /\ forall m ctx dct, accepts (conf (d_field d)) (a_const kw) ->
            field_to_stream E m (d_field d) (a_const kw) ctx dct = (bs, Ok tt).
Proof. exact const_size. Qed.
Print Assumptions C49_size_from_const.

Theorem C49_unencodable : forall native E n x k kw e, measuring x k kw -> a_size kw = SNone ->
  a_factory kw = None ->
  match k, a_const kw with
  | KString cd _, VStr t => encode cd t = Raise e
  | KStringZ cd _, VStr t => encode cd (t ++ [0]) = Raise e
  | KVli fmt _, VInt z => vli_encode fmt z = Raise e
  | _, _ => False
  end -> construct native E n x = Raise e.
Proof. exact const_unencodable. Qed.
Print Assumptions C49_unencodable.

(** The other classes cannot be given a constant without a size: the constructor reads
    [self.size] before it exists. *)
Theorem C49_other_classes : forall native E n x kw d, not_measuring x kw ->
  a_size kw = SNone -> a_const kw <> VUndefined -> construct native E n x <> Ok d.
Proof. exact const_unmeasured. Qed.
Print Assumptions C49_other_classes.

Theorem C49_attribute_error : forall native E n kw cid comp cnt halt d,
  a_size kw = SNone -> a_const kw <> VUndefined -> a_factory kw = None ->
  construct native E n comp = Ok d ->
  construct native E n (XNested cid kw) = Raise EAttrErr
  /\ construct native E n (XArray comp cnt halt kw) = Raise EAttrErr.
Proof. exact const_attribute_error. Qed.
Print Assumptions C49_attribute_error.

Example C49_example :
  let size := fun x => match construct Little [] 5 x with
                       | Ok d => Ok (c_size (conf (d_field d)))
                       | Raise e => Raise e
                       | OOF => OOF
                       end in
  size (XBytes (constant (VBytes [1; 2; 3]))) = Ok (SInt 3)
  /\ size (XString (Utf16 Big) None (constant (VStr [97]))) = Ok (SInt 2)
  /\ size (XStringZ Utf8 None (constant (VStr [233]))) = Ok (SInt 3)
  /\ size (XVli ULEB128 None (constant (VInt 300))) = Ok (SInt 2)
  /\ size (XVli ULEB128 None (constant (VInt (-1)))) = Raise EValueErr
  /\ size (XArray (XInt UInt8 None None no_args) CntNone None (constant (VList []))) = Raise EAttrErr.
Proof. exact (conj eq_refl (conj eq_refl (conj eq_refl (conj eq_refl (conj eq_refl eq_refl))))). Qed.

(** C53: the validator tables of a class. *)
Theorem C53_tables : forall E n name bases meta ns k, create_class E n name bases meta ns = Ok k ->
  (forall x, In x (map fst (body_fields ns)) -> assoc (k_fvals k) x = Some (methods_for ns x))
  /\ (forall x, ~ In x (map fst (body_fields ns)) ->
        assoc (k_fvals k) x
        = option_map (fun l => l ++ methods_for ns x) (assoc (k_fvals (base_class E bases)) x))
  /\ k_svals k = k_svals (base_class E bases) ++ struct_methods ns.
Proof. exact validator_tables. Qed.
Print Assumptions C53_tables.

(** Declared by assignment only: every field has an entry and every entry is a field. *)
Theorem C53_complete : forall E, declared E -> forall cid name,
  In name (map fst (k_fvals (cls E cid))) <-> In name (map fst (k_comps (cls E cid))).
Proof. exact (fun E H cid => proj2 (proj2 (declared_ok E H cid))). Qed.
Print Assumptions C53_complete.

Theorem C53_unknown_field : forall E n name bases meta ns cs off meth names q x,
  names_fit (body_fields ns) ->
  (bases = [] /\ off = Some 0 \/ exists b, bases = [b] /\ get_size E n b = Ok off) ->
  collect_assigned_fields (match meta with Some m => m | None => k_defaults (base_class E bases) end) ns
     (k_comps (base_class E bases)) (zlen (k_comps (base_class E bases))) off 0 = Ok cs ->
  In (meth, IValidates names q) ns -> In x names -> ~ In x (map fst (body_fields ns)) ->
  ~ In x (map fst (k_fvals (base_class E bases))) ->
  exists y, create_class E n name bases meta ns = Raise (EKeyErr y).
Proof. exact create_unknown_validator. Qed.
Print Assumptions C53_unknown_field.

Example C53_example :
  declared AB_E
  /\ map (fun t => (fst t, length (snd t))) (k_fvals (cls AB_E 0)) = [("a"%string, 1%nat); ("w"%string, 0%nat)]
  /\ map (fun t => (fst t, length (snd t))) (k_fvals (cls AB_E 1))
     = [("a"%string, 1%nat); ("w"%string, 1%nat); ("t"%string, 0%nat); ("z"%string, 1%nat)]
  /\ length (k_svals (cls AB_E 1)) = 1%nat
  /\ validate_contents AB_E 9 1 [("a"%string, VInt 1); ("w"%string, VInt 10)]
     = Raise (EValidation (Some "a"%string))
  /\ create_class AB_E 5 "C" [1%nat] None [("m"%string, IValidates ["nope"%string] below_10)]
     = Raise (EKeyErr "nope").
Proof.
  exact (conj AB_declared (conj eq_refl (conj eq_refl (conj eq_refl (conj eq_refl eq_refl))))).
Qed.

(** C54: annotated fields have no entry, ... *)
Theorem C54_no_entry : forall native E n name bases meta ns k hs attr k',
  create_class E n name bases meta ns = Ok k -> body_fields ns = [] ->
  dataclass native E n k hs attr = Ok k' -> well_formed (base_class E bases) ->
  exists own, k_comps k' = k_comps (base_class E bases) ++ own /\ own <> []
    /\ (forall x, In x (map fst own) -> assoc (k_fvals k') x = None).
Proof. exact dataclass_no_validators. Qed.
Print Assumptions C54_no_entry.

(** ... so that a validator method for one cannot even be declared, ... *)
Theorem C54_method_raises : forall E n name bases meta ns off meth names q x,
  body_fields ns = [] ->
  (bases = [] /\ off = Some 0 \/ exists b, bases = [b] /\ get_size E n b = Ok off) ->
  In (meth, IValidates names q) ns -> In x names ->
  ~ In x (map fst (k_fvals (base_class E bases))) ->
  exists y, create_class E n name bases meta ns = Raise (EKeyErr y).
Proof. exact annotated_method. Qed.
Print Assumptions C54_method_raises.

(** ... and validate_contents() ignores its [validate=] argument: the same two fields,
    assigned and annotated. *)
Theorem C54_validation_refuted :
  k_comps (cls annotated_E 0) = k_comps (cls assigned_E 0)
  /\ let vals := [("a"%string, VInt 1); ("x"%string, VInt 20)] in
     let e := EValidation (Some "x"%string) in
     validate_contents assigned_E 9 0 vals = Raise e
     /\ struct_to_stream assigned_E 9 0 vals VNone = ([], Raise e)
     /\ validate_contents annotated_E 9 0 vals = Ok tt
     /\ struct_to_stream annotated_E 9 0 vals VNone = ([1], Raise e).
Proof. exact (conj eq_refl M_validation). Qed.
Print Assumptions C54_validation_refuted.

Example C54_example :
  create_class [] 5 "M" [] None [("check"%string, IValidates ["a"%string] below_10)] = Raise (EKeyErr "a")
  /\ create_class [] 5 "M" [] None [] = Ok M_plain
  /\ dataclass Little [] 5 M_plain M_hints none_given = Ok M_class
  /\ well_formed (base_class [] []).
Proof. exact (conj eq_refl (conj eq_refl (conj eq_refl well_formed_empty))). Qed.

(** C55: sizes of constructed fields.  Integers: C38_constructor. *)
Theorem C55_float : forall native E n c e kw d, construct native E n (XFloat c e kw) = Ok d ->
  c_size (conf (d_field d)) = SInt (ff_bytes (float_format c))
  /\ kind (d_field d) = KFloat (float_format c) (match e with Some (Some o) => o | _ => native end).
Proof. exact float_constructed. Qed.
Print Assumptions C55_float.

Theorem C55_uuid : forall native E n fmt kw d, construct native E n (XUuid fmt kw) = Ok d ->
  c_size (conf (d_field d)) = SInt (uuid_size fmt) /\ kind (d_field d) = KUuid fmt.
Proof. exact uuid_constructed. Qed.
Print Assumptions C55_uuid.

Theorem C55_timestamp : forall native E n c r tz e sg kw d,
  construct native E n (XTime c r tz e sg kw) = Ok d ->
  match time_size c with
  | Some z => c_size (conf (d_field d)) = SInt z
  | None => c_size (conf (d_field d)) <> SNone
  end
  /\ kind (d_field d) = KTime r tz sg (match e with Some (Some o) => o | _ => native end).
Proof. exact time_constructed. Qed.
Print Assumptions C55_timestamp.

Theorem C55_nested : forall native E n cid kw d, construct native E n (XNested cid kw) = Ok d ->
  exists sz, get_size E n cid = Ok sz
    /\ c_size (conf (d_field d)) = match sz with Some z => SInt z | None => SNone end
    /\ kind (d_field d) = KNested cid.
Proof. exact nested_constructed. Qed.
Print Assumptions C55_nested.

Theorem C55_array : forall native E n comp cnt halt kw d,
  construct native E n (XArray comp cnt halt kw) = Ok d ->
  exists dc comp', construct native E n comp = Ok dc /\ kind (d_field d) = KArray comp' cnt halt
    /\ attributes_kept (d_field dc) comp' /\ kind comp' = kind (d_field dc)
    /\ c_name (conf comp') = c_name (conf (d_field d))
    /\ (forall m z, cnt = CntInt m -> c_size (conf (d_field dc)) = SInt z ->
          c_size (conf (d_field d)) = SInt (m * z))
    /\ ((forall m z, cnt = CntInt m -> c_size (conf (d_field dc)) <> SInt z) ->
         c_size (conf (d_field d)) = a_size kw).
Proof. exact array_constructed. Qed.
Print Assumptions C55_array.

(** The sizes in numbers; a size argument is not accepted. *)
Theorem C55_integer : forall native E n c e sg kw d z,
  construct native E n (XInt c e sg kw) = Ok d -> int_bytes c z ->
  c_size (conf (d_field d)) = SInt z /\ a_size kw = SNone.
Proof. exact integer_sizes. Qed.
Print Assumptions C55_integer.

Theorem C55_table : forall native E n x d, construct native E n x = Ok d ->
  match x with
  | XFloat Float16 _ _ => c_size (conf (d_field d)) = SInt 2
  | XFloat Float32 _ _ => c_size (conf (d_field d)) = SInt 4
  | XFloat Float64 _ _ => c_size (conf (d_field d)) = SInt 8
  | XTime Timestamp32 _ _ _ _ _ => c_size (conf (d_field d)) = SInt 4
  | XTime Timestamp64 _ _ _ _ _ => c_size (conf (d_field d)) = SInt 8
  | XUuid BINARY_VARIANT_1 _ | XUuid BINARY_VARIANT_2 _ => c_size (conf (d_field d)) = SInt 16
  | XUuid CANONICAL_STRING _ => c_size (conf (d_field d)) = SInt 36
  | XUuid HEX_STRING _ => c_size (conf (d_field d)) = SInt 32
  | _ => True
  end.
Proof. exact size_table. Qed.
Print Assumptions C55_table.

(** A component with a name of its own is rejected unless the array has the same name. *)
Theorem C55_named_component : forall native E n comp cnt halt kw dc nm,
  construct native E n comp = Ok dc -> c_name (conf (d_field dc)) = Some nm ->
  a_name kw <> Some nm -> forall d, construct native E n (XArray comp cnt halt kw) <> Ok d.
Proof. exact array_named_component. Qed.
Print Assumptions C55_named_component.

Example C55_example :
  let size := fun x => match construct Little AB_E 5 x with
                       | Ok d => Ok (c_size (conf (d_field d)))
                       | Raise e => Raise e
                       | OOF => OOF
                       end in
  size (XFloat Float32 None no_args) = Ok (SInt 4)
  /\ size (XUuid CANONICAL_STRING no_args) = Ok (SInt 36)
  /\ size (XTime Timestamp64 ResS true None true no_args) = Ok (SInt 8)
  /\ size (XNested 0 no_args) = Ok (SInt 3) /\ size (XNested 1 no_args) = Ok SNone
  /\ size (XArray (XNested 0 no_args) (CntInt 5) None no_args) = Ok (SInt 15)
  /\ size (XArray (XInt UInt8 None None (called "c")) (CntInt 5) None no_args)
     = Raise (EConfig (Some "c"%string)).
Proof.
  exact (conj eq_refl (conj eq_refl (conj eq_refl (conj eq_refl (conj eq_refl (conj eq_refl eq_refl)))))).
Qed.

(** C56: loading, a default is a size. *)
Theorem C56_default_is_size : forall E n c k v z ctx d s,
  match k with KBytes | KString _ _ | KStringZ _ _ => True | _ => False end ->
  c_size c = SNone -> c_factory c = None -> c_default c = v -> v <> VUndefined -> v <> VNone ->
  size_for_value c k v = Ok (Some z) ->
  c_null c = VUndefined \/ c_null c = VDefault \/ (exists bs, c_null c = VBytes bs) ->
  oget d (c_name c) = None ->
  field_from_stream E n (Field c k) ctx d s
  = field_from_stream E n (Field (set_size (SInt z) c) k) ctx d s.
Proof. exact default_is_size. Qed.
Print Assumptions C56_default_is_size.

(** A struct that dumps and then loads back as different data, without an error. *)
Theorem C56_roundtrip_refuted :
  let vals := [("data"%string, VBytes [1; 2; 3]); ("y"%string, VInt 9)] in
  struct_to_bytes bytes_default_E 9 0 vals VNone = Ok [1; 2; 3; 9]
  /\ struct_from_bytes bytes_default_E 9 0 [1; 2; 3; 9] VNone true []
     = Ok [("data"%string, VBytes [1; 2]); ("y"%string, VInt 3)].
Proof. exact bytes_default_witness. Qed.
Print Assumptions C56_roundtrip_refuted.

Example C56_example :
  let c := with_default (VStr [233]) (basic "s" SNone) in
  size_for_value c (KStringZ Utf8 None) (VStr [233]) = Ok (Some 3)
  /\ oget [("t"%string, VInt 1)] (c_name c) = None
  /\ fst (field_from_stream [] 5 (Field c (KStringZ Utf8 None)) VNone [] (mkStream [97; 98; 99; 0] 0))
     = mkStream [97; 98; 99; 0] 3.
Proof. exact (conj eq_refl (conj eq_refl eq_refl)). Qed.

(** C60: the attributes of a new field are the arguments; [const] is the default unless
    [default=] is given; a callable [default] is a factory. *)
Theorem C60_attributes : forall native E n x d, construct native E n x = Ok d ->
  attributes_of (arguments x) (conf (d_field d)).
Proof. exact constructed_attributes. Qed.
Print Assumptions C60_attributes.

(** Arguments left out: required, not nullable, always present, absent only as NOT_PRESENT. *)
Theorem C60_omitted : forall native E n x d, construct native E n x = Ok d -> arguments x = no_args ->
  let c := conf (d_field d) in
  c_name c = None /\ c_const c = VUndefined /\ c_default c = VUndefined /\ c_factory c = None
  /\ c_discard c = false /\ c_null c = VUndefined /\ c_validators c = []
  /\ (forall ctx s, c_present c ctx s = QRet true) /\ c_npv c = VNotPresent /\ c_compute c = None.
Proof. exact omitted_arguments. Qed.
Print Assumptions C60_omitted.

Theorem C60_default_and_factory : forall native E n x,
  a_factory (arguments x) <> None -> a_default (arguments x) <> DValue VUndefined ->
  (forall d, construct native E n x <> Ok d)
  /\ forall k, measuring x k (arguments x) ->
       construct native E n x = Raise (EConfig (a_name (arguments x))).
Proof. exact both_given. Qed.
Print Assumptions C60_default_and_factory.

Theorem C60_signedness : forall native E n c e sg kw d, construct native E n (XInt c e sg kw) = Ok d ->
  (always_unsigned c -> sg = None /\ exists o, kind (d_field d) = KInt false o)
  /\ (~ always_unsigned c ->
      exists o, kind (d_field d) = KInt (match sg with Some s => s | None => true end) o).
Proof. exact unsigned_kinds. Qed.
Print Assumptions C60_signedness.

(** [@field.computes] sets the function and nothing else, once, never on a const field. *)
Theorem C60_computes : forall q d d', computes q d = Ok d' ->
  c_compute (conf (d_field d)) = None /\ c_const (conf (d_field d)) = VUndefined
  /\ d_class d' = d_class d /\ d_endian_given d' = d_endian_given d
  /\ d_field d' = Field (match conf (d_field d) with
       | mkConf nm cst df fc di nu si va pr np _ ix off => mkConf nm cst df fc di nu si va pr np (Some q) ix off
       end) (kind (d_field d)).
Proof. exact computes_ok. Qed.
Print Assumptions C60_computes.

Theorem C60_computes_refused : forall q d,
  (c_compute (conf (d_field d)) = None /\ c_const (conf (d_field d)) = VUndefined ->
     exists d', computes q d = Ok d')
  /\ (c_compute (conf (d_field d)) <> None \/ c_const (conf (d_field d)) <> VUndefined ->
      computes q d = Raise (EConfig (c_name (conf (d_field d))))).
Proof. exact computes_cases. Qed.
Print Assumptions C60_computes_refused.

Example C60_example :
  let view := fun x => match construct Little [] 5 x with
                       | Ok d => Ok (c_const (conf (d_field d)), c_default (conf (d_field d)),
                                     c_factory (conf (d_field d)))
                       | Raise e => Raise e
                       | OOF => OOF
                       end in
  let given := fun const dflt fac =>
    XBytes (mkKw None const dflt fac false VUndefined SNone [] (fun _ _ => QRet true) VNotPresent) in
  view (given (VBytes [1]) (DValue VUndefined) None) = Ok (VBytes [1], VBytes [1], None)
  /\ view (given (VBytes [1]) (DValue (VBytes [2])) None) = Ok (VBytes [1], VBytes [2], None)
  /\ view (given VUndefined (DCall (inl (VBytes [3]))) None) = Ok (VUndefined, VUndefined, Some (inl (VBytes [3])))
  /\ view (given VUndefined (DValue VNone) None) = Ok (VUndefined, VNone, None)
  /\ view (given VUndefined (DValue VNone) (Some (inl (VBytes [4])))) = Raise (EConfig None).
Proof. exact (conj eq_refl (conj eq_refl (conj eq_refl (conj eq_refl eq_refl)))). Qed.
