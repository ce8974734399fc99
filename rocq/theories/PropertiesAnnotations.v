(** C92: annotations as written, and the decorators for validators. *)
From Coq Require Import String List.
From Verif Require Import Annotations AnnotationProofs SpecDecl ArgsProofs DeclWitness Samples.
Open Scope string_scope.
Open Scope list_scope.
Open Scope Z_scope.

(** Each piece of an annotation stands for a field class, possibly nullable, ... *)
Theorem C92_field_class h fc b : In (AFieldClass fc b) (annots_of h) <-> exists p, piece h p /\ stands_for p (HField fc) b.
Proof. exact (annots_field h fc b). Qed.
Print Assumptions C92_field_class.

(** ... a struct class, ... *)
Theorem C92_struct_class h cid : In (AStructClass cid) (annots_of h) <-> exists p b, piece h p /\ stands_for p (HStruct cid) b.
Proof. exact (annots_struct h cid). Qed.
Print Assumptions C92_struct_class.

(** ... a field, ... *)
Theorem C92_instance h d : In (AInstance d) (annots_of h) <-> exists p b, piece h p /\ stands_for p (HInstance d) b.
Proof. exact (annots_instance h d). Qed.
Print Assumptions C92_instance.

(** ... or is a union of something else than one type and None, which [dataclass] rejects, ... *)
Theorem C92_union h : In AUnion (annots_of h) <-> exists args, piece h (HUnion args) /\ forall c b, ~ apart_from_none args c b.
Proof. exact (annots_union h). Qed.
Print Assumptions C92_union.

(** ... or stands for nothing. *)
Theorem C92_nothing h : Forall (eq AOther) (annots_of h) <->
  forall p, piece h p -> exists core b, stands_for p core b
    /\ (forall fc, core <> HField fc) /\ (forall cid, core <> HStruct cid) /\ (forall d, core <> HInstance d).
Proof. exact (annots_other h). Qed.
Print Assumptions C92_nothing.

(** An annotation that mentions a field class may stand for nothing, or lose its None: [UInt8 | None],
    [Optional[Annotated[int, UInt8]]], [Annotated[Optional[int], UInt8]]. *)
Theorem C92_optional_refuted : forall native E n k attr pre name post fc,
  dataclass native E n k (pre ++ (name, annots_of (HPipe [HField fc; HNone])) :: post) attr
  = dataclass native E n k (pre ++ post) attr
  /\ dataclass native E n k (pre ++ (name, annots_of (HUnion [HAnnotated HOther [HField fc]; HNone])) :: post) attr
  = dataclass native E n k (pre ++ post) attr
  /\ annots_of (HAnnotated (HUnion [HOther; HNone]) [HField fc]) = annots_of (HField fc).
Proof. exact silently_ignored. Qed.
Print Assumptions C92_optional_refuted.

Example C92_annotation_example :
  annots_of (HField (FInt UInt8)) = [AFieldClass (FInt UInt8) false]
  /\ annots_of (HUnion [HField (FInt UInt8); HNone]) = [AFieldClass (FInt UInt8) true]
  /\ annots_of (HAnnotated HOther [HUnion [HNone; HField FStringZ]; HOther]) = [AFieldClass FStringZ true; AOther]
  /\ annots_of (HUnion [HField FUuid; HField FStringZ]) = [AUnion]
  /\ apart_from_none [HNone; HField FStringZ] (HField FStringZ) true
  /\ piece (HAnnotated HOther [HStruct 0]) (HStruct 0).
Proof.
  repeat (split; [reflexivity|]). split.
  - apply (with_none [HNone] (HField FStringZ) []); [discriminate|repeat constructor|discriminate].
  - constructor. left. reflexivity.
Qed.

(** Decorators: only the one next to the function counts; wrong arguments to any are a TypeError. *)
Theorem C92_decorators d m l : apply_decorators d = Ok (Wrapper m l) <-> innermost d m l.
Proof. exact (decorators_innermost d m l). Qed.
Print Assumptions C92_decorators.

Theorem C92_misused d : apply_decorators d = Raise ETypeErr <-> misused d.
Proof. exact (decorators_misused d). Qed.
Print Assumptions C92_misused.

(** What it does in a class body: it validates each field it names, once for each time it does, or
    the struct if it names none. *)
Theorem C92_body d m l pre name o post : innermost d m l ->
  exists f, apply_decorators d = Ok f
  /\ (forall x, methods_for (pre ++ (name, item_of f o) :: post) x
        = methods_for pre x ++ repeat (m_field m) (count_occ string_dec l x) ++ methods_for post x)
  /\ struct_methods (pre ++ (name, item_of f o) :: post)
     = struct_methods pre ++ (match l with [] => [m_struct m] | _ => [] end) ++ struct_methods post.
Proof. exact (body_methods d m l pre name o post). Qed.
Print Assumptions C92_body.

(** So a decorator on top of another one has no effect. *)
Theorem C92_stacked_refuted d f : apply_decorators d = Ok f -> (forall m, d <> Def m) ->
  apply_decorators (ValidatesStruct d) = Ok f
  /\ forall args names, spelled args names -> apply_decorators (Validates args d) = Ok f.
Proof. exact (outer_nothing d f). Qed.
Print Assumptions C92_stacked_refuted.

(** class K(Struct):
      a = UInt8()
      b = UInt8()
      @validates("a")
      @validates("b")
      def limit(self, field, value): ... refuses values above 9
    writes an "a" of 200; with @validates("a", "b") it does not. *)
Example C92_stacked_example :
  let limit := mkMethod (fun v => match at_most_9 v with Raise e => QRaise e | _ => QRet tt end) (QRet tt) in
  let body d := [("a", IField uint8); ("b", IField uint8);
                 ("limit", match apply_decorators d with Ok f => item_of f (DValue VNone) | _ => IValue (DValue VNone) end)] in
  let E d := made [] "K" [] None (body d) in
  struct_to_bytes (E (Validates [NName "a"] (Validates [NName "b"] (Def limit)))) 9 0 [("a", VInt 200); ("b", VInt 1)] VNone
  = Ok [200; 1]
  /\ struct_to_bytes (E (Validates [NName "a"; NName "b"] (Def limit))) 9 0 [("a", VInt 200); ("b", VInt 1)] VNone
     = Raise (EValidation (Some "x"))
  /\ struct_to_bytes (E (Validates [NName "a"] (Validates [NName "b"] (Def limit)))) 9 0 [("a", VInt 1); ("b", VInt 200)] VNone
     = Raise (EValidation (Some "x"))
  /\ innermost (Validates [NName "a"] (Validates [NName "b"] (Def limit))) limit ["b"]
  /\ apply_decorators (Validates [] (Def limit)) = Raise ETypeErr
  /\ apply_decorators (Validates [NName "a"; NObject] (Def limit)) = Raise ETypeErr.
Proof.
  intros limit body E. split; [reflexivity|]. split; [reflexivity|]. split; [reflexivity|]. split; [|split; reflexivity].
  apply (in_outer_validates _ ["a"]); [split; [reflexivity|discriminate]|].
  constructor. split; [reflexivity|discriminate].
Qed.
