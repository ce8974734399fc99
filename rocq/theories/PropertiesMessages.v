(** C91: the messages of the library's exceptions. *)
From Coq Require Import String List Sorted.
From Verif Require Import SpecMessages MessageProofs Samples.
Open Scope string_scope.
Open Scope list_scope.
Open Scope Z_scope.

(** A name is shown as a string literal for it: printable, and readable to its end. *)
Theorem C91_names s : ascii_text s -> literal s (repr_str s) /\ printable (repr_str s).
Proof. intros H. exact (conj (repr_literal s H) (literal_printable _ _ (repr_literal s H))). Qed.
Print Assumptions C91_names.

Theorem C91_names_end s1 s2 l1 l2 r1 r2 : literal s1 l1 -> literal s2 l2 -> l1 ++ r1 = l2 ++ r2 ->
  s1 = s2 /\ l1 = l2 /\ r1 = r2.
Proof. exact (literal_ends s1 s2 l1 l2 r1 r2). Qed.
Print Assumptions C91_names_end.

Example C91_names_example :
  repr_str (lit "it's") = [34] ++ lit "it's" ++ [34]
  /\ repr_str (lit "a'" ++ [34; 10; 0; 92]) = lit "'a\'" ++ [34] ++ lit "\n\x00\\'"
  /\ ascii_text (lit "it's").
Proof. split; [reflexivity|]. split; [reflexivity|]. repeat constructor; discriminate. Qed.

(** [str] of a field shows its class and its name; [repr] the module as well. *)
Theorem C91_field f : name_ok (sf_name f) -> exists t,
  (forall s, sf_name f = Some s -> literal s t) /\ (sf_name f = None -> t = lit "None")
  /\ field_str f = sf_class f ++ lit "(name=" ++ t ++ lit ")"
  /\ field_repr f = lit "<" ++ sf_module f ++ lit "." ++ field_str f ++ lit ">".
Proof. exact (field_str_text f). Qed.
Print Assumptions C91_field.

Theorem C91_field_identified f g : no_paren (sf_class f) -> no_paren (sf_class g) ->
  name_ok (sf_name f) -> name_ok (sf_name g) ->
  field_str f = field_str g -> sf_class f = sf_class g /\ sf_name f = sf_name g.
Proof. exact (field_str_inj f g). Qed.
Print Assumptions C91_field_identified.

Theorem C91_field_repr_identified f g :
  no_paren (sf_class f) -> no_paren (sf_class g) -> no_paren (sf_module f) -> no_paren (sf_module g) ->
  name_ok (sf_name f) -> name_ok (sf_name g) -> field_repr f = field_repr g ->
  sf_module f ++ lit "." ++ sf_class f = sf_module g ++ lit "." ++ sf_class g /\ sf_name f = sf_name g.
Proof. exact (field_repr_inj f g). Qed.
Print Assumptions C91_field_repr_identified.

Definition shown_x : shown_field := mkShown (lit "UInt8") (lit "binobj.fields.numeric") (Some (lit "x")).

Example C91_field_example :
  field_str shown_x = lit "UInt8(name='x')"
  /\ field_repr shown_x = lit "<binobj.fields.numeric.UInt8(name='x')>"
  /\ field_str (mkShown (lit "UInt8") [] None) = lit "UInt8(name=None)"
  /\ no_paren (sf_class shown_x) /\ name_ok (sf_name shown_x).
Proof.
  split; [reflexivity|]. split; [reflexivity|]. split; [reflexivity|]. split; [|repeat constructor; discriminate].
  vm_compute. intros H. repeat destruct H as [H|H]; try discriminate; auto.
Qed.

(** Without a message, the first line of the docstring of the class. *)
Theorem C91_default m doc : error_message (Some m) doc = Some m.
Proof. exact (error_message_given m doc). Qed.
Print Assumptions C91_default.

Theorem C91_default_doc doc : doc <> [] -> exists line rest, error_message None (Some doc) = Some line
  /\ doc = line ++ rest /\ Forall (fun ch => line_break ch = false) line
  /\ (forall ch r, rest = ch :: r -> line_break ch = true).
Proof. exact (error_message_doc doc). Qed.
Print Assumptions C91_default_doc.

Example C91_default_example :
  error_message None (Some (lit "The attempted operation is disallowed." ++ [10; 10] ++ lit "More."))
  = Some (lit "The attempted operation is disallowed.")
  /\ error_message None None = None
  /\ immutable_message None (Some (lit "Cannot assign." ++ [10])) = Some (lit "Cannot assign.")
  /\ immutable_message (Some shown_x) None
     = Some (lit "Cannot assign to immutable field: <binobj.fields.numeric.UInt8(name='x')>").
Proof. repeat split. Qed.

(** A configuration error needs a culprit, keeps the message given, and else names the culprit. *)
Theorem C91_config m f s o : config_message m f s o = Raise EValueErr
  <-> truthy f = false /\ truthy s = false /\ truthy o = false.
Proof. exact (config_message_error m f s o). Qed.
Print Assumptions C91_config.

Theorem C91_config_given t f s o : t <> [] -> truthy f || truthy s || truthy o = true ->
  config_message (Some t) f s o = Ok (Some t).
Proof. exact (config_message_given t f s o). Qed.
Print Assumptions C91_config_given.

Theorem C91_config_generic m f s o : m = None \/ m = Some [] ->
  (truthy f = true -> truthy s = true ->
     config_message m f s o = Ok (Some (lit "Field " ++ arg_repr f ++ lit " in struct " ++ arg_repr s ++ lit " was misconfigured.")))
  /\ (truthy f = true -> truthy s = false ->
     config_message m f s o = Ok (Some (lit "The field " ++ arg_repr f ++ lit " was misconfigured.")))
  /\ (truthy f = false -> truthy s = true ->
     config_message m f s o = Ok (Some (lit "The struct " ++ arg_repr s ++ lit " was misconfigured.")))
  /\ (truthy f = false -> truthy s = false -> truthy o = true ->
     config_message m f s o = Ok (Some (lit "The object " ++ arg_repr o ++ lit " was misconfigured."))).
Proof. exact (config_message_generic m f s o). Qed.
Print Assumptions C91_config_generic.

(** A name that is empty counts as no culprit: [FieldReferenceError] aside, an error about the
    field "" of a struct without a name cannot be built. *)
Example C91_config_example :
  config_message None (ArgName (lit "f")) ArgNone ArgNone = Ok (Some (lit "The field 'f' was misconfigured."))
  /\ config_message None (ArgName (lit "f")) (ArgName (lit "S")) ArgNone
     = Ok (Some (lit "Field 'f' in struct 'S' was misconfigured."))
  /\ config_message (Some (lit "Bad.")) (ArgName []) ArgNone ArgNone = Raise EValueErr.
Proof. repeat split. Qed.

(** The numbers in the messages about missing data and array sizes, and that nothing else has the
    same message. *)
Theorem C91_eof size offset : exists t1 t2, decimal size t1 /\ decimal offset t2
  /\ eof_message size offset
     = lit "Unexpected EOF while trying to read " ++ t1 ++ lit " bytes at offset " ++ t2 ++ lit ".".
Proof. exact (eof_message_text size offset). Qed.
Print Assumptions C91_eof.

Theorem C91_eof_identified size offset size' offset' : eof_message size offset = eof_message size' offset' ->
  size = size' /\ offset = offset'.
Proof. exact (eof_message_inj size offset size' offset'). Qed.
Print Assumptions C91_eof_identified.

Theorem C91_array n g : exists t, decimal n t
  /\ (g = None -> array_message n g = lit "Expected " ++ t ++ lit " values.")
  /\ (forall z, g = Some z -> exists u, decimal z u
      /\ (z <= n -> array_message n g = lit "Expected " ++ t ++ lit " values, got " ++ u ++ lit ".")
      /\ (n < z -> array_message n g = lit "Expected " ++ t ++ lit " values, got at least " ++ u ++ lit ".")).
Proof. exact (array_message_text n g). Qed.
Print Assumptions C91_array.

Theorem C91_array_identified n g n' g' : array_message n g = array_message n' g' -> n = n' /\ g = g'.
Proof. exact (array_message_inj n g n' g'). Qed.
Print Assumptions C91_array_identified.

Example C91_numbers_example :
  eof_message 4 12 = lit "Unexpected EOF while trying to read 4 bytes at offset 12."
  /\ array_message 3 (Some 4) = lit "Expected 3 values, got at least 4."
  /\ array_message 3 (Some 2) = lit "Expected 3 values, got 2."
  /\ array_message 3 None = lit "Expected 3 values.".
Proof. repeat split. Qed.

(** Creating a struct with unknown fields: the message names each of them once, in order. *)
Theorem C91_unexpected E cid vals e cls : struct_init E cid vals = Raise e ->
  (forall nm, In nm (dkeys vals) -> ascii_text (lit nm)) ->
  exists names shown k lits t, e = EUnexpectedValue names
    /\ (forall x, In x shown <-> exists nm, x = lit nm /\ In nm (dkeys vals) /\ assoc (comps E cid) nm = None)
    /\ StronglySorted text_lt shown /\ decimal (zlen shown) k /\ Forall2 literal shown lits /\ comma_separated lits t
    /\ unexpected_message cls (map lit names)
       = k ++ lit " unrecognized field(s) given to " ++ cls ++ lit " for serialization: " ++ t.
Proof. exact (init_message E cid vals e cls). Qed.
Print Assumptions C91_unexpected.

Theorem C91_unexpected_identified cls names cls' names' : names <> [] -> names' <> [] ->
  Forall ascii_text names -> Forall ascii_text names' -> no_space cls -> no_space cls' ->
  unexpected_message cls names = unexpected_message cls' names' ->
  cls = cls' /\ forall x, In x names <-> In x names'.
Proof. exact (unexpected_message_inj cls names cls' names'). Qed.
Print Assumptions C91_unexpected_identified.

Example C91_unexpected_example :
  struct_init [class_of "P" [("x", u8 (byte "x"))]] 0 [("z", VNone); ("x", VInt 1); ("b", VNone)]
  = Raise (EUnexpectedValue ["z"; "b"])
  /\ unexpected_message (lit "Point") (map lit ["z"; "b"])
     = lit "2 unrecognized field(s) given to Point for serialization: 'b', 'z'"
  /\ unexpected_message (lit "Point") (map lit ["q"; "q"])
     = lit "1 unrecognized field(s) given to Point for serialization: 'q'".
Proof. repeat split. Qed.

Theorem C91_reference_identified n1 n2 : ascii_text n1 -> ascii_text n2 ->
  reference_message None n1 = reference_message None n2 -> n1 = n2.
Proof. exact (reference_message_inj n1 n2). Qed.
Print Assumptions C91_reference_identified.

Example C91_texts_example :
  reference_message None (lit "n") = Some (lit "Attempted to reference a missing or undefined field: 'n'")
  /\ validation_message None shown_x (lit "300") = Some (lit "Invalid value for UInt8(name='x'): 300")
  /\ missing_message (FieldObj shown_x) = lit "Missing required value for field: UInt8(name='x')"
  /\ missing_message (FieldName (lit "x")) = lit "Missing required value for field: x"
  /\ value_size_message shown_x (lit "1") (lit "bytes")
     = lit "UInt8(name='x') can't serialize value: Value doesn't fit into 1 bytes."
  /\ unserializable_message shown_x (lit "NoneType") None
     = lit "UInt8(name='x') can't serialize value of type NoneType."
  /\ redefined_message (lit "S") (FieldName (lit "x"))
     = lit "Struct S defines field 'x', which is already defined in its parent class.".
Proof. repeat split. Qed.

(** Data left over after a field: the message says how much. *)
Theorem C91_extraneous E n f data ctx d s' v : field_from_stream E n f ctx d (mkStream data 0) = (s', Ok v) ->
  tell s' < zlen data ->
  field_from_bytes E n f data ctx true d = Raise (EExtraneous None)
  /\ exists t, decimal (zlen data - tell s') t
     /\ field_extraneous_message (zlen data - tell s') = lit "The input has " ++ t ++ lit " extra byte(s).".
Proof. exact (field_extraneous E n f data ctx d s' v). Qed.
Print Assumptions C91_extraneous.

(** After a struct: the message gives one byte more than was read. *)
Theorem C91_extraneous_struct E n cid data ctx kw s' vals :
  struct_from_stream E n cid ctx kw (mkStream data 0) = (s', Ok vals) -> 2 <= zlen data - tell s' ->
  struct_from_bytes E n cid data ctx true kw = Raise (EExtraneous None)
  /\ exists t u, decimal (tell s' + 1) t /\ decimal (zlen data) u
     /\ struct_extraneous_message (tell s') (zlen data)
        = lit "Read " ++ t ++ lit " bytes, but there are " ++ u ++ lit " in the input data.".
Proof. exact (struct_extraneous E n cid data ctx kw s' vals). Qed.
Print Assumptions C91_extraneous_struct.

(** So it never gives the number of bytes read. *)
Theorem C91_extraneous_struct_refuted here len t r : decimal here t -> ~ digit_first r ->
  struct_extraneous_message here len <> lit "Read " ++ t ++ r.
Proof. exact (struct_extraneous_wrong here len t r). Qed.
Print Assumptions C91_extraneous_struct_refuted.

Example C91_extraneous_example :
  let E := [class_of "P" [("x", u8 (byte "x"))]] in
  struct_from_stream E 3 0 VNone [] (mkStream [5; 6; 7] 0) = (mkStream [5; 6; 7] 1, Ok [("x", VInt 5)])
  /\ struct_extraneous_message 1 3 = lit "Read 2 bytes, but there are 3 in the input data."
  /\ field_extraneous_message 2 = lit "The input has 2 extra byte(s).".
Proof. repeat split. Qed.

(** A struct with two struct bases is reported under the name of the metadata class: the message
    is the same whichever struct it is. *)
Theorem C91_multiple_inheritance_refuted c c' : multiple_inheritance_message c = multiple_inheritance_message c'
  /\ multiple_inheritance_message c = Ok (Some (lit "The struct 'StructMetadata' was misconfigured.")).
Proof. exact (multiple_inheritance_blind c c'). Qed.
Print Assumptions C91_multiple_inheritance_refuted.

(** The report of a field that recurses shows the placeholder, not the value. *)
Theorem C91_recursion_refuted m q v v' : recursion_message m q v = recursion_message m q v'.
Proof. exact (recursion_message_blind m q v v'). Qed.
Print Assumptions C91_recursion_refuted.
