(** Model of the messages of the library's exceptions (errors.py), and of [str] and [repr] of
    fields (base.py:1033-1037), which appear in them.  Text is ASCII, a list of code points.
    Class names, modules and the [repr] of values and classes are given as texts. *)
From Coq Require Import Ascii String.
From Verif Require Export FieldModel.
Open Scope list_scope.
Open Scope Z_scope.

Definition text := list Z.

(** A literal piece of text. *)
Definition lit (s : string) : text := map (fun c => Z.of_nat (nat_of_ascii c)) (list_ascii_of_string s).

(** ** [repr] of a string (CPython's unicode_repr, ASCII only) *)

(** Single quotes, or double quotes if there is a single quote and no double quote in it. *)
Definition quote_for (s : text) : Z :=
  if existsb (Z.eqb 39) s && negb (existsb (Z.eqb 34) s) then 34 else 39.

Definition hex_digit (d : Z) : Z := if d <? 10 then 48 + d else 87 + d.

Definition escape (q ch : Z) : text :=
  if (ch =? q) || (ch =? 92) then [92; ch]
  else if ch =? 9 then [92; 116]
  else if ch =? 10 then [92; 110]
  else if ch =? 13 then [92; 114]
  else if (ch <? 32) || (ch =? 127) then [92; 120; hex_digit (ch / 16); hex_digit (ch mod 16)]
  else [ch].

Definition repr_str (s : text) : text :=
  let q := quote_for s in [q] ++ flat_map (escape q) s ++ [q].

(** ** Fields *)

(** What the messages show of a Field object: qualified class name, module, name. *)
Record shown_field := mkShown { sf_class : text; sf_module : text; sf_name : option text }.

Definition repr_opt (o : option text) : text :=
  match o with Some s => repr_str s | None => lit "None" end.

(** base.py:1033-1034 [Field.__str__] *)
Definition field_str (f : shown_field) : text :=
  sf_class f ++ lit "(name=" ++ repr_opt (sf_name f) ++ lit ")".

(** base.py:1036-1037 [Field.__repr__] *)
Definition field_repr (f : shown_field) : text :=
  lit "<" ++ sf_module f ++ lit "." ++ field_str f ++ lit ">".

(** typedefs.py [FieldOrName] *)
Inductive field_or_name := FieldObj (f : shown_field) | FieldName (name : text).
Definition fon_str (x : field_or_name) : text :=
  match x with FieldObj f => field_str f | FieldName s => s end.
Definition fon_repr (x : field_or_name) : text :=
  match x with FieldObj f => field_repr f | FieldName s => repr_str s end.

(** ** errors.py:54-58 [Error.__init__]: the message, by default the first line of the
    docstring of the class. *)
Definition line_break (ch : Z) : bool := ((10 <=? ch) && (ch <=? 13)) || ((28 <=? ch) && (ch <=? 30)).

(** [s.splitlines()[0]] of a string that is not empty. *)
Fixpoint first_line (s : text) : text :=
  match s with
  | [] => []
  | ch :: s' => if line_break ch then [] else ch :: first_line s'
  end.

Definition error_message (message doc : option text) : option text :=
  match message with
  | Some m => Some m
  | None => match doc with
            | Some (ch :: d) => Some (first_line (ch :: d))
            | _ => None
            end
  end.

(** ** errors.py:90-117 [ConfigurationError.__init__] *)

(** An argument: not given (or None), a name, or an object with its truth value and [repr]. *)
Inductive argument := ArgNone | ArgName (s : text) | ArgObj (truth : bool) (r : text).

Definition truthy (a : argument) : bool :=
  match a with
  | ArgNone => false
  | ArgName s => match s with [] => false | _ => true end
  | ArgObj b _ => b
  end.

Definition arg_repr (a : argument) : text :=
  match a with ArgNone => lit "None" | ArgName s => repr_str s | ArgObj _ r => r end.

(** [not message] *)
Definition no_message (m : option text) : bool :=
  match m with None | Some [] => true | _ => false end.

Definition config_message (message : option text) (field struct obj : argument) : res (option text) :=
  if negb (truthy field || truthy struct || truthy obj) then Raise EValueErr
  else if no_message message then
    Ok (Some (if truthy field then
                if truthy struct
                then lit "Field " ++ arg_repr field ++ lit " in struct " ++ arg_repr struct ++ lit " was misconfigured."
                else lit "The field " ++ arg_repr field ++ lit " was misconfigured."
              else if truthy struct then lit "The struct " ++ arg_repr struct ++ lit " was misconfigured."
              else lit "The object " ++ arg_repr obj ++ lit " was misconfigured."))
  else Ok message.

(** ** The subclasses *)

(** errors.py:327-333 [InvalidTypeAnnotationError]; [annotation] is its [repr]. *)
Definition annotation_message (f : field_or_name) (annotation : text) : text :=
  lit "The type annotation for field " ++ fon_repr f
  ++ lit " is invalid. For example, you can't use typing.Union[X, Y] to emulate binobj.fields.Union. The annotation is: "
  ++ annotation.

(** errors.py:343-349 [CannotDetermineNullError] *)
Definition null_message (f : shown_field) : text :=
  lit "Passing `DEFAULT` for `null_value` of unsized field " ++ repr_opt (sf_name f)
  ++ lit " makes it impossible to determine what None should be and would result in unpredictable behavior.".

(** errors.py:188-192 [ValidationError]; [v] is [repr(value)]. *)
Definition validation_message (message : option text) (f : shown_field) (v : text) : option text :=
  if no_message message then Some (lit "Invalid value for " ++ field_str f ++ lit ": " ++ v) else message.

(** errors.py:208-212 [FieldReferenceError] *)
Definition reference_message (message : option text) (name : text) : option text :=
  if no_message message
  then Some (lit "Attempted to reference a missing or undefined field: " ++ repr_str name)
  else message.

(** errors.py:238-246 [ImmutableFieldError]; [doc]: its docstring *)
Definition immutable_message (f : option shown_field) (doc : option text) : option text :=
  error_message (match f with
                 | Some f => Some (lit "Cannot assign to immutable field: " ++ field_repr f)
                 | None => None
                 end) doc.

(** errors.py:270-276 [FieldRedefinedError] *)
Definition redefined_message (struct : text) (f : field_or_name) : text :=
  lit "Struct " ++ struct ++ lit " defines field " ++ fon_repr f
  ++ lit ", which is already defined in its parent class.".

(** errors.py:289-294 [UndefinedSizeError] *)
Definition undefined_size_message (f : field_or_name) : text :=
  lit "Size of field " ++ fon_str f
  ++ lit " couldn't be determined. The field might not have had its `size` set, or a variable-sized field has a bug.".

(** errors.py:303-304 [NoDefinedFieldsError]; [struct] is the [repr] of the class. *)
Definition no_fields_message (struct : text) : text :=
  lit "The struct " ++ struct ++ lit " has no defined fields.".

(** errors.py:358-363 [BuggyFieldImplementationError] *)
Definition buggy_message (field_type message : text) : text :=
  lit "Field type " ++ field_type ++ lit " has a bug in its implementation: " ++ message.

(** base.py:645-652: the message given to it.  The last of the adjacent literals is not an
    f-string, so the value is not inserted. *)
Definition recursion_message (modname qualname value : text) : text :=
  lit "The implementation of " ++ modname ++ lit "." ++ qualname
  ++ lit " is broken: either _size_for_value() (or less likely, _get_null_repr()) calls one of the `Field.to_*` or `Field.from_*` methods. Doing so causes infinite recursion. (Value: {value!r})".

(** errors.py:377-387 [UnserializableValueError]; [ty] is the qualified name of the value's type. *)
Definition unserializable_message (f : shown_field) (ty : text) (reason : option text) : text :=
  match reason with
  | Some r => field_str f ++ lit " can't serialize value: " ++ r
  | None => field_str f ++ lit " can't serialize value of type " ++ ty ++ lit "."
  end.

(** errors.py:396-397 [MissingRequiredValueError] *)
Definition missing_message (f : field_or_name) : text :=
  lit "Missing required value for field: " ++ fon_str f.

(** [sorted(set(names))]: by code points *)
Fixpoint text_ltb (a b : text) : bool :=
  match a, b with
  | _, [] => false
  | [], _ :: _ => true
  | x :: a', y :: b' => (x <? y) || ((x =? y) && text_ltb a' b')
  end.

Fixpoint insert_text (t : text) (l : list text) : list text :=
  match l with
  | [] => [t]
  | u :: l' => if text_ltb t u then t :: l
               else if text_ltb u t then u :: insert_text t l'
               else l
  end.

Definition sorted_set (l : list text) : list text := fold_right insert_text [] l.

(** [sep.join(pieces)] *)
Fixpoint join (sep : text) (l : list text) : text :=
  match l with
  | [] => []
  | [x] => x
  | x :: l' => x ++ sep ++ join sep l'
  end.

(** errors.py:410-419 [UnexpectedValueError]; [struct] is the qualified class name. *)
Definition unexpected_message (struct : text) (names : list text) : text :=
  let names := sorted_set names in
  int_text (zlen names) ++ lit " unrecognized field(s) given to " ++ struct ++ lit " for serialization: "
  ++ join (lit ", ") (map repr_str names).

(** errors.py:431-436 [ValueSizeError]; [size] is [repr(field.size)]. *)
Definition value_size_message (f : shown_field) (size ty : text) : text :=
  unserializable_message f ty (Some (lit "Value doesn't fit into " ++ size ++ lit " bytes.")).

(** errors.py:448-462 [ArraySizeError] for an integer count. *)
Definition array_message (n_expected : Z) (n_given : option Z) : text :=
  match n_given with
  | Some g => if n_expected <? g
              then lit "Expected " ++ int_text n_expected ++ lit " values, got at least " ++ int_text g ++ lit "."
              else lit "Expected " ++ int_text n_expected ++ lit " values, got " ++ int_text g ++ lit "."
  | None => lit "Expected " ++ int_text n_expected ++ lit " values."
  end.

(** errors.py:476-483 [UnexpectedEOFError] *)
Definition eof_message (size offset : Z) : text :=
  lit "Unexpected EOF while trying to read " ++ int_text size ++ lit " bytes at offset " ++ int_text offset ++ lit ".".

(** structures.py:122: [cls] is the metadata class, not the struct class being declared. *)
Definition multiple_inheritance_message (declared : text) : res (option text) :=
  config_message None ArgNone (ArgName (lit "StructMetadata")) ArgNone.

(** structures.py:553-558: [Struct.from_bytes] with data left over; [here] is the position of the
    stream. *)
Definition struct_extraneous_message (here len : Z) : text :=
  lit "Read " ++ int_text (here + 1) ++ lit " bytes, but there are " ++ int_text len ++ lit " in the input data.".

(** base.py:764-770: [Field.from_bytes] with data left over. *)
Definition field_extraneous_message (remaining : Z) : text :=
  lit "The input has " ++ int_text remaining ++ lit " extra byte(s).".
