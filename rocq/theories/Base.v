(** Results and exceptions.

    Models /repo/binobj/errors.py:48-487 (the exception hierarchy) together with the
    Python builtin exceptions the library raises or lets escape.
    Simplifications: messages and [value]/[struct]/[data] payloads are dropped; a field
    is identified by its name ([None] for an unnamed field). *)
From Coq Require Export String ZArith Bool Lia.
From Coq Require Export List.
Export ListNotations.
Open Scope Z_scope.
Open Scope list_scope.

Definition fname := option string.

Inductive exn : Type :=
(* errors.py:61-120  ConfigurationError and its subclasses (errors.py:249-363) *)
| EConfig (fld : fname)
| EMultipleInheritance
| EFieldRedefined (name : string)
| EUndefinedSize (fld : fname)
| ENoDefinedFields
| EMixedDeclarations
| EInvalidTypeAnnotation (name : string)
| ECannotDetermineNull (fld : fname)
| EBuggyField (fld : fname)
(* errors.py:123-147  SerializationError and its subclasses (errors.py:366-461) *)
| ESerialization (fld : fname)
| EUnserializable (fld : fname)
| EValueSize (fld : fname)
| EMissingRequired (fld : fname)
| EUnexpectedValue (names : list string)
| EArraySize (fld : fname) (n_expected : Z) (n_given : option Z)
(* errors.py:150-174  DeserializationError and its subclasses (errors.py:464-487) *)
| EDeserialization (fld : fname)
| EUnexpectedEOF (fld : fname) (size : Z) (offset : Z)
| EExtraneous (fld : fname)
(* errors.py:177-220, 226-246 *)
| EValidation (fld : fname)
| EFieldReference (name : string)
| EIllegalOperation
| EImmutable (fld : fname)
(* Python builtins *)
| EValueErr
| EOverflow
| ETypeErr
| EAttrErr
| EKeyErr (name : string)
| EUnicodeEncode
| EUnicodeDecode
| EUnicodeErr (* UnicodeError itself *)
| EEOF
| EOSErr (* OSError *)
(* any other exception a user callable may raise *)
| EOther (code : Z).

(** [isinstance(e, errors.ConfigurationError)] etc.: errors.py class statements. *)
Definition is_ConfigurationError (e : exn) : bool :=
  match e with
  | EConfig _ | EMultipleInheritance | EFieldRedefined _ | EUndefinedSize _
  | ENoDefinedFields | EMixedDeclarations | EInvalidTypeAnnotation _
  | ECannotDetermineNull _ | EBuggyField _ => true
  | _ => false
  end.

Definition is_UndefinedSizeError (e : exn) : bool :=
  match e with EUndefinedSize _ => true | _ => false end.

Definition is_SerializationError (e : exn) : bool :=
  match e with
  | ESerialization _ | EUnserializable _ | EValueSize _ | EMissingRequired _
  | EUnexpectedValue _ | EArraySize _ _ _ => true
  | _ => false
  end.

Definition is_MissingRequiredValueError (e : exn) : bool :=
  match e with EMissingRequired _ => true | _ => false end.

(* errors.py:366, 422: ValueSizeError is a subclass of UnserializableValueError. *)
Definition is_UnserializableValueError (e : exn) : bool :=
  match e with EUnserializable _ | EValueSize _ => true | _ => false end.

Definition is_DeserializationError (e : exn) : bool :=
  match e with
  | EDeserialization _ | EUnexpectedEOF _ _ _ | EExtraneous _ => true
  | _ => false
  end.

Definition is_UnexpectedEOFError (e : exn) : bool :=
  match e with EUnexpectedEOF _ _ _ => true | _ => false end.

(** [isinstance(e, errors.Error)] *)
Definition is_binobj_Error (e : exn) : bool :=
  is_ConfigurationError e || is_SerializationError e || is_DeserializationError e
  || match e with
     | EValidation _ | EFieldReference _ | EIllegalOperation | EImmutable _ => true
     | _ => false
     end.

(** [isinstance(e, (ValueError, OverflowError))]; UnicodeError is a ValueError. *)
Definition is_ValueError_or_OverflowError (e : exn) : bool :=
  match e with
  | EValueErr | EOverflow | EUnicodeEncode | EUnicodeDecode | EUnicodeErr => true
  | _ => false
  end.

(** [err.field = self] on a caught DeserializationError (base.py:714-716). *)
Definition set_field (fld : fname) (e : exn) : exn :=
  match e with
  | EDeserialization _ => EDeserialization fld
  | EUnexpectedEOF _ sz off => EUnexpectedEOF fld sz off
  | EExtraneous _ => EExtraneous fld
  | e => e
  end.

(** Outcome of a Python computation.  [OOF]: the model ran out of fuel (no answer); it is
    not an exception and is never caught. *)
Inductive res (A : Type) : Type :=
| Ok (a : A)
| Raise (e : exn)
| OOF.
Arguments Ok {A} a.
Arguments Raise {A} e.
Arguments OOF {A}.

Definition bind {A B} (m : res A) (k : A -> res B) : res B :=
  match m with Ok a => k a | Raise e => Raise e | OOF => OOF end.

Notation "'do' x <- m ; k" := (bind m (fun x => k))
  (at level 200, x pattern, m at level 100, k at level 200, right associativity).

Definition is_ok {A} (m : res A) : bool := match m with Ok _ => true | _ => false end.

Fixpoint mapM {A B} (f : A -> res B) (l : list A) : res (list B) :=
  match l with
  | [] => Ok []
  | x :: xs => do y <- f x; do ys <- mapM f xs; Ok (y :: ys)
  end.
