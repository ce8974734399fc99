(** Model of annotations as they are written (pep526.py) and of the decorators for validators
    (decorators.py). *)
From Coq Require Import String List.
From Verif Require Export Decl.
Open Scope list_scope.
Open Scope Z_scope.

(** ---------------------------------------------------------------- annotations *)

(** An evaluated annotation, or a piece of metadata of an [Annotated]: a Field class, a Struct
    class, a Field instance, [None], [typing.Union[...]] (with the arguments [typing] has left
    after flattening), [X | Y] of two classes (a [types.UnionType] up to Python 3.13),
    [Annotated[inner, meta...]], or anything else. *)
Inductive hint :=
| HField (fc : field_class)
| HStruct (cid : nat)
| HInstance (d : decl)
| HNone
| HUnion (args : list hint)
| HPipe (args : list hint)
| HAnnotated (inner : hint) (meta : list hint)
| HOther.

(** pep526.py:64-73 [flatten_annotations] *)
Definition flatten_annotations (h : hint) : list hint :=
  match h with HAnnotated _ meta => meta | _ => [h] end.

Definition hint_none (h : hint) : bool := match h with HNone => true | _ => false end.

(** pep526.py:150-175: which of the cases of [make_field_instance] applies. *)
Definition annot_of (type_class : hint) (nullable : bool) : annot :=
  match type_class with
  | HField fc => AFieldClass fc nullable
  | HStruct cid => AStructClass cid
  | HInstance d => AInstance d
  | _ => AOther
  end.

(** pep526.py:104-147 [AnnotationInfo.from_annotation].  A rejected union is [AUnion]
    ([no_unions] raises InvalidTypeAnnotationError for it).  Only unions have None among their
    arguments and stand for a field. *)
Definition from_annotation (h : hint) : annot :=
  match h with
  | HUnion args =>
    match filter (fun a => negb (hint_none a)) args with
    | [a] => annot_of a (existsb hint_none args)
    | _ => AUnion
    end
  | _ => annot_of h false
  end.

(** pep526.py:226-232: what [dataclass] makes of the type hints of a class. *)
Definition annots_of (h : hint) : list annot := map from_annotation (flatten_annotations h).
Definition hints_of (hs : list (string * hint)) : hints := map (fun nh => (fst nh, annots_of (snd nh))) hs.

(** ---------------------------------------------------------------- decorators *)

(** What is passed to [validates]. *)
Inductive name_arg := NName (s : string) | NCallable | NObject.

(** decorators.py:66-76: the checks of [validates]. *)
Definition validates_args (args : list name_arg) : res (list string) :=
  match args with
  | [] => Raise ETypeErr
  | [NCallable] => Raise ETypeErr
  | _ =>
    if forallb (fun a => match a with NName _ => true | _ => false end) args
    then Ok (flat_map (fun a => match a with NName s => [s] | _ => [] end) args)
    else Raise ETypeErr
  end.

(** A method: what it does as a validator of a field and as one of a struct. *)
Record method := mkMethod { m_field : value -> query unit; m_struct : query unit }.

(** A function, or a [ValidatorMethodWrapper] with its attributes [func] and [field_names]. *)
Inductive function := Plain (m : method) | Wrapper (m : method) (names : list string).

(** decorators.py:31-36 [ValidatorMethodWrapper.__init__].  [functools.wraps] updates the
    attributes of the wrapper with those of the wrapped object, so if that is a wrapper too, its
    [func] and [field_names] replace the ones just set. *)
Definition make_wrapper (func : function) (names : list string) : function :=
  match func with
  | Plain m => Wrapper m names
  | Wrapper m names' => Wrapper m names'
  end.

(** A decorated method, as written. *)
Inductive decorated :=
| Def (m : method)
| Validates (args : list name_arg) (d : decorated)     (* decorators.py:43-81 *)
| ValidatesStruct (d : decorated).                      (* decorators.py:84-107 *)

(** Decorators are applied from the innermost out; a refused argument is a TypeError in any order. *)
Fixpoint apply_decorators (d : decorated) : res function :=
  match d with
  | Def m => Ok (Plain m)
  | Validates args d' =>
    do names <- validates_args args; do f <- apply_decorators d'; Ok (make_wrapper f names)
  | ValidatesStruct d' => do f <- apply_decorators d'; Ok (make_wrapper f [])
  end.

(** structures.py:260-276: what the class body then holds.  A wrapper without names validates the
    struct. *)
Definition item_of (f : function) (other : default_arg) : item :=
  match f with
  | Plain _ => IValue other
  | Wrapper m [] => IValidatesStruct (m_struct m)
  | Wrapper m names => IValidates names (m_field m)
  end.
