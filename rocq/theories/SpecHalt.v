(** What an Array with its own halt check loads, and what an Array makes of iterables. *)
From Coq Require Import ZArith List String.
From Verif Require Import Base Stream Values FieldModel StructModel SpecField.
Import ListNotations.
Open Scope Z_scope.

(** [halted E comp h ctx d vs s s' out]: asked by the check [h] before every element, starting
    with the elements [vs] and the stream at [s], the array is [out] and the stream at [s'].
    The check may replace the list. *)
Inductive halted (E : env) (comp : field) (h : haltfn) (ctx : value) (d : dict)
  : list value -> stream -> stream -> list value -> Prop :=
| halted_stop : forall vs s out, h s vs ctx d = Ok (true, out) -> halted E comp h ctx d vs s s out
| halted_take : forall vs s vs' v s1 s' out,
    h s vs ctx d = Ok (false, vs') -> loads_to E comp ctx d s s1 v -> v <> VNotPresent ->
    halted E comp h ctx d (vs' ++ [v]) s1 s' out -> halted E comp h ctx d vs s s' out
| halted_skip : forall vs s vs' s1 s' out,
    h s vs ctx d = Ok (false, vs') -> loads_to E comp ctx d s s1 VNotPresent ->
    halted E comp h ctx d vs' s1 s' out -> halted E comp h ctx d vs s s' out.

(** The same, ending in an exception of the check or of an element. *)
Inductive halt_fails (E : env) (comp : field) (h : haltfn) (ctx : value) (d : dict)
  : list value -> stream -> exn -> Prop :=
| fails_check : forall vs s e, h s vs ctx d = Raise e -> halt_fails E comp h ctx d vs s e
| fails_element : forall vs s vs' e,
    h s vs ctx d = Ok (false, vs') -> load_raises E comp ctx d s e -> halt_fails E comp h ctx d vs s e
| fails_later : forall vs s vs' v s1 e,
    h s vs ctx d = Ok (false, vs') -> loads_to E comp ctx d s s1 v -> v <> VNotPresent ->
    halt_fails E comp h ctx d (vs' ++ [v]) s1 e -> halt_fails E comp h ctx d vs s e
| fails_skip : forall vs s vs' s1 e,
    h s vs ctx d = Ok (false, vs') -> loads_to E comp ctx d s s1 VNotPresent ->
    halt_fails E comp h ctx d vs' s1 e -> halt_fails E comp h ctx d vs s e.

(** Stop after an element for which [last] answers yes, keeping it or taking it off the list
    (containers.py:205-209 allows a check to do so). *)
Definition ends_with (last : value -> bool) (vs : list value) : bool :=
  match rev vs with v :: _ => last v | [] => false end.
Definition sentinel_kept (last : value -> bool) : haltfn := fun _ vs _ _ => Ok (ends_with last vs, vs).
Definition sentinel_removed (last : value -> bool) : haltfn := fun _ vs _ _ =>
  if ends_with last vs then Ok (true, removelast vs) else Ok (false, vs).

(** Elements read one after another, all there. *)
Inductive read_all (E : env) (comp : field) (ctx : value) (d : dict)
  : list value -> stream -> stream -> Prop :=
| read_none : forall s, read_all E comp ctx d [] s s
| read_one : forall s s1 s' v vs, loads_to E comp ctx d s s1 v -> v <> VNotPresent ->
    read_all E comp ctx d vs s1 s' -> read_all E comp ctx d (v :: vs) s s'.

(** The characters of a field name. *)
Definition name_text (name : string) : value :=
  VStr (map (fun a => Z.of_N (Ascii.N_of_ascii a)) (list_ascii_of_string name)).

(** The elements an iterable has: the bytes of bytes, the characters of a string, the keys of
    a dict. *)
Inductive iterates : value -> list value -> Prop :=
| it_bytes : forall bs, iterates (VBytes bs) (map VInt bs)
| it_str : forall cps, iterates (VStr cps) (map (fun cp => VStr [cp]) cps)
| it_dict : forall d, iterates (VDict d) (map (fun kv => name_text (fst kv)) d).

(** A field puts its name on the deserialization errors that pass through it. *)
Inductive renamed (name : fname) : exn -> exn -> Prop :=
| rn_deserialization : forall f, renamed name (EDeserialization f) (EDeserialization name)
| rn_eof : forall f size offset, renamed name (EUnexpectedEOF f size offset) (EUnexpectedEOF name size offset)
| rn_extraneous : forall f, renamed name (EExtraneous f) (EExtraneous name)
| rn_other : forall e,
    (forall f, e <> EDeserialization f) -> (forall f size offset, e <> EUnexpectedEOF f size offset) ->
    (forall f, e <> EExtraneous f) -> renamed name e e.
