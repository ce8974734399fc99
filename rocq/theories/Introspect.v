(** Model of [repr] of structs, and of what the library tells about fields:
    [Field.required], [Field.is_computed_field], [Field.__objclass__]. *)
From Coq Require Import String.
From Verif Require Export StructModel Messages.
Open Scope list_scope.
Open Scope Z_scope.

(** ** [repr] of values *)

(** CPython's bytes_repr: like that of a string, but everything from 127 on is escaped. *)
Definition escape_byte (q ch : Z) : text :=
  if (ch =? q) || (ch =? 92) then [92; ch]
  else if ch =? 9 then [92; 116]
  else if ch =? 10 then [92; 110]
  else if ch =? 13 then [92; 114]
  else if (ch <? 32) || (127 <=? ch) then [92; 120; hex_digit (ch / 16); hex_digit (ch mod 16)]
  else [ch].

Definition repr_bytes (s : list Z) : text :=
  let q := quote_for s in lit "b" ++ [q] ++ flat_map (escape_byte q) s ++ [q].

(** structures.py:802-804 [Struct.__repr__]; [values] is [self.__values__], given with the
    [repr] of the values. *)
Definition repr_struct (qualname : text) (values : list (string * text)) : text :=
  qualname ++ lit "(" ++ join (lit ", ") (map (fun kv => lit (fst kv) ++ lit "=" ++ snd kv) values) ++ lit ")".

Section Repr.
(** The qualified names of the classes. *)
Variable qualname : nat -> text.
(** [repr] of floats, datetimes and generators, which is not modelled. *)
Variable other : value -> text.

(** [repr(v)].  base.py:42-63 (the members of the enumerations) and the standard library *)
Fixpoint repr_value (v : value) : text :=
  match v with
  | VNone => lit "None"
  | VUndefined => lit "<_Undefined.token: 0>"
  | VDefault => lit "<_Default.token: 0>"
  | VNotPresent => lit "<_NotPresent.token: 0>"
  | VInt z => int_text z
  | VBytes b => repr_bytes b
  | VStr s => repr_str s
  | VUUID u => lit "UUID(" ++ repr_str (uuid_str u) ++ lit ")"
  | VList l => lit "[" ++ join (lit ", ") (map repr_value l) ++ lit "]"
  | VDict d => lit "{" ++ join (lit ", ") (map (fun kv => repr_str (lit (fst kv)) ++ lit ": " ++ repr_value (snd kv)) d) ++ lit "}"
  | VStruct cid d => repr_struct (qualname cid) (map (fun kv => (fst kv, repr_value (snd kv))) d)
  | VFloat _ | VTime _ _ | VGen _ => other v
  end.
End Repr.

(** ** Fields *)

(** base.py:508-515 [Field.is_computed_field] *)
Definition is_computed_field (f : field) : bool :=
  match c_compute (conf f) with Some _ => true | None => false end.

(** base.py:537-543 [Field.required]; reading [default] calls the factory. *)
Definition required (f : field) : res bool :=
  if is_undefined (c_const (conf f)) then do d <- default_of (conf f); Ok (is_undefined d) else Ok false.

(** ** Classes *)

(** A class statement: the class it inherits from, if that is a struct, and the Field objects
    assigned in its body (their addresses). *)
Record statement := mkStatement { st_parent : option nat; st_fields : list nat }.

(** The classes declared so far (their components), and [__objclass__] of the Field objects. *)
Record program := mkProgram { pr_classes : list (list nat); pr_objclass : nat -> option nat }.

(** structures.py:133-160, 806-815: the components are those of the parent and the own ones;
    [__objclass__] of all of them is set to the new class. *)
Definition declare (p : program) (s : statement) : program :=
  let inherited := match st_parent s with Some c => nth c (pr_classes p) [] | None => [] end in
  let components := inherited ++ st_fields s in
  mkProgram (pr_classes p ++ [components])
    (fun f => if existsb (Nat.eqb f) components then Some (length (pr_classes p)) else pr_objclass p f).

Definition declare_all (l : list statement) : program :=
  fold_left declare l (mkProgram [] (fun _ => None)).
