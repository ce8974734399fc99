(** Model of which objects are shared: lists, dictionaries, bytearrays and structs as mutable
    objects with identity.  The rest of the development takes values to be immutable.  Callables
    only create objects (this is an assumption of the theorems); computing a value does not fail
    except for want of a value, and [to_dict] then fails without trying again with what it has
    (structures.py:428-434). *)
From Coq Require Import String List.
From Verif Require Export Values.
Open Scope string_scope.
Open Scope list_scope.

Inductive obj := OVal (v : value) | ORef (a : nat).

Inductive cell :=
| CList (l : list obj)
| CDict (d : list (string * obj))
| CBuf (b : list Z)                                     (* bytearray *)
| CStruct (cid : nat) (values : list (string * obj)).   (* an instance and its [__values__] *)

Definition heap := list cell.

Definition alloc (h : heap) (c : cell) : heap * obj := (h ++ [c], ORef (length h)).

(** Mutation: the object at [a] becomes [c]. *)
Fixpoint update (h : heap) (a : nat) (c : cell) : heap :=
  match h, a with
  | [], _ => []
  | _ :: h', O => c :: h'
  | x :: h', S a' => x :: update h' a' c
  end.

(** What matters of a field: its name, default (or const), compute function (given the heap and
    the struct), [present], whether it is a constant, and [discard].  Structs do not use
    factories: with one, [_default] is UNDEFINED (base.py:291-309, 443). *)
Record hfield := mkHField {
  hf_name : string;
  hf_default : obj;
  hf_compute : option (heap -> nat -> heap * obj);
  hf_present : heap -> nat -> bool;
  hf_const : bool;
  hf_discard : bool }.

Section Sharing.
Variable classes : nat -> list hfield.

Definition undefined (o : obj) : bool := match o with OVal VUndefined => true | _ => false end.
Definition not_present (o : obj) : bool := match o with OVal VNotPresent => true | _ => false end.

(** base.py:400-460 [compute_value_for_dump] for the instance [a].  [name in instance] goes
    through [__iter__] (structures.py:756-759), which leaves out UNDEFINED. *)
Definition value_for_dump (f : hfield) (h : heap) (a : nat) (values : list (string * obj)) : heap * res obj :=
  let stored := match assoc values (hf_name f) with
                | Some o => if undefined o then None else Some o
                | None => None
                end in
  let '(h1, o) := match stored with
                  | Some o => (h, o)
                  | None => if undefined (hf_default f)
                            then match hf_compute f with
                                 | Some fn => fn h a
                                 | None => (h, OVal VUndefined)
                                 end
                            else (h, hf_default f)
                  end in
  if not_present o || negb (hf_present f h1 a) then (h1, Ok (OVal VNotPresent))
  else if undefined o then (h1, Raise (EMissingRequired (Some (hf_name f))))
  else (h1, Ok o).

(** base.py:1015-1020 [__get__] on the instance [a] *)
Definition attribute (f : hfield) (h : heap) (a : nat) : heap * res obj :=
  match nth_error h a with
  | Some (CStruct _ values) =>
    match assoc values (hf_name f) with
    | Some o => (h, Ok o)
    | None => value_for_dump f h a values
    end
  | _ => (h, Raise ETypeErr)
  end.

(** structures.py:335-340 [__init__] with known names: the objects themselves are stored. *)
Definition new_struct (h : heap) (cid : nat) (values : list (string * obj)) : heap * obj :=
  alloc h (CStruct cid values).

(** structures.py:401-442 [to_dict]: the objects of all the fields. *)
Fixpoint field_objects (fs : list hfield) (h : heap) (a : nat) (values : list (string * obj))
  : heap * res (list (string * obj)) :=
  match fs with
  | [] => (h, Ok [])
  | f :: fs' =>
    match value_for_dump f h a values with
    | (h1, Ok o) =>
      match field_objects fs' h1 a values with
      | (h2, Ok os) => (h2, Ok (if hf_discard f then os else (hf_name f, o) :: os))
      | (h2, r) => (h2, r)
      end
    | (h1, Raise e) => (h1, Raise e)
    | (h1, OOF) => (h1, OOF)
    end
  end.

(** The conversions of several objects, one after the other. *)
Fixpoint convert_all (conv : heap -> obj -> heap * res obj) (h : heap) (l : list obj) : heap * res (list obj) :=
  match l with
  | [] => (h, Ok [])
  | o :: l' =>
    match conv h o with
    | (h1, Ok o') =>
      match convert_all conv h1 l' with
      | (h2, Ok os) => (h2, Ok (o' :: os))
      | (h2, r) => (h2, r)
      end
    | (h1, Raise e) => (h1, Raise e)
    | (h1, OOF) => (h1, OOF)
    end
  end.

Definition convert_dict (conv : heap -> obj -> heap * res obj) (h : heap) (d : list (string * obj)) : heap * res obj :=
  match convert_all conv h (map snd d) with
  | (h1, Ok os) => let '(h2, o) := alloc h1 (CDict (combine (map fst d) os)) in (h2, Ok o)
  | (h1, Raise e) => (h1, Raise e)
  | (h1, OOF) => (h1, OOF)
  end.

(** structures.py:291-305 [recursive_to_dicts]; for a struct this is its [to_dict()]. *)
Fixpoint to_dicts (n : nat) (h : heap) (o : obj) : heap * res obj :=
  match n with
  | O => (h, OOF)
  | S n' =>
    match o with
    | OVal _ => (h, Ok o)
    | ORef a =>
      match nth_error h a with
      | Some (CStruct cid values) =>
        match field_objects (classes cid) h a values with
        | (h1, Ok d) => convert_dict (to_dicts n') h1 d
        | (h1, Raise e) => (h1, Raise e)
        | (h1, OOF) => (h1, OOF)
        end
      | Some (CDict d) => convert_dict (to_dicts n') h d
      | Some (CList l) =>
        match convert_all (to_dicts n') h l with
        | (h1, Ok os) => let '(h2, o') := alloc h1 (CList os) in (h2, Ok o')
        | (h1, Raise e) => (h1, Raise e)
        | (h1, OOF) => (h1, OOF)
        end
      | Some (CBuf _) => (h, Ok o)
      | None => (h, OOF)
      end
    end
  end.

(** base.py:1022-1028 [__set__] with validators that accept; [dict] assignment *)
Fixpoint store (values : list (string * obj)) (name : string) (o : obj) : list (string * obj) :=
  match values with
  | [] => [(name, o)]
  | (k, x) :: values' => if String.eqb k name then (k, o) :: values' else (k, x) :: store values' name o
  end.

Definition set_attribute (f : hfield) (h : heap) (a : nat) (o : obj) : heap * res unit :=
  if match hf_compute f with Some _ => true | None => hf_const f end then (h, Raise (EImmutable (Some (hf_name f))))
  else match nth_error h a with
       | Some (CStruct cid values) => (update h a (CStruct cid (store values (hf_name f) o)), Ok tt)
       | _ => (h, Raise ETypeErr)
       end.

(** structures.py:749-754 [__delitem__] *)
Definition delete_item (f : hfield) (h : heap) (a : nat) : heap :=
  match nth_error h a with
  | Some (CStruct cid values) =>
    update h a (CStruct cid (filter (fun x => negb (String.eqb (fst x) (hf_name f))) values))
  | _ => h
  end.

End Sharing.
