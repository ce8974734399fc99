(** Comparing the contents of structs when objects have identity.  Python's comparisons of lists and
    dictionaries take items that are the same object to be equal (PyObject_RichCompareBool) without
    asking [==], which matters for NaN and for generators; [py_eq] in StructModel.v does not.
    structures.py:777-797 [Struct.__eq__] compares two dictionaries made by [recursive_to_dicts]
    (structures.py:291-305), which keeps the objects that are not containers. *)
From Verif Require Export StructModel.

(** What such dictionaries contain.  The address of a float or generator says which object it is;
    other objects without parts are equal to themselves, and so are containers, so that their
    addresses do not matter. *)
Inductive thing :=
| TAtom (v : value)
| TInt (z : Z)
| TFloat (a : nat)
| TGen (a : nat)
| TList (l : list thing)
| TDict (d : list (string * thing)).

Section Identity.
(** The objects at the addresses. *)
Variable floats : nat -> Z.
Variable gens : nat -> list value.

Fixpoint bare (x : thing) : value :=
  match x with
  | TAtom v => v
  | TInt z => VInt z
  | TFloat a => VFloat (floats a)
  | TGen a => VGen (gens a)
  | TList l => VList (map bare l)
  | TDict d => VDict (map (fun kv => (fst kv, bare (snd kv))) d)
  end.

(** [x is y] *)
Definition same_object (x y : thing) : bool :=
  match x, y with
  | TFloat a, TFloat b | TGen a, TGen b => Nat.eqb a b
  | _, _ => false
  end.

(** [x == y] for objects that are not both containers; generators are equal only to themselves. *)
Definition leaf_eq (x y : thing) : bool :=
  match x, y with
  | TGen a, TGen b => Nat.eqb a b
  | _, _ => match py_eq [] 1 (bare x) (bare y) with Ok r => r | _ => false end
  end.

(** [x == y]; [same_object x y || i_eq x y] is what is asked of the items of containers. *)
Fixpoint i_eq (x y : thing) {struct x} : bool :=
  match x, y with
  | TList l, TList m =>
    (fix items (l m : list thing) : bool :=
       match l, m with
       | [], [] => true
       | x :: l', y :: m' => (same_object x y || i_eq x y) && items l' m'
       | _, _ => false
       end) l m
  | TDict d, TDict e =>
    Nat.eqb (length d) (length e)
    && (fix items (d : list (string * thing)) : bool :=
          match d with
          | [] => true
          | (k, x) :: d' =>
            match assoc e k with
            | None => false
            | Some y => (same_object x y || i_eq x y) && items d'
            end
          end) d
  | TList _, _ | _, TList _ | TDict _, _ | _, TDict _ => false
  | _, _ => leaf_eq x y
  end.
End Identity.
