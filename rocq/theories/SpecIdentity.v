(** Words for comparing structs with identity (C110). *)
From Verif Require Export SpecEq Identity.

Section Words.
Variable floats : nat -> Z.
Variable gens : nat -> list value.
Local Notation bare := (bare floats gens).

(** Data as it can be: keys are unique, floats are doubles. *)
Inductive sound : thing -> Prop :=
| sound_atom : forall v, atom v -> sound (TAtom v)
| sound_int : forall z, sound (TInt z)
| sound_float : forall a, pattern double (floats a) -> sound (TFloat a)
| sound_gen : forall a, sound (TGen a)
| sound_list : forall l, (forall x, In x l -> sound x) -> sound (TList l)
| sound_dict : forall d, NoDup (map fst d) -> (forall k x, In (k, x) d -> sound x) -> sound (TDict d).

Definition without_parts (x : thing) : Prop := match x with TList _ | TDict _ => False | _ => True end.

(** The same data, where a float or a generator is also the same as itself. *)
Inductive alike : thing -> thing -> Prop :=
| alike_float : forall a, alike (TFloat a) (TFloat a)
| alike_gen : forall a, alike (TGen a) (TGen a)
| alike_leaf : forall x y, without_parts x -> without_parts y -> same (bare x) (bare y) -> alike x y
| alike_list : forall l m, length l = length m ->
    (forall i x y, nth_error l i = Some x -> nth_error m i = Some y -> alike x y) -> alike (TList l) (TList m)
| alike_dict : forall d e, (forall k, assoc d k = None <-> assoc e k = None) ->
    (forall k x y, assoc d k = Some x -> assoc e k = Some y -> alike x y) -> alike (TDict d) (TDict e).

(** The NaNs and generators in it: the objects that would not be equal to a copy of themselves. *)
Inductive odd : thing -> thing -> Prop :=
| odd_float : forall a, is_nan double (floats a) -> odd (TFloat a) (TFloat a)
| odd_gen : forall a, odd (TGen a) (TGen a)
| odd_list : forall l x o, In x l -> odd x o -> odd (TList l) o
| odd_dict : forall d k x o, In (k, x) d -> odd x o -> odd (TDict d) o.
Definition unshared (x y : thing) : Prop := forall o, odd x o -> ~ odd y o.

(** The contents that are compared, with the objects they consist of. *)
Definition contents (E : env) (v : value) (t : list (string * thing)) : Prop :=
  sound (TDict t) /\ exists n d, view E n v d /\ bare (TDict t) = VDict d.
End Words.
