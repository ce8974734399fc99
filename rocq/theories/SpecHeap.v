(** Words for what is shared (C93). *)
From Coq Require Import String List.
From Verif Require Export Heap.
Open Scope string_scope.
Open Scope list_scope.

(** ** Reachable objects and what they look like *)

Definition refs (c : cell) : list obj :=
  match c with CList l => l | CDict d => map snd d | CBuf _ => [] | CStruct _ d => map snd d end.

Inductive reach (h : heap) : obj -> nat -> Prop :=
| reach_here a : reach h (ORef a) a
| reach_more a c o b : nth_error h a = Some c -> In o (refs c) -> reach h o b -> reach h (ORef a) b.

(** There are no dangling references. *)
Definition ref_ok (h : heap) (o : obj) : Prop := match o with OVal _ => True | ORef a => (a < length h)%nat end.
Definition closed_heap (h : heap) : Prop := forall c, In c h -> forall o, In o (refs c) -> ref_ok h o.

(** The value of an object, to the given depth. *)
Fixpoint all_some {A} (l : list (option A)) : option (list A) :=
  match l with
  | [] => Some []
  | Some x :: l' => match all_some l' with Some xs => Some (x :: xs) | None => None end
  | None :: _ => None
  end.

Fixpoint view (n : nat) (h : heap) (o : obj) : option value :=
  match n with
  | O => None
  | S n' =>
    match o with
    | OVal v => Some v
    | ORef a =>
      match nth_error h a with
      | None => None
      | Some (CList l) => option_map VList (all_some (map (view n' h) l))
      | Some (CBuf b) => Some (VBytes b)
      | Some (CDict d) => option_map (fun vs => VDict (combine (map fst d) vs)) (all_some (map (fun x => view n' h (snd x)) d))
      | Some (CStruct cid d) =>
        option_map (fun vs => VStruct cid (combine (map fst d) vs)) (all_some (map (fun x => view n' h (snd x)) d))
      end
    end
  end.

(** Callables create objects, and leave the others alone. *)
Definition grows (f : hfield) : Prop :=
  forall fn, hf_compute f = Some fn -> forall h a, closed_heap h -> (a < length h)%nat ->
    exists new, fst (fn h a) = h ++ new /\ closed_heap (h ++ new) /\ ref_ok (h ++ new) (snd (fn h a)).

(** The defaults of the class exist. *)
Definition class_ok (classes : nat -> list hfield) (h : heap) : Prop :=
  forall cid f, In f (classes cid) -> grows f /\ ref_ok h (hf_default f).

Definition good_heap (classes : nat -> list hfield) (h : heap) : Prop := closed_heap h /\ class_ok classes h.

(** No struct is reachable. *)
Definition no_structs (h : heap) (o : obj) : Prop := forall a cid d, reach h o a -> nth_error h a <> Some (CStruct cid d).

(** The object a field has in an instance before [present] is asked: the one stored, else the
    default, else what is computed. *)
Definition unset (values : list (string * obj)) (name : string) : Prop :=
  assoc values name = None \/ exists o, assoc values name = Some o /\ undefined o = true.

Inductive given (f : hfield) (h : heap) (a : nat) (values : list (string * obj)) : heap -> obj -> Prop :=
| given_stored o : assoc values (hf_name f) = Some o -> undefined o = false -> given f h a values h o
| given_default : unset values (hf_name f) -> undefined (hf_default f) = false -> given f h a values h (hf_default f)
| given_computed fn h' o : unset values (hf_name f) -> undefined (hf_default f) = true -> hf_compute f = Some fn ->
    fn h a = (h', o) -> given f h a values h' o
| given_nothing : unset values (hf_name f) -> undefined (hf_default f) = true -> hf_compute f = None ->
    given f h a values h (OVal VUndefined).

(** What dumping makes of it. *)
Inductive dumped_as (f : hfield) (h : heap) (a : nat) : obj -> res obj -> Prop :=
| dumped_absent o : o = OVal VNotPresent \/ hf_present f h a = false -> dumped_as f h a o (Ok (OVal VNotPresent))
| dumped_missing : hf_present f h a = true -> dumped_as f h a (OVal VUndefined) (Raise (EMissingRequired (Some (hf_name f))))
| dumped_present o : hf_present f h a = true -> o <> OVal VNotPresent -> o <> OVal VUndefined -> dumped_as f h a o (Ok o).
