(** Words for the number of calls of compute, [present] and factory functions (C100). *)
From Coq Require Import String Ascii.
From Verif Require Export SpecMoods Samples.
Open Scope list_scope.

(** Callables that do not change their minds. *)
Definition steadily (t : nat) (c : fconf) : fconf := c.

(** Values are set for all fields. *)
Definition all_set (E : env) (cid : nat) (vals : dict) : Prop :=
  forall name f, In (name, f) (k_comps (cls E cid)) -> exists v, dget vals name = Some v /\ v <> VUndefined.

(** Fields "x", "xx", "xxx" and so on: the first is computed from nothing, each other one from the
    one before, which it reads twice. *)
Fixpoint xs (k : nat) : string := match k with O => "x"%string | S k' => String "x"%char (xs k') end.
Definition twice (name : string) : query value :=
  QGet name (fun r => match r with
                      | inl _ => QGet name (fun r => match r with inl v => QRet v | inr e => QRaise e end)
                      | inr e => QRaise e
                      end).
Definition link (k : nat) : field :=
  u8 (with_compute (match k with O => QRet (VInt 0) | S j => twice (xs j) end) (byte (xs k))).
Definition chain (m : nat) : list (string * field) := map (fun k => named (xs k) (link k)) (seq 0 m).
Definition chain_env (m : nat) : env := [class_of "Chain"%string (chain m)].
