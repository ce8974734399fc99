(** Specification vocabulary for structs written and read in part. *)
From Coq Require Import String ZArith List.
From Verif Require Export SpecRound SpecOld.
Import ListNotations.
Open Scope Z_scope.

(** The fields [fs], with values stored in [vals] or by default, are among those the round trip is
    claimed for (C27), without referring to other fields; [last]: nothing follows them. *)
Definition alone (E : env) (last : bool) (vals : dict) (fs : list (string * field)) : Prop :=
  forall pre name f post v, fs = pre ++ (name, f) :: post -> own_value vals name (conf f) v ->
    c_discard (conf f) = false /\ suits E [] (at_end last post) [] f v.

(** [vals'] holds the values of the fields [fs] of [vals], up to the conversion of nested structs
    to dictionaries. *)
Definition reads_back (E : env) (vals : dict) (fs : list (string * field)) (vals' : dict) : Prop :=
  dkeys vals' = map fst fs
  /\ forall name f v, In (name, f) fs -> own_value vals name (conf f) v ->
       exists v' n u, dget vals' name = Some v' /\ recursive_to_dicts E n v' = Ok u /\ same_data v u.
