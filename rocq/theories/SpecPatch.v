(** Which fields a change of some values can affect. *)
From Coq Require Import List String.
From Verif Require Export SpecAccess SpecInherit.
Import ListNotations.

(** Fields [names] of a class that depend on no other fields than each other. *)
Definition independent (k : classdef) (names : list string) : Prop :=
  forall name f, In (name, f) (k_comps k) -> In name names ->
    self_contained names f
    /\ (forall ctx s, looks_at names (c_present (conf f) ctx s))
    /\ forall q, c_compute (conf f) = Some q -> looks_at names q.

(** The names of all fields but one. *)
Definition others (k : classdef) (name : string) : list string :=
  filter (fun x => negb (String.eqb x name)) (map fst (k_comps k)).
