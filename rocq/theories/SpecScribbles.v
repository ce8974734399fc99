(** Words for callables that write into the dictionary of loaded fields (C105). *)
From Coq Require Import String.
From Verif Require Export SpecField Scribbles.

(** Every callable leaves a dictionary that is related in this way to the one it got. *)
Definition all_scribbles (R : dict -> dict -> Prop) (W : scribbles) : Prop :=
  (forall c ctx d s, R d (sb_present W c ctx d s))
  /\ (forall c values ctx d s, R d (sb_halt W c values ctx d s))
  /\ (forall c ctx d s, R d (sb_decide W c ctx d s)).

(** Nobody writes; nobody changes or removes an entry. *)
Definition idle (W : scribbles) : Prop := all_scribbles (fun d d' => d' = d) W.
Definition extends (d d' : dict) : Prop := forall k v, dget d k = Some v -> dget d' k = Some v.
Definition adds_only (W : scribbles) : Prop := all_scribbles extends W.

(** A field that contains no other. *)
Definition lone_kind (k : fkind) : Prop := match k with KArray _ _ _ | KNested _ | KUnion _ _ _ => False | _ => True end.

(** How an array with a count is loaded: the count is looked up in the dictionary that the last
    element has left. *)
Inductive recounting (E : env) (W : scribbles) (n : nat) (comp : field) (name : string) (ctx : value)
  : list value -> dict -> stream -> list value -> dict -> stream -> Prop :=
| recounting_end : forall vs d s z, dget d name = Some (VInt z) -> (z <= Z.of_nat (List.length vs))%Z ->
    recounting E W n comp name ctx vs d s vs d s
| recounting_more : forall vs d s z d1 s1 v vf df sf, dget d name = Some (VInt z) -> (Z.of_nat (List.length vs) < z)%Z ->
    w_field_from_stream E W n comp ctx d s = (s1, d1, Ok v) ->
    recounting E W n comp name ctx (match v with VNotPresent => vs | _ => vs ++ [v] end) d1 s1 vf df sf ->
    recounting E W n comp name ctx vs d s vf df sf.
