(** What a subclass shares with its base class. *)
From Coq Require Import List String.
From Verif Require Export StructModel Spec SpecField.
Import ListNotations.

(** [cs] has the fields and validators of [cb], followed by its own. *)
Definition extends (E : env) (cs cb : nat) : Prop :=
  (exists own, k_comps (cls E cs) = k_comps (cls E cb) ++ own)
  /\ (forall name methods, In (name, methods) (k_fvals (cls E cb)) ->
        exists more, In (name, methods ++ more) (k_fvals (cls E cs)))
  /\ exists more, k_svals (cls E cs) = k_svals (cls E cb) ++ more.

(** A callable that looks at nothing but the fields [names]. *)
Inductive looks_at {A} (names : list string) : query A -> Prop :=
| looks_ret : forall a, looks_at names (QRet a)
| looks_raise : forall e, looks_at names (QRaise e)
| looks_in : forall name k, In name names -> (forall b, looks_at names (k b)) -> looks_at names (QIn name k)
| looks_get : forall name k, In name names -> (forall r, looks_at names (k r)) -> looks_at names (QGet name k).

(** The values of the fields [names]. *)
Definition part (names : list string) (d : dict) : dict :=
  filter (fun kv => existsb (String.eqb (fst kv)) names) d.

(** Dicts that agree about the fields [names]. *)
Definition agree (names : list string) (d d' : dict) : Prop :=
  forall name, In name names -> dget d name = dget d' name.

(** A field whose dump depends on no other fields than [names]. *)
Definition size_within (names : list string) (c : fconf) : Prop :=
  match c_size c with
  | SInt _ => True
  | SNone => match c_name c with Some name => In name names | None => True end
  | SRef name => In name names
  end.
Inductive self_contained (names : list string) : field -> Prop :=
| contained_leaf : forall c k, (match k with KArray _ _ _ | KNested _ | KUnion _ _ _ => False | _ => True end) -> size_within names c -> self_contained names (Field c k)
| contained_array : forall c comp cnt halt, size_within names c ->
    (forall name, cnt = CntRef name -> In name names) -> self_contained names comp ->
    self_contained names (Field c (KArray comp cnt halt))
| contained_nested : forall c cid, size_within names c -> self_contained names (Field c (KNested cid))
| contained_union : forall c choices ld dd, size_within names c ->
    (forall v ctx d d', agree names d d' -> dd v ctx d = dd v ctx d') ->
    (forall g, In (CField g) choices -> self_contained names g) ->
    self_contained names (Field c (KUnion choices ld dd)).

(** A class none of whose callables look beyond its own fields. *)
Definition validators_closed (k : classdef) : Prop :=
  let names := map fst (k_comps k) in
  (forall name methods q v, In (name, methods) (k_fvals k) -> In q methods -> looks_at names (q v))
  /\ forall q, In q (k_svals k) -> looks_at names q.
Definition closed (k : classdef) : Prop :=
  let names := map fst (k_comps k) in
  validators_closed k
  /\ forall name f, In (name, f) (k_comps k) ->
       self_contained names f
       /\ (forall ctx s, looks_at names (c_present (conf f) ctx s))
       /\ forall q, c_compute (conf f) = Some q -> looks_at names q.
