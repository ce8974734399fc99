(** Words for classes with constructors of their own (C107). *)
From Coq Require Import String List.
From Verif Require Export Constructors SpecAccess.
Import ListNotations.

(** A class that has [Struct]'s constructor. *)
Definition ordinary (E : env) (K : constructors) (cid : nat) : Prop := forall kw, K cid kw = struct_init E cid kw.

(** The dictionary without some keys. *)
Definition without (names : list string) (d : dict) : dict :=
  filter (fun kv => negb (existsb (String.eqb (fst kv)) names)) d.

(** [def __init__(self, *, x, ..., y=..., **values): super().__init__( **values)] with required
    arguments [x, ...] and optional arguments [y, ...] that are not names of fields. *)
Definition takes_arguments (E : env) (K : constructors) (cid : nat) (required optional : list string) : Prop :=
  (forall x, In x (required ++ optional) -> ~ In x (map fst (k_comps (cls E cid))))
  /\ forall kw, K cid kw = if forallb (dmem kw) required then struct_init E cid (without (required ++ optional) kw)
                           else Raise ETypeErr.

(** A field that constructs only structs of classes in [P]. *)
Inductive constructs (P : nat -> Prop) : field -> Prop :=
| constructs_leaf c k : match k with KArray _ _ _ | KNested _ | KUnion _ _ _ => False | _ => True end ->
    constructs P (Field c k)
| constructs_array c comp cnt halt : constructs P comp -> constructs P (Field c (KArray comp cnt halt))
| constructs_nested c cid : P cid -> constructs P (Field c (KNested cid))
| constructs_union c choices ld dmp : (forall g, In (CField g) choices -> constructs P g) ->
    (forall cid, In (CStruct cid) choices -> P cid) -> constructs P (Field c (KUnion choices ld dmp)).

(** Classes with constructors of their own are not contained in others. *)
Definition own_constructors_on_top (E : env) (K : constructors) : Prop :=
  forall cid name f, In (name, f) (k_comps (cls E cid)) -> constructs (ordinary E K) f.

(** The fields of a class do not look at the entries of [loaded_fields] with these names. *)
Definition unaware (E : env) (n cid : nat) (names : list string) : Prop :=
  forall name f ctx d s, In (name, f) (k_comps (cls E cid)) ->
    field_from_stream E n f ctx d s = field_from_stream E n f ctx (without names d) s.
