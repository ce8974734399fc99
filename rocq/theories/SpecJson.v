(** Words for JSON (C108). *)
From Coq Require Import String List ZArith.
From Verif Require Export Json SpecAccess SpecEnds SpecNum.
Import ListNotations.
Open Scope Z_scope.

(** Data made of None, numbers, text, lists and dictionaries; its scalars are in [R]. *)
Inductive json_data (R : value -> Prop) : value -> Prop :=
| json_scalar v : match v with VNone | VInt _ | VFloat _ | VStr _ => True | _ => False end -> R v -> json_data R v
| json_list l : Forall (json_data R) l -> json_data R (VList l)
| json_dict d : Forall (fun kv => json_data R (snd kv)) d -> json_data R (VDict d).

(** Any scalar. *)
Definition any_scalar (v : value) : Prop := True.
(** Numbers of at most 4300 digits. *)
Definition writable (v : value) : Prop := forall z, v = VInt z -> Z.abs z < 10 ^ 4300.
(** A high surrogate directly before a low one. *)
Definition split_pair (s : list Z) : Prop :=
  exists a hi lo b, s = a ++ hi :: lo :: b /\ 55296 <= hi <= 56319 /\ 56320 <= lo <= 57343.
(** Scalars that JSON keeps as they are. *)
Definition exact_scalar (v : value) : Prop :=
  match v with
  | VInt z => Z.abs z < 10 ^ 4300
  | VFloat x => is_nan double x -> x = 9221120237041090560
  | VStr s => ~ split_pair s
  | _ => True
  end.

(** Such data with Struct instances of classes in [Q]. *)
Inductive json_ready (R : value -> Prop) (Q : nat -> Prop) : value -> Prop :=
| ready_scalar v : match v with VNone | VInt _ | VFloat _ | VStr _ => True | _ => False end -> R v -> json_ready R Q v
| ready_list l : Forall (json_ready R Q) l -> json_ready R Q (VList l)
| ready_dict d : Forall (fun kv => json_ready R Q (snd kv)) d -> json_ready R Q (VDict d)
| ready_struct cid d : Q cid -> Forall (fun kv => json_ready R Q (snd kv)) d -> json_ready R Q (VStruct cid d).

(** What a field supplies when it has no value. *)
Definition supplies (P : value -> Prop) (c : fconf) : Prop :=
  (c_default c = VUndefined \/ P (c_default c))
  /\ (forall v, c_factory c = Some (inl v) -> P v)
  /\ forall q, c_compute c = Some q -> returns P q.

(** The halt check gives back some of the values it was given. *)
Definition halts_within (halt : option haltfn) : Prop :=
  forall h s l ctx d b l', halt = Some h -> h s l ctx d = Ok (b, l') -> incl l' l.

(** Leaf fields in [L], arrays of them, structs of classes in [Q], and unions of all these. *)
Inductive json_field (L : fconf -> fkind -> Prop) (Q : nat -> Prop) : field -> Prop :=
| jf_leaf c k : match k with KArray _ _ _ | KNested _ | KUnion _ _ _ => False | _ => True end ->
    L c k -> json_field L Q (Field c k)
| jf_array c comp cnt halt : json_field L Q comp -> unconditional (conf comp) -> halts_within halt ->
    json_field L Q (Field c (KArray comp cnt halt))
| jf_nested c cid : Q cid -> json_field L Q (Field c (KNested cid))
| jf_union c choices ld dmp : (forall g, In (CField g) choices -> json_field L Q g) ->
    (forall cid, In (CStruct cid) choices -> Q cid) -> json_field L Q (Field c (KUnion choices ld dmp)).

(** Numbers and text. *)
Definition numbers_and_text (c : fconf) (k : fkind) : Prop :=
  match k with KInt _ _ | KVli _ _ | KFloat _ _ | KString _ _ | KStringZ _ _ => True | _ => False end.
(** Integers of at most 1785 bytes, floats and text. *)
Definition limited_numbers (c : fconf) (k : fkind) : Prop :=
  match k with
  | KInt _ _ => exists n, c_size c = SInt n /\ 0 <= n <= 1785
  | KFloat _ _ | KString _ _ | KStringZ _ _ => True
  | _ => False
  end.
(** A codec that decodes no surrogates; all but code pages with surrogates in their table. *)
Definition no_surrogates (cd : codec) : Prop :=
  match cd with Charmap t => forall cp, In (Some cp) t -> ~ (55296 <= cp <= 57343) | _ => True end.
(** Integers of at most 1785 bytes, and text. *)
Definition exact_leaves (c : fconf) (k : fkind) : Prop :=
  match k with
  | KInt _ _ => exists n, c_size c = SInt n /\ 0 <= n <= 1785
  | KString cd _ | KStringZ cd _ => no_surrogates cd
  | _ => False
  end.

(** The classes in [Q] have such fields, none of them conditional. Discarded fields may be of any kind. *)
Definition json_classes (E : env) (R : value -> Prop) (L : fconf -> fkind -> Prop) (Q : nat -> Prop) : Prop :=
  forall cid, Q cid -> well_formed (cls E cid) /\
    forall name f, In (name, f) (k_comps (cls E cid)) ->
      unconditional (conf f) /\ supplies (json_ready R Q) (conf f)
      /\ (c_discard (conf f) = false -> json_field L Q f).
