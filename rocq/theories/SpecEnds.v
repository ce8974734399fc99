(** Specification vocabulary for the termination of dumps: what the values contain, what the
    callables read and return. *)
From Verif Require Export SpecField.

(** Every Struct instance inside [v] is of a class in [P]; none is inside a generator. *)
Inductive tame : (nat -> Prop) -> value -> Prop :=
| tame_scalar : forall P v,
    match v with VList _ | VGen _ | VDict _ | VStruct _ _ => False | _ => True end -> tame P v
| tame_list : forall P l, Forall (tame P) l -> tame P (VList l)
| tame_gen : forall P l, Forall (tame (fun _ => False)) l -> tame P (VGen l)
| tame_dict : forall P d, Forall (fun kv => tame P (snd kv)) d -> tame P (VDict d)
| tame_struct : forall (P : nat -> Prop) cid d, P cid -> Forall (fun kv => tame P (snd kv)) d ->
    tame P (VStruct cid d).

(** Nothing but: no Struct instance inside a generator. *)
Definition any_value (v : value) : Prop := tame (fun _ => True) v.
Definition any_values (d : dict) : Prop := Forall (fun kv => any_value (snd kv)) d.

(** A callable reads only the fields in [S]. *)
Inductive asks {A} (S : string -> Prop) : query A -> Prop :=
| asks_ret : forall a, asks S (QRet a)
| asks_raise : forall e, asks S (QRaise e)
| asks_in : forall name k, (forall b, asks S (k b)) -> asks S (QIn name k)
| asks_get : forall name k, S name -> (forall r, asks S (k r)) -> asks S (QGet name k)
| asks_keys : forall k, (forall l, asks S (k l)) -> asks S (QKeys k).

(** A callable returns values in [P], or a value it has read. *)
Inductive returns : (value -> Prop) -> query value -> Prop :=
| returns_value : forall (P : value -> Prop) v, P v -> returns P (QRet v)
| returns_raise : forall P e, returns P (QRaise e)
| returns_in : forall P name k, (forall b, returns P (k b)) -> returns P (QIn name k)
| returns_get : forall (P : value -> Prop) name k, (forall v, returns (fun x => P x \/ x = v) (k (inl v))) ->
    (forall e, returns P (k (inr e))) -> returns P (QGet name k)
| returns_keys : forall P k, (forall l, returns P (k l)) -> returns P (QKeys k).

(** The validators return or raise; the default, what the factory makes and the null value
    contain only instances of classes in [P]. *)
Definition harmless (P : nat -> Prop) (c : fconf) : Prop :=
  (forall check v, In check (c_validators c) -> check v <> OOF)
  /\ tame P (c_default c) /\ tame P (c_null c)
  /\ forall v, c_factory c = Some (inl v) -> tame P v.

(** Classes refer only to classes in [P]; deciders return or raise. *)
Inductive nests (P : nat -> Prop) : field -> Prop :=
| nests_leaf : forall c k, harmless P c ->
    match k with KArray _ _ _ | KNested _ | KUnion _ _ _ => False | _ => True end ->
    nests P (Field c k)
| nests_array : forall c comp cnt halt, harmless P c -> nests P comp ->
    nests P (Field c (KArray comp cnt halt))
| nests_nested : forall c cid, harmless P c -> P cid -> nests P (Field c (KNested cid))
| nests_union : forall c choices ld dd, harmless P c -> (forall v ctx d, dd v ctx d <> OOF) ->
    (forall g, In (CField g) choices -> nests P g) ->
    (forall cid, In (CStruct cid) choices -> P cid) ->
    nests P (Field c (KUnion choices ld dd)).

(** No circles: every class has a [rank] above those of the classes its fields, defaults and
    computed values refer to, and every field of a class a [depth] above those of the fields
    that its computing function and its [present] function read. *)
Definition no_circles (E : env) (rank : nat -> nat) (depth : nat -> string -> nat) : Prop :=
  forall cid, well_formed (cls E cid) /\
    forall name f, In (name, f) (k_comps (cls E cid)) ->
      nests (fun c => (rank c < rank cid)%nat) f
      /\ (forall ctx so, asks (fun x => (depth cid x < depth cid name)%nat) (c_present (conf f) ctx so))
      /\ forall q, c_compute (conf f) = Some q ->
           asks (fun x => (depth cid x < depth cid name)%nat) q
           /\ returns (tame (fun c => (rank c < rank cid)%nat)) q.
