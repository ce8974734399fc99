(** Words for hosts with different byte orders (C101). *)
From Verif Require Export SpecField Hosts.

(** The same declaration on two hosts: numbers of more than one byte say what byte order they have;
    strings have the same encoding on both hosts. *)
Inductive ported (h h' : endian) : field -> field -> Prop :=
| ported_integer : forall c sg given, given <> None \/ c_size c = SInt 1 ->
    ported h h' (Field c (integer_on h sg given)) (Field c (integer_on h' sg given))
| ported_float : forall c fmt given, given <> None ->
    ported h h' (Field c (float_on h fmt given)) (Field c (float_on h' fmt given))
| ported_timestamp : forall c r tz sg given, given <> None \/ c_size c = SInt 1 ->
    ported h h' (Field c (timestamp_on h r tz sg given)) (Field c (timestamp_on h' r tz sg given))
| ported_other : forall c k, match k with KVli _ _ | KBytes | KString _ _ | KStringZ _ _ | KUuid _ | KNested _ => True | _ => False end ->
    ported h h' (Field c k) (Field c k)
| ported_array : forall c comp comp' cnt halt, ported h h' comp comp' ->
    ported h h' (Field c (KArray comp cnt halt)) (Field c (KArray comp' cnt halt))
| ported_union : forall c chs chs' ld dmp, Forall2 (ported_choice h h') chs chs' ->
    ported h h' (Field c (KUnion chs ld dmp)) (Field c (KUnion chs' ld dmp))
with ported_choice (h h' : endian) : choice -> choice -> Prop :=
| ported_field : forall f f', ported h h' f f' -> ported_choice h h' (CField f) (CField f')
| ported_struct : forall cid, ported_choice h h' (CStruct cid) (CStruct cid).

Definition ported_class (h h' : endian) (k k' : classdef) : Prop :=
  Forall2 (fun nf nf' => fst nf = fst nf' /\ ported h h' (snd nf) (snd nf')) (k_comps k) (k_comps k')
  /\ k_fvals k = k_fvals k' /\ k_svals k = k_svals k'.
Definition ported_env (h h' : endian) (E E' : env) : Prop := Forall2 (ported_class h h') E E'.
