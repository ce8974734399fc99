(** Words for files with several structs (C112). *)
From Verif Require Export SpecRound.

(** Structs dumped one after the other into the same stream; of each, its class, what [to_dict] gives,
    and where it ends. *)
Inductive recorded (E : env) : list (nat * dict) -> list Z -> Prop :=
| recorded_nil : recorded E [] []
| recorded_cons : forall n cid vals ctx bs d l out,
    instance_of E cid vals -> struct_to_stream E n cid vals ctx = (bs, Ok tt) -> to_dict E n cid vals false = Ok d ->
    holds_struct E false cid d -> recorded E l out -> recorded E ((cid, d) :: l) (bs ++ out).

(** [[c.from_stream(stream) for c in classes]]: structures.py:474-517. *)
Fixpoint read_each (E : env) (n : nat) (classes : list nat) (ctx : value) : loader (list (nat * dict)) :=
  match classes with
  | [] => lret []
  | cid :: classes =>
    ldo vals <- struct_from_stream E n cid ctx [];
    ldo rest <- read_each E n classes ctx;
    lret ((cid, vals) :: rest)
  end.

(** The same class, and the same data when converted with any sufficient fuel. *)
Definition read_back (E : env) (before after : nat * dict) : Prop :=
  fst after = fst before /\ instance_of E (fst after) (snd after)
  /\ exists N d', same_data (VDict (snd before)) (VDict d') /\ forall n, (N <= n)%nat -> to_dict E n (fst after) (snd after) false = Ok d'.
