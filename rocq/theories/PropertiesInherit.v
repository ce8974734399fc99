(** Property theorems about subclasses and their base classes (C81). *)
From Coq Require Import ZArith List String.
From Verif Require Import InheritProofs InheritWitness Samples Decl DeclWitness.
Import ListNotations.
Open Scope string_scope.
Open Scope list_scope.

(** C81: a class created with a base has its fields and validators, followed by its own. *)
Theorem C81_created : forall E n name b meta ns k, well_formed (cls E b) ->
  create_class E n name [b] meta ns = Ok k ->
  forall E' cs cb, cls E' cs = k -> cls E' cb = cls E b -> extends E' cs cb.
Proof. exact created_extends. Qed.
Print Assumptions C81_created.

Theorem C81_dataclass : forall native E n name b meta ns k hs attr k', well_formed (cls E b) ->
  create_class E n name [b] meta ns = Ok k -> dataclass native E n k hs attr = Ok k' ->
  forall E' cs cb, cls E' cs = k' -> cls E' cb = cls E b -> extends E' cs cb.
Proof. exact dataclass_extends. Qed.
Print Assumptions C81_dataclass.

(** C81: data a subclass loads starts with data its base class loads, giving the same values
    for the fields they share. *)
Theorem C81_load : forall E cs cb n ctx s s' vals, extends E cs cb ->
  well_formed (cls E cs) -> well_formed (cls E cb) -> validators_closed (cls E cb) ->
  struct_from_stream E n cs ctx [] s = (s', Ok vals) ->
  exists s1, struct_from_stream E n cb ctx [] s = (s1, Ok (part (map fst (k_comps (cls E cb))) vals))
    /\ exists own d d', k_comps (cls E cs) = k_comps (cls E cb) ++ own
         /\ loads E n ctx (k_comps (cls E cb)) [] s d s1 /\ loads E n ctx own d s1 d' s'.
Proof. exact load_part. Qed.
Print Assumptions C81_load.

(** C81: a field of the base class reads the same for an instance of the subclass. *)
Theorem C81_read : forall E cs cb n vals, extends E cs cb -> well_formed (cls E cb) -> closed (cls E cb) ->
  forall name, In name (map fst (k_comps (cls E cb))) ->
  struct_get E n cs vals name = struct_get E n cb (part (map fst (k_comps (cls E cb))) vals) name.
Proof. exact struct_get_part. Qed.
Print Assumptions C81_read.

(** C81: to_dict of an instance of the subclass contains that of the base class. *)
Theorem C81_to_dict : forall E cs cb, extends E cs cb ->
  well_formed (cls E cs) -> well_formed (cls E cb) -> closed (cls E cb) ->
  forall n vals keep d, instance_of E cs vals -> to_dict E n cs vals keep = Ok d ->
  to_dict E n cb (part (map fst (k_comps (cls E cb))) vals) keep = Ok (part (map fst (k_comps (cls E cb))) d).
Proof. exact to_dict_part. Qed.
Print Assumptions C81_to_dict.

(** C81: the dump of an instance of the subclass starts with the dump of the base class. *)
Theorem C81_dump : forall E cs cb, extends E cs cb ->
  well_formed (cls E cs) -> well_formed (cls E cb) -> closed (cls E cb) ->
  forall n vals ctx out, instance_of E cs vals -> struct_to_stream E n cs vals ctx = (out, Ok tt) ->
  exists out1 out2, out = out1 ++ out2
    /\ struct_to_stream E n cb (part (map fst (k_comps (cls E cb))) vals) ctx = (out1, Ok tt).
Proof. exact dump_part. Qed.
Print Assumptions C81_dump.

(** The base class must not look beyond its own fields: a field that counts the fields of the
    struct is dumped differently. *)
Theorem C81_must_be_closed :
  extends countings 1 0 /\ well_formed (cls countings 0) /\ well_formed (cls countings 1)
  /\ struct_to_bytes countings 9 1 [("x", VInt 7)] VNone = Ok [1; 7]%Z
  /\ struct_to_bytes countings 9 0 [] VNone = Ok [0]%Z.
Proof. exact counting_differs. Qed.
Print Assumptions C81_must_be_closed.

Example C81_example :
  (exists k, create_class AB_E 5 "C" [1%nat] None [("q", IField uint8)] = Ok k
     /\ map fst (k_comps k) = ["a"; "w"; "t"; "z"; "q"])
  /\ (extends messages 1 0 /\ closed (cls messages 0))
  /\ struct_to_stream messages 9 1 [("sum", VInt 3); ("body", VBytes [1; 2]%Z)] VNone = ([2; 1; 2; 3]%Z, Ok tt)
  /\ struct_to_stream messages 9 0 [("body", VBytes [1; 2]%Z)] VNone = ([2; 1; 2]%Z, Ok tt)
  /\ struct_from_stream messages 9 1 VNone [] (mkStream [2; 1; 2; 3]%Z 0)
     = (mkStream [2; 1; 2; 3]%Z 4, Ok [("size", VInt 2); ("body", VBytes [1; 2]%Z); ("sum", VInt 3)])
  /\ struct_from_stream messages 9 0 VNone [] (mkStream [2; 1; 2; 3]%Z 0)
     = (mkStream [2; 1; 2; 3]%Z 3, Ok [("size", VInt 2); ("body", VBytes [1; 2]%Z)]).
Proof.
  split; [eexists; split; [vm_compute; reflexivity|reflexivity]|].
  split; [exact (conj messages_extends messages_closed)|]. vm_compute. auto.
Qed.
