(** C86: Nested fields (fields/containers.py:332-376), alone and inside a struct.

    Vocabulary: SpecField.v ([accepts] — the validators accept the value — , [fits_size],
    [always_present], [unconditional], [instance_of], [validated]). *)
From Verif Require Import NestedProofs NestedWitness.
From Coq Require Import String ZArith List.
Import ListNotations.
Open Scope string_scope.
Open Scope list_scope.
Open Scope Z_scope.

(** ** The field alone *)

(** An instance of a struct is dumped by its own class, whichever class the field declares. *)
Theorem C86_instance : forall E n c cid cid' vals ctx d out, accepts c (VStruct cid' vals) ->
  field_to_stream E (S n) (Field c (KNested cid)) (VStruct cid' vals) ctx d = (out, Ok tt)
  <-> struct_to_stream E n cid' vals ctx = (out, Ok tt) /\ fits_size c d out.
Proof. exact nested_instance. Qed.
Print Assumptions C86_instance.

(** If that fails, its exception comes out and nothing is written. *)
Theorem C86_instance_fails : forall E n c cid cid' vals ctx d bs e, accepts c (VStruct cid' vals) ->
  struct_to_stream E n cid' vals ctx = (bs, Raise e) ->
  field_to_stream E (S n) (Field c (KNested cid)) (VStruct cid' vals) ctx d = ([], Raise e).
Proof. exact nested_instance_fails. Qed.
Print Assumptions C86_instance_fails.

(** A dictionary stands for an instance of the declared class. *)
Theorem C86_dict : forall E n c cid vals ctx d out, accepts c (VDict vals) ->
  field_to_stream E (S n) (Field c (KNested cid)) (VDict vals) ctx d = (out, Ok tt)
  <-> incl (dkeys vals) (map fst (k_comps (cls E cid)))
      /\ struct_to_stream E n cid vals ctx = (out, Ok tt) /\ fits_size c d out.
Proof. exact nested_dict. Qed.
Print Assumptions C86_dict.

(** Its other keys are all named by the exception. *)
Theorem C86_unknown : forall E n c cid vals ctx d name, accepts c (VDict vals) -> In name (dkeys vals) ->
  ~ In name (map fst (k_comps (cls E cid))) ->
  exists names, field_to_stream E (S n) (Field c (KNested cid)) (VDict vals) ctx d = ([], Raise (EUnexpectedValue names))
    /\ forall x, In x names <-> In x (dkeys vals) /\ ~ In x (map fst (k_comps (cls E cid))).
Proof. exact nested_unknown. Qed.
Print Assumptions C86_unknown.

(** Loading gives an instance of the declared class, loaded at the position of the field. *)
Theorem C86_load : forall E n c cid ctx d s s' v,
  always_present c -> c_null c = VUndefined -> c_const c = VUndefined ->
  field_from_stream E (S n) (Field c (KNested cid)) ctx d s = (s', Ok v)
  <-> exists vals, struct_from_stream E n cid ctx [] s = (s', Ok vals) /\ v = VStruct cid vals /\ accepts c v.
Proof. exact nested_load. Qed.
Print Assumptions C86_load.

Theorem C86_load_fails : forall E n c cid ctx d s s' e, always_present c -> c_null c = VUndefined ->
  struct_from_stream E n cid ctx [] s = (s', Raise e) ->
  field_from_stream E (S n) (Field c (KNested cid)) ctx d s = (s', Raise (set_field (c_name c) e)).
Proof. exact nested_load_fails. Qed.
Print Assumptions C86_load_fails.

(** ** The field in a struct *)

(** There the instance is turned into a dictionary first, and the declared class dumps that. *)
Theorem C86_in_struct : forall E n cid vals ctx out name c inner cid' nv, instance_of E cid vals ->
  In (name, Field c (KNested inner)) (k_comps (cls E cid)) -> unconditional c -> c_discard c = false ->
  dget vals name = Some (VStruct cid' nv) ->
  struct_to_stream E (S n) cid vals ctx = (out, Ok tt) ->
  exists dn before bs after, to_dict E n cid' nv false = Ok dn
    /\ incl (dkeys dn) (map fst (k_comps (cls E inner)))
    /\ struct_to_stream E n inner dn ctx = (bs, Ok tt) /\ out = before ++ bs ++ after.
Proof. exact nested_in_struct. Qed.
Print Assumptions C86_in_struct.

(** So a dump succeeds only if the declared class has all fields of the instance's class. *)
Theorem C86_in_struct_fields : forall E n cid vals ctx out name c inner cid' nv x f,
  instance_of E cid vals -> instance_of E cid' nv ->
  In (name, Field c (KNested inner)) (k_comps (cls E cid)) -> unconditional c -> c_discard c = false ->
  dget vals name = Some (VStruct cid' nv) ->
  struct_to_stream E n cid vals ctx = (out, Ok tt) ->
  In (x, f) (k_comps (cls E cid')) -> c_discard (conf f) = false -> In x (map fst (k_comps (cls E inner))).
Proof. exact nested_fields. Qed.
Print Assumptions C86_in_struct_fields.

(** For an instance of the declared class it is the dump of the instance, when the class can be
    rebuilt from its dictionary (C64). *)
Theorem C86_in_struct_same : forall E n cid vals ctx out name c inner nv d,
  instance_of E cid vals -> instance_of E inner nv ->
  In (name, Field c (KNested inner)) (k_comps (cls E cid)) -> unconditional c -> c_discard c = false ->
  dget vals name = Some (VStruct inner nv) ->
  to_dict E n inner nv false = Ok d ->
  (forall name f x, In (name, f) (k_comps (cls E inner)) -> dget d name = Some x ->
     x <> VNotPresent -> run_struct E n inner d (c_present (conf f) VNone None) = Ok true) ->
  (forall name f, In (name, f) (k_comps (cls E inner)) -> c_discard (conf f) = true ->
     exists v, run_struct E n inner d (compute_value_for_dump (conf f) VNone) = Ok v) ->
  validated E n inner nv -> validated E n inner d ->
  struct_to_stream E (S n) cid vals ctx = (out, Ok tt) ->
  exists before bs after, struct_to_stream E n inner nv ctx = (bs, Ok tt) /\ out = before ++ bs ++ after.
Proof. exact nested_same_class. Qed.
Print Assumptions C86_in_struct_same.

(** The claim one would expect fails: an instance of another class whose dump the field alone
    writes is refused in a struct, or written there in another form. *)
Theorem C86_own_class_refuted :
  ~ (forall E n cid vals ctx name c inner cid' nv out, instance_of E cid vals ->
       k_comps (cls E cid) = [(name, Field c (KNested inner))] -> unconditional c -> c_discard c = false ->
       dget vals name = Some (VStruct cid' nv) ->
       field_to_stream E n (Field c (KNested inner)) (VStruct cid' nv) ctx vals = (out, Ok tt) ->
       struct_to_stream E (S n) cid vals ctx = (out, Ok tt))
  /\ ~ (forall E n cid vals ctx name c inner cid' nv out out', instance_of E cid vals ->
       k_comps (cls E cid) = [(name, Field c (KNested inner))] -> unconditional c -> c_discard c = false ->
       dget vals name = Some (VStruct cid' nv) ->
       field_to_stream E n (Field c (KNested inner)) (VStruct cid' nv) ctx vals = (out, Ok tt) ->
       struct_to_stream E (S n) cid vals ctx = (out', Ok tt) -> out' = out).
Proof. exact (conj wide_refutes other_refutes). Qed.
Print Assumptions C86_own_class_refuted.

(** ** Non-vacuity *)

Example C86_example_alone : forall n ctx d, (8 <= n)%nat ->
  field_to_stream nested_E n the_field wide_one ctx d = ([97; 0; 7], Ok tt)
  /\ field_to_stream nested_E n the_field other_one ctx d = ([97; 0; 0; 0], Ok tt).
Proof. exact nested_alone. Qed.

Example C86_example_in : forall n ctx, (8 <= n)%nat ->
  struct_to_stream nested_E n 3 [("p", wide_one)] ctx = ([], Raise (EUnexpectedValue ["y"]))
  /\ struct_to_stream nested_E n 3 [("p", other_one)] ctx = ([97; 0], Ok tt).
Proof. exact nested_in. Qed.

Example C86_example_field : In ("p", the_field) (k_comps (cls nested_E 3)) /\ kind the_field = KNested 0
  /\ unconditional (conf the_field) /\ c_discard (conf the_field) = false
  /\ accepts (conf the_field) wide_one /\ accepts (conf the_field) other_one.
Proof. exact the_field_is. Qed.

Example C86_example_instances :
  instance_of nested_E 3 [("p", wide_one)] /\ instance_of nested_E 1 [("s", VStr [97]); ("y", VInt 7)].
Proof. exact nested_instances. Qed.

Example C86_example_dict : forall n ctx d, (8 <= n)%nat ->
  field_to_stream nested_E n the_field (VDict [("s", VStr [97])]) ctx d = ([97; 0], Ok tt).
Proof. exact nested_dict_example. Qed.

Example C86_example_unknown : accepts (conf the_field) (VDict [("s", VStr [97]); ("y", VInt 7)])
  /\ ~ In "y" (map fst (k_comps (cls nested_E 0))).
Proof. exact nested_unknown_example. Qed.

Example C86_example_load : forall n ctx, (8 <= n)%nat ->
  field_from_stream nested_E n the_field ctx [] (mkStream [97; 0; 7] 0)
  = (mkStream [97; 0; 7] 2, Ok (VStruct 0 [("s", VStr [97])])).
Proof. exact nested_loads. Qed.

(** The hypotheses of [C86_in_struct_same] for an instance of the base class. *)
Example C86_example_same :
  instance_of nested_E 3 [("p", VStruct 0 [("s", VStr [97])])] /\ instance_of nested_E 0 [("s", VStr [97])]
  /\ to_dict nested_E 8 0 [("s", VStr [97])] false = Ok [("s", VStr [97])]
  /\ (forall name f x, In (name, f) (k_comps (cls nested_E 0)) -> dget [("s", VStr [97])] name = Some x ->
        x <> VNotPresent -> run_struct nested_E 8 0 [("s", VStr [97])] (c_present (conf f) VNone None) = Ok true)
  /\ (forall name f, In (name, f) (k_comps (cls nested_E 0)) -> c_discard (conf f) = true ->
        exists v, run_struct nested_E 8 0 [("s", VStr [97])] (compute_value_for_dump (conf f) VNone) = Ok v)
  /\ validated nested_E 8 0 [("s", VStr [97])]
  /\ struct_to_stream nested_E 9 3 [("p", VStruct 0 [("s", VStr [97])])] VNone = ([97; 0], Ok tt).
Proof. exact nested_same_example. Qed.
