(** Witnesses for C86. *)
From Verif Require Export NestedProofs Conform.
From Coq Require Import String ZArith List Lia.
Import ListNotations.
Open Scope string_scope.
Open Scope list_scope.
Open Scope Z_scope.

(** 0: a base class with a text; 1 adds a byte to it; 2 is another class with a text of that name;
    3 contains the base class. *)
Definition nested_E : env :=
  let base := class_in [] "Base" [] None [("s", field_is (StringZ_ Utf8 []))] in
  let wide := class_in base "Wide" [0%nat] None [("y", field_is (int_ UInt8 any_endian []))] in
  let other := class_in wide "Recoded" [] None [("s", field_is (StringZ_ (Utf16 Little) []))] in
  class_in other "Outer" [] None [("p", IField (made_ base (XNested 0 no_args)))].

Definition the_field : field :=
  match k_comps (cls nested_E 3) with [(_, f)] => f | _ => Field (basic "" SNone) KBytes end.

Definition wide_one : value := VStruct 1 [("s", VStr [97]); ("y", VInt 7)].
Definition other_one : value := VStruct 2 [("s", VStr [97])].


Lemma nested_alone n ctx d : (8 <= n)%nat ->
  field_to_stream nested_E n the_field wide_one ctx d = ([97; 0; 7], Ok tt)
  /\ field_to_stream nested_E n the_field other_one ctx d = ([97; 0; 0; 0], Ok tt).
Proof.
  intros Hn. assert (H : forall v bs, field_to_stream nested_E 8 the_field v ctx d = (bs, Ok tt) ->
    field_to_stream nested_E n the_field v ctx d = (bs, Ok tt)).
  { intros v bs H. pose proof (field_to_stream_mono nested_E 8 n the_field v ctx d Hn) as Hm. rewrite H in Hm.
    destruct Hm as [Hm|Hm]; [discriminate|auto]. }
  split; apply H; reflexivity.
Qed.

Lemma nested_in n ctx : (8 <= n)%nat ->
  struct_to_stream nested_E n 3 [("p", wide_one)] ctx = ([], Raise (EUnexpectedValue ["y"]))
  /\ struct_to_stream nested_E n 3 [("p", other_one)] ctx = ([97; 0], Ok tt).
Proof.
  intros Hn. assert (H : forall v r, struct_to_stream nested_E 8 3 [("p", v)] ctx = r -> snd r <> OOF ->
    struct_to_stream nested_E n 3 [("p", v)] ctx = r).
  { intros v r H Hr. pose proof (struct_to_stream_mono nested_E 8 n 3 [("p", v)] ctx Hn) as Hm. rewrite H in Hm.
    destruct Hm as [Hm|Hm]; [contradiction|auto]. }
  split; apply H; try reflexivity; discriminate.
Qed.

Lemma the_field_is : In ("p", the_field) (k_comps (cls nested_E 3)) /\ kind the_field = KNested 0
  /\ unconditional (conf the_field) /\ c_discard (conf the_field) = false
  /\ accepts (conf the_field) wide_one /\ accepts (conf the_field) other_one.
Proof.
  split; [left; reflexivity|]. split; [reflexivity|]. split; [intros ? ? ? ? ?; reflexivity|]. split; [reflexivity|].
  split; exact (Forall_nil _).
Qed.

Lemma nested_instances : instance_of nested_E 3 [("p", wide_one)] /\ instance_of nested_E 1 [("s", VStr [97]); ("y", VInt 7)].
Proof.
  split.
  - split; [|split].
    + split; [repeat constructor; cbn; intuition discriminate|]. split; [repeat constructor|]. intros x. cbn. tauto.
    + repeat constructor; cbn; intuition discriminate.
    + intros x. cbn. tauto.
  - split; [|split].
    + split; [repeat constructor; cbn; intuition discriminate|]. split; [repeat constructor|]. intros x. cbn. tauto.
    + repeat constructor; cbn; intuition discriminate.
    + intros x. cbn. tauto.
Qed.

Lemma nested_loads n ctx : (8 <= n)%nat ->
  field_from_stream nested_E n the_field ctx [] (mkStream [97; 0; 7] 0)
  = (mkStream [97; 0; 7] 2, Ok (VStruct 0 [("s", VStr [97])])).
Proof.
  intros Hn. pose proof (field_from_stream_mono nested_E 8 n the_field ctx [] Hn (mkStream [97; 0; 7] 0)) as Hm.
  destruct Hm as [Hm|Hm]; [exfalso|]; revert Hm;
    replace (field_from_stream nested_E 8 the_field ctx [] (mkStream [97; 0; 7] 0))
      with (mkStream [97; 0; 7] 2, (Ok (VStruct 0 [("s", VStr [97])]) : res value)) by reflexivity.
  - discriminate.
  - intros Hm. symmetry. exact Hm.
Qed.

Lemma other_instance : instance_of nested_E 3 [("p", other_one)].
Proof.
  split; [|split].
  - split; [repeat constructor; cbn; intuition discriminate|]. split; [repeat constructor|]. intros x. cbn. tauto.
  - repeat constructor; cbn; intuition discriminate.
  - intros x. cbn. tauto.
Qed.

Lemma wide_refutes : ~ (forall E n cid vals ctx name c inner cid' nv out, instance_of E cid vals ->
       k_comps (cls E cid) = [(name, Field c (KNested inner))] -> unconditional c -> c_discard c = false ->
       dget vals name = Some (VStruct cid' nv) ->
       field_to_stream E n (Field c (KNested inner)) (VStruct cid' nv) ctx vals = (out, Ok tt) ->
       struct_to_stream E (S n) cid vals ctx = (out, Ok tt)).
Proof.
  intros H. destruct nested_instances as [Hi _].
  assert (Hx : struct_to_stream nested_E 9 3 [("p", wide_one)] VNone = ([97; 0; 7], Ok tt)).
  { eapply (H nested_E 8%nat 3%nat [("p", wide_one)] VNone "p"); [exact Hi|reflexivity|exact (proj1 (proj2 (proj2 the_field_is)))|reflexivity|reflexivity|].
    exact (proj1 (nested_alone 8 VNone _ (le_n 8))). }
  rewrite (proj1 (nested_in 9 VNone ltac:(lia))) in Hx. discriminate.
Qed.

Lemma other_refutes : ~ (forall E n cid vals ctx name c inner cid' nv out out', instance_of E cid vals ->
       k_comps (cls E cid) = [(name, Field c (KNested inner))] -> unconditional c -> c_discard c = false ->
       dget vals name = Some (VStruct cid' nv) ->
       field_to_stream E n (Field c (KNested inner)) (VStruct cid' nv) ctx vals = (out, Ok tt) ->
       struct_to_stream E (S n) cid vals ctx = (out', Ok tt) -> out' = out).
Proof.
  intros H. assert (Hx : [97; 0] = [97; 0; 0; 0]); [|discriminate].
  eapply (H nested_E 8%nat 3%nat [("p", other_one)] VNone "p"); [exact other_instance|reflexivity|exact (proj1 (proj2 (proj2 the_field_is)))|reflexivity|reflexivity| |].
  - exact (proj2 (nested_alone 8 VNone _ (le_n 8))).
  - exact (proj2 (nested_in 9 VNone ltac:(lia))).
Qed.

Lemma nested_dict_example n ctx d : (8 <= n)%nat ->
  field_to_stream nested_E n the_field (VDict [("s", VStr [97])]) ctx d = ([97; 0], Ok tt).
Proof.
  intros Hn. pose proof (field_to_stream_mono nested_E 8 n the_field (VDict [("s", VStr [97])]) ctx d Hn) as Hm.
  replace (field_to_stream nested_E 8 the_field (VDict [("s", VStr [97])]) ctx d)
    with (([97; 0], Ok tt) : dumped unit) in Hm by reflexivity.
  destruct Hm as [Hm|Hm]; [discriminate|auto].
Qed.

Lemma nested_unknown_example : accepts (conf the_field) (VDict [("s", VStr [97]); ("y", VInt 7)])
  /\ ~ In "y" (map fst (k_comps (cls nested_E 0))).
Proof. split; [exact (Forall_nil _)|]. cbn. intuition discriminate. Qed.

Lemma nested_same_example :
  instance_of nested_E 3 [("p", VStruct 0 [("s", VStr [97])])] /\ instance_of nested_E 0 [("s", VStr [97])]
  /\ to_dict nested_E 8 0 [("s", VStr [97])] false = Ok [("s", VStr [97])]
  /\ (forall name f x, In (name, f) (k_comps (cls nested_E 0)) -> dget [("s", VStr [97])] name = Some x ->
        x <> VNotPresent -> run_struct nested_E 8 0 [("s", VStr [97])] (c_present (conf f) VNone None) = Ok true)
  /\ (forall name f, In (name, f) (k_comps (cls nested_E 0)) -> c_discard (conf f) = true ->
        exists v, run_struct nested_E 8 0 [("s", VStr [97])] (compute_value_for_dump (conf f) VNone) = Ok v)
  /\ validated nested_E 8 0 [("s", VStr [97])]
  /\ struct_to_stream nested_E 9 3 [("p", VStruct 0 [("s", VStr [97])])] VNone = ([97; 0], Ok tt).
Proof.
  split; [|split]; [split; [|split]|split; [|split]|].
  - split; [repeat constructor; cbn; intuition discriminate|]. split; [repeat constructor|]. intros x. cbn. tauto.
  - repeat constructor; cbn; intuition discriminate.
  - intros x. cbn. tauto.
  - split; [repeat constructor; cbn; intuition discriminate|]. split; [repeat constructor|]. intros x. cbn. tauto.
  - repeat constructor; cbn; intuition discriminate.
  - intros x. cbn. tauto.
  - split; [reflexivity|]. split; [intros name f x [[= <- <-]|[]] _ _; reflexivity|].
    split; [intros name f [[= <- <-]|[]] Hdis; discriminate|]. split; [|reflexivity].
    apply validate_contents_iff. reflexivity.
Qed.
