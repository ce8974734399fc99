(** Property theorems about data written before a class got more fields (C84). *)
From Coq Require Import ZArith List String Lia.
From Verif Require Import Samples OldProofs InheritWitness.
Import ListNotations.
Open Scope string_scope.
Open Scope list_scope.

(** C84: from data of its base class, a subclass partially loads exactly the base class's
    values and stops at the end of the data; loading it completely reports the missing data. *)
Theorem C84_old_data : forall E cs cb name f more n ctx s s1 vals,
  well_formed (cls E cs) -> well_formed (cls E cb) ->
  k_comps (cls E cs) = k_comps (cls E cb) ++ (name, f) :: more ->
  Forall (fun nf => c_discard (conf (snd nf)) = false) (k_comps (cls E cb)) -> needs_data E f ->
  struct_from_stream E n cb ctx [] s = (s1, Ok vals) -> rest s1 = [] ->
  exists N, forall n', (N <= n')%nat ->
    partial_load E n' cs None ctx s = (s1, Ok vals) /\ ends_early (struct_from_stream E n' cs ctx [] s).
Proof. exact old_data. Qed.
Print Assumptions C84_old_data.

(** C84: if the instance can be dumped as one of the subclass, the result is what the base
    class dumps, followed by the new fields. *)
Theorem C84_upgrade : forall E cs cb n ctx s s1 vals ctx' out, extends E cs cb ->
  well_formed (cls E cs) -> well_formed (cls E cb) -> closed (cls E cb) ->
  struct_from_stream E n cb ctx [] s = (s1, Ok vals) ->
  struct_to_stream E n cs vals ctx' = (out, Ok tt) ->
  exists old new, out = old ++ new /\ struct_to_stream E n cb vals ctx' = (old, Ok tt).
Proof. exact upgraded. Qed.
Print Assumptions C84_upgrade.

(** The first new field must need data: an array that reads to the end of the data
    is loaded from none. *)
Theorem C84_must_need_data : exists E, let s := mkStream [1; 2]%Z 0 in
  well_formed (cls E 0) /\ well_formed (cls E 1) /\ k_comps (cls E 1) = k_comps (cls E 0) ++ [named "xs" (Field (basic "xs" SNone) (KArray (u8 (byte "xs")) CntNone None))]
  /\ struct_from_stream E 9 0 VNone [] s = (mkStream [1; 2]%Z 2, Ok [("a", VInt 1); ("b", VInt 2)])
  /\ partial_load E 9 1 None VNone s = (mkStream [1; 2]%Z 2, Ok [("a", VInt 1); ("b", VInt 2); ("xs", VList [])]).
Proof.
  exists [class_of "A" [named "a" (u8 (byte "a")); named "b" (u8 (byte "b"))];
          class_of "B" ([named "a" (u8 (byte "a")); named "b" (u8 (byte "b"))] ++ [named "xs" (Field (basic "xs" SNone) (KArray (u8 (byte "xs")) CntNone None))])].
  cbv zeta. split; [|split; [|split; [reflexivity|split; vm_compute; reflexivity]]];
  (split; [repeat constructor; cbn; intuition discriminate|]; split; [repeat constructor|]; intros x; cbn; tauto).
Qed.
Print Assumptions C84_must_need_data.

(** Message(size, body) and Checked(Message) with a field [sum] (InheritWitness.v). *)
Example C84_example :
  let s := mkStream [2; 7; 8]%Z 0 in
  let vals := [("size", VInt 2); ("body", VBytes [7; 8]%Z)] in
  extends messages 1 0 /\ well_formed (cls messages 1) /\ well_formed (cls messages 0) /\ closed (cls messages 0)
  /\ k_comps (cls messages 1) = k_comps (cls messages 0) ++ [named "sum" (u8 (byte "sum"))]
  /\ Forall (fun nf => c_discard (conf (snd nf)) = false) (k_comps (cls messages 0))
  /\ needs_data messages (u8 (byte "sum"))
  /\ struct_from_stream messages 9 0 VNone [] s = (mkStream [2; 7; 8]%Z 3, Ok vals)
  /\ partial_load messages 9 1 None VNone s = (mkStream [2; 7; 8]%Z 3, Ok vals)
  /\ struct_to_stream messages 9 1 (vals ++ [("sum", VInt 15)]) VNone = ([2; 7; 8; 15]%Z, Ok tt).
Proof.
  cbv zeta. split; [exact messages_extends|]. split; [exact (proj2 messages_well_formed)|].
  split; [exact (proj1 messages_well_formed)|]. split; [exact messages_closed|].
  split; [reflexivity|]. split; [repeat constructor|].
  split; [apply (needs_sized _ _ _ 1%Z); [exact I|reflexivity|lia|intros ? ? ?; reflexivity|reflexivity]|].
  vm_compute. auto.
Qed.

(** With a default for the new field the old data can be upgraded as it is. *)
Example C84_default_example :
  let E := [class_of "Old" [named "a" (u8 (byte "a"))];
            class_of "New" [named "a" (u8 (byte "a")); named "b" (u8 (with_default (VInt 5) (byte "b")))]] in
  extends E 1 0 /\ well_formed (cls E 1) /\ well_formed (cls E 0) /\ closed (cls E 0)
  /\ partial_load E 9 1 None VNone (mkStream [7]%Z 0) = (mkStream [7]%Z 1, Ok [("a", VInt 7)])
  /\ struct_to_stream E 9 1 [("a", VInt 7)] VNone = ([7; 5]%Z, Ok tt).
Proof.
  cbv zeta. split; [split; [eexists; reflexivity|]; split; [|exists []; reflexivity];
    intros name methods Hi; exists []; rewrite app_nil_r; cbn in *; tauto|].
  split; [split; [repeat constructor; cbn; intuition discriminate|]; split; [repeat constructor|]; intros x; cbn; tauto|].
  split; [split; [repeat constructor; cbn; intuition discriminate|]; split; [repeat constructor|]; intros x; cbn; tauto|].
  split; [|split; vm_compute; reflexivity]. split.
  - split; [intros name methods q v Hi Hq; cbn in Hi; destruct Hi as [[= <- <-]|[]]; destruct Hq|intros q []].
  - intros name f Hi. cbn in Hi. destruct Hi as [[= <- <-]|[]].
    split; [apply contained_leaf; exact I|]. split; [intros; constructor|intros q; discriminate].
Qed.
