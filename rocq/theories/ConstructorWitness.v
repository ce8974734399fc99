(** Examples of classes with constructors of their own (C107). *)
From Coq Require Import String Lia List.
From Verif Require Import Samples ConstructorProofs.
From Verif Require Export SpecConstructors.
Import ListNotations.
Open Scope list_scope.
Open Scope Z_scope.

(** 0: two bytes, with a required argument [scale] and an optional one [label]; 1: contains class 0. *)
Definition built_classes : env :=
  [class_of "Scaled" [named "x" (u8 (byte "x")); named "y" (u8 (byte "y"))];
   class_of "Outer" [named "p" (Field (basic "p" SNone) (KNested 0))]].

Definition scaling (E : env) : constructors := fun cid kw =>
  if Nat.eqb cid 1 then struct_init E cid kw
  else if forallb (dmem kw) ["scale"%string] then struct_init E cid (without ["scale"%string; "label"%string] kw) else Raise ETypeErr.

(** Only class 0, without anything containing it. *)
Definition alone : env := [class_of "Scaled" [named "x" (u8 (byte "x")); named "y" (u8 (byte "y"))]].

Definition arguments : dict := [("y"%string, VInt 9); ("scale"%string, VInt 3)].
Definition two_bytes : stream := mkStream [7; 8] 0.
Definition scaled_values : dict := [("y"%string, VInt 9); ("x"%string, VInt 7)].

Lemma scaling_takes : takes_arguments built_classes (scaling built_classes) 0 ["scale"%string] ["label"%string].
Proof.
  split; [|intros kw; reflexivity]. intros x [<-|[<-|[]]] H; cbn in H; intuition discriminate.
Qed.
Lemma alone_takes : takes_arguments alone (scaling alone) 0 ["scale"%string] ["label"%string].
Proof.
  split; [|intros kw; reflexivity]. intros x [<-|[<-|[]]] H; cbn in H; intuition discriminate.
Qed.
Lemma alone_on_top : own_constructors_on_top alone (scaling alone).
Proof.
  intros cid name f H. destruct cid as [|[|cid]]; cbn in H; [|contradiction|contradiction].
  destruct H as [H|[H|[]]]; injection H as <- <-; apply constructs_leaf; exact I.
Qed.
Lemma alone_unaware n : unaware alone n 0 ["scale"%string; "label"%string].
Proof.
  intros name f ctx d s H. cbn in H.
  destruct H as [H|[H|[]]]; injection H as <- <-; apply leaf_unaware; try exact I; try reflexivity.
  all: intros x Hx; cbn in Hx; try discriminate; injection Hx as <-; cbn; intuition discriminate.
Qed.

Lemma scaled_loads : k_struct_from_stream built_classes (scaling built_classes) 4 0 VNone arguments two_bytes = (mkStream [7; 8] 2, Ok scaled_values).
Proof. vm_compute. reflexivity. Qed.
Lemma alone_loads : k_struct_from_stream alone (scaling alone) 4 0 VNone arguments two_bytes = (mkStream [7; 8] 2, Ok scaled_values).
Proof. vm_compute. reflexivity. Qed.
Lemma scaled_fails : k_struct_from_stream built_classes (scaling built_classes) 4 0 VNone [] two_bytes = (mkStream [7; 8] 2, Raise ETypeErr).
Proof. vm_compute. reflexivity. Qed.
Lemma outer_fails : k_struct_from_stream built_classes (scaling built_classes) 6 1 VNone [] two_bytes = (mkStream [7; 8] 2, Raise ETypeErr).
Proof. vm_compute. reflexivity. Qed.
Lemma scaled_dumps : k_struct_to_stream built_classes (scaling built_classes) 6 0 scaled_values VNone = ([7; 9], Ok tt)
  /\ k_field_to_stream built_classes (scaling built_classes) 6 (Field (basic "p" SNone) (KNested 0)) (VStruct 0 scaled_values) VNone [] = ([7; 9], Ok tt)
  /\ k_struct_to_stream built_classes (scaling built_classes) 6 1 [("p"%string, VStruct 0 scaled_values)] VNone = ([], Raise ETypeErr)
  /\ k_struct_to_stream built_classes (scaling built_classes) 6 1 [("p"%string, VDict (scaled_values ++ [("scale"%string, VInt 3)]))] VNone = ([7; 9], Ok tt).
Proof. repeat split; vm_compute; reflexivity. Qed.

Lemma scaled_instances : instance_of built_classes 1 [("p"%string, VStruct 0 scaled_values)] /\ instance_of built_classes 0 scaled_values.
Proof.
  split; (split; [split; [repeat constructor; cbn; intuition discriminate|split; [repeat constructor|intros x; cbn; tauto]]
                 |split; [repeat constructor; cbn; intuition discriminate|intros x; cbn; tauto]]).
Qed.

(** Refutations *)
Lemma nested_unlike : ~ (forall E K n cid kw ctx s s' vals c d, k_struct_from_stream E K n cid ctx kw s = (s', Ok vals) ->
  exists s'' v, k_do_load E K (S n) (Field c (KNested cid)) ctx d s = (s'', Ok v)).
Proof.
  intros H. destruct (H _ _ _ _ _ _ _ _ _ (basic "p" SNone) [] scaled_loads) as (s'' & v & H').
  exact (nested_never _ _ _ _ _ _ _ "scale"%string _ _ _ _ _ scaling_takes (or_introl eq_refl) H').
Qed.

Lemma dump_unlike : ~ (forall E K n cid vals ctx outer name c bs, k_struct_to_stream E K n cid vals ctx = (bs, Ok tt) ->
  k_comps (cls E outer) = [(name, Field c (KNested cid))] -> c_name c = Some name -> c_size c = SNone -> unconditional c ->
  exists m out, k_struct_to_stream E K m outer [(name, VStruct cid vals)] ctx = (out, Ok tt)).
Proof.
  intros H. destruct (H _ _ _ _ _ _ 1%nat "p"%string (basic "p" SNone) _ (proj1 scaled_dumps)) as (m & out & H'); try reflexivity.
  { intros ? ? ? ? ?. reflexivity. }
  revert H'. apply (nested_dump_never built_classes (scaling built_classes) m 1 [("p"%string, VStruct 0 scaled_values)] VNone out "p" (basic "p" SNone) 0 0 scaled_values
    ["scale"%string] ["label"%string] "scale"); try reflexivity; try apply scaling_takes; try apply scaled_instances.
  - left. reflexivity.
  - left. reflexivity.
  - intros ? ? ? ? ?. reflexivity.
  - cbn. intuition discriminate.
Qed.

Lemma arguments_seen : ~ (forall E K n cid required optional ctx kw s, own_constructors_on_top E K -> takes_arguments E K cid required optional ->
  incl required (dkeys kw) ->
  k_struct_from_stream E K n cid ctx kw s = struct_from_stream E n cid ctx (without (required ++ optional) kw) s).
Proof.
  (* A byte that is only there if there is a loaded field [scale]. *)
  intros H. set (asking := [class_of "Asking" [named "x" (u8 (with_present (fun _ _ => QIn "scale" (fun b => QRet b)) VNone (byte "x")))]] : env).
  specialize (H asking (scaling asking) 4%nat 0%nat ["scale"%string] ["label"%string] VNone [("scale"%string, VInt 3)] two_bytes).
  assert (H1 : own_constructors_on_top asking (scaling asking)).
  { intros cid name f Hf. destruct cid as [|[|cid]]; cbn in Hf; [|contradiction|contradiction].
    destruct Hf as [Hf|[]]; injection Hf as <- <-; apply constructs_leaf; exact I. }
  assert (H2 : takes_arguments asking (scaling asking) 0 ["scale"%string] ["label"%string]).
  { split; [|intros kw; reflexivity]. intros x [<-|[<-|[]]] Hx; cbn in Hx; intuition discriminate. }
  specialize (H H1 H2 (incl_refl _)). vm_compute in H. discriminate H.
Qed.
