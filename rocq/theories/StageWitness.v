(** Witnesses used by PropertiesStage.v. *)
From Coq Require Import String ZArith List Lia.
From Verif Require Export Samples.
From Verif Require Import ContainedProofs RoundWitness.
From Verif Require Export StageProofs.
Import ListNotations.
Open Scope string_scope.
Open Scope list_scope.
Open Scope Z_scope.

(** A default, an array, a nested struct and text; then an identifier, not known at first. *)
Definition stage_E : env :=
  [class_of "Stage"
     [named "a" (u8 (with_default (VInt 7) (byte "a")));
      named "l" (Field (basic "l" SNone) (KArray (u8 (byte "l")) (CntInt 3) None));
      named "n" (Field (basic "n" SNone) (KNested 1));
      named "s" (Field (basic "s" SNone) (KStringZ Utf8 None));
      named "id" (Field (basic "id" (SInt 16)) (KUuid BINARY_VARIANT_1));
      named "z" (u8 (byte "z"))];
   class_of "Inner" [named "k" (u8 (byte "k"))]].
Definition stage_vals : dict :=
  [("s", VStr [104; 105]); ("l", VList [VInt 1; VInt 2; VInt 3]); ("n", VDict [("k", VInt 5)])].
Definition stage_loaded : dict :=
  [("a", VInt 7); ("l", VList [VInt 1; VInt 2; VInt 3]); ("n", VStruct 1 [("k", VInt 5)]); ("s", VStr [104; 105])].
Definition stage_all : dict := stage_vals ++ [("id", VUUID 255); ("z", VInt 9)].
Definition stage_first : list (string * field) := firstn 4 (k_comps (cls stage_E 0)).

Lemma stage_wf : well_formed (cls stage_E 0).
Proof.
  split; [repeat constructor; cbn; intuition discriminate|].
  split; [repeat constructor|]. intros x. cbn. tauto.
Qed.

Lemma stage_inner last : holds_struct stage_E last 1 [("k", VInt 5)].
Proof.
  apply holds_all.
  - split; [|split; [|reflexivity]].
    + split; [repeat constructor; cbn; intuition discriminate|].
      split; [repeat constructor|]. intros x. cbn. tauto.
    + intros name methods [H|[]]. congruence.
  - split; [repeat constructor; cbn; intuition discriminate|]. intros nm. cbn.
    split; [intros [<-|[]]; eexists; split; eauto|].
    intros (f & [H|[]] & _); injection H as <- <-; auto.
  - intros pre nm f post H Hd. cbn in H. split_list H; discriminate Hd.
  - intros pre nm f post H Hx. cbn in H. split_list H; discriminate Hx.
  - intros pre nm f post x H Hx _. cbn in H. split_list H. injection Hx as <-.
    apply plain_leaf; try reflexivity; [intros ? []|econstructor; reflexivity].
Qed.

Lemma stage_alone last : alone stage_E last stage_vals stage_first.
Proof.
  intros pre name f post v H (dv & Hdv & ->). cbn in H. split_list H; cbn in Hdv; injection Hdv as <-;
    (split; [reflexivity|]); cbn [dget stage_vals].
  - apply plain_leaf; try reflexivity; [intros ? []|econstructor; reflexivity].
  - apply plain_container; try reflexivity. apply holds_array; auto.
    + intros ? [].
    + left. reflexivity.
    + intros x [<-|[<-|[<-|[]]]]; apply plain_leaf; try reflexivity; try (intros ? []); econstructor; reflexivity.
  - apply plain_container; try reflexivity. apply holds_nested. apply stage_inner.
  - apply plain_leaf; try reflexivity; [intros ? []|]. constructor; try reflexivity. repeat constructor; discriminate.
Qed.

Lemma stage_dumps : partial_dump stage_E 9 0 stage_vals None VNone = ([7; 1; 2; 3; 5; 104; 105; 0], Ok tt)
  /\ partial_dump stage_E 9 0 stage_vals (Some "n") VNone = ([7; 1; 2; 3; 5], Ok tt)
  /\ partial_load stage_E 9 0 None VNone (at_data [] [7; 1; 2; 3; 5; 104; 105; 0] [])
     = (after_data [] [7; 1; 2; 3; 5; 104; 105; 0] [], Ok stage_loaded)
  /\ struct_to_stream stage_E 9 0 stage_all VNone
     = ([7; 1; 2; 3; 5; 104; 105; 0] ++ repeat 0 15 ++ [255; 9], Ok tt).
Proof. repeat split; vm_compute; reflexivity. Qed.

Lemma stage_needs : needs_data stage_E (Field (basic "id" (SInt 16)) (KUuid BINARY_VARIANT_1)).
Proof. apply (needs_sized _ _ _ 16); try reflexivity; intros ? ? ?; reflexivity. Qed.

Lemma stage_all_instance : instance_of stage_E 0 stage_all.
Proof. split; [exact stage_wf|]. split; [repeat constructor; cbn; intuition discriminate|]. intros x. cbn. tauto. Qed.
Lemma stage_all_plain : plain_data stage_all.
Proof.
  intros name v H. unfold stage_all, stage_vals in H. cbn [app dget] in H.
  repeat match type of H with
  | (if String.eqb ?k ?n then _ else _) = _ => destruct (String.eqb k n)
  end; try discriminate; injection H as <-; (split; [discriminate|]; split; [discriminate|]);
    try (constructor; exact I).
  - apply free_list. repeat constructor.
  - apply free_dict. repeat constructor.
Qed.
Lemma stage_simple name f : In (name, f) (k_comps (cls stage_E 0)) -> simple f /\ self_contained stage_E f.
Proof.
  intros H. cbn in H.
  assert (Hb : forall c k, c_present c = (fun _ _ => QRet true) -> c_compute c = None -> c_discard c = false ->
    (exists dv, default_of c = Ok dv /\ match dv with VInt _ | VUndefined => True | _ => False end) -> simple (Field c k)).
  { intros c k Hp Hc Hd (dv & Hdv & Hk). split; [|split; [exact Hc|split; [exact Hd|]]].
    - intros mem get keys ctx so. cbn [conf]. rewrite Hp. reflexivity.
    - exists dv. split; [exact Hdv|]. destruct dv; try destruct Hk; (split; [constructor; exact I|discriminate]). }
  repeat (destruct H as [H|H]; [injection H as <- <-;
    (split; [apply Hb; try reflexivity; eexists; split; [reflexivity|exact I]|apply ref_free_contained]);
    try solve [eapply rf_sized; [reflexivity|exact I]
              |apply rf_array; try discriminate; [intros _ [H|H]; discriminate H|eapply rf_sized; [reflexivity|exact I]]
              |apply rf_nested; [discriminate|intros _ [H|H]; discriminate H]
              |apply rf_unsized; [reflexivity|intros [H|H]; discriminate H|exact I]]|]).
  destruct H.
Qed.
Lemma stage_keeps name f v : In (name, f) (k_comps (cls stage_E 0)) -> own_value stage_vals name (conf f) v ->
  v <> VUndefined -> own_value stage_all name (conf f) v.
Proof.
  intros H (dv & Hdv & ->) Hu. exists dv. split; [exact Hdv|]. cbn in H.
  repeat (destruct H as [H|H]; [injection H as <- <-; cbn in Hdv; injection Hdv as <-; try reflexivity; destruct Hu; reflexivity|]).
  destruct H.
Qed.

(** A field that may be absent or empty is taken to be there: the data end, but an array of
    unknown length loads as empty. *)
Definition open_E : env :=
  [class_of "Open" [named "a" (u8 (byte "a"));
                    named "l" (Field (basic "l" SNone) (KArray (u8 (byte "l")) CntNone None))]].
Lemma open_dumps : partial_dump open_E 9 0 [("a", VInt 1)] None VNone = ([1], Ok tt)
  /\ partial_load open_E 9 0 None VNone (at_data [] [1] []) = (after_data [] [1] [], Ok [("a", VInt 1); ("l", VList [])]).
Proof. split; vm_compute; reflexivity. Qed.
