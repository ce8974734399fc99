(** Witnesses used by PropertiesEqRound.v. *)
From Verif Require Import Samples.
From Verif Require Export EqRound RoundWitness SpecEq.
Open Scope Z_scope.

Lemma inner_set : filled (cls round_E 1) (set_values (inner_val 300 [97; 98])).
Proof.
  split; [repeat constructor; cbn; intuition discriminate|]. intros nm. cbn.
  split; [intros [<-|[<-|[]]]; eexists; split; eauto|].
  intros (f & [H|[H|[]]] & _); injection H as <- <-; auto.
Qed.

Lemma inner_present k : dget (inner_val 300 [97; 98]) k <> Some VNotPresent.
Proof. unfold inner_val. cbn [dget]. destruct (String.eqb "v" k), (String.eqb "s" k); discriminate. Qed.

(** The second field has a default. *)
Definition default_E : env :=
  [class_of "Default" [named "a" (u8 (byte "a")); named "b" (u8 (with_default (VInt 5) (byte "b")))]].
Definition default_vals : dict := [("a"%string, VInt 1)].
Definition default_dict : dict := [("a"%string, VInt 1); ("b"%string, VInt 5)].

Lemma default_straight : straight_class (cls default_E 0).
Proof.
  split.
  { split; [repeat constructor; cbn; intuition discriminate|].
    split; [repeat constructor|]. intros name. cbn. tauto. }
  split; [intros name ms H; cbn in H; intuition congruence|]. reflexivity.
Qed.

Lemma default_instance : instance_of default_E 0 default_vals.
Proof.
  split; [apply default_straight|]. split; [repeat constructor; cbn; intuition discriminate|].
  intros x. cbn. tauto.
Qed.
Lemma default_dump : struct_to_stream default_E 9 0 default_vals VNone = ([1; 5], Ok tt).
Proof. reflexivity. Qed.
Lemma default_to_dict : to_dict default_E 9 0 default_vals false = Ok default_dict.
Proof. reflexivity. Qed.
Lemma default_present k : dget default_dict k <> Some VNotPresent.
Proof. unfold default_dict. cbn [dget]. destruct (String.eqb "a" k), (String.eqb "b" k); discriminate. Qed.

Lemma default_holds : holds_struct default_E false 0 default_dict.
Proof.
  apply holds_all; [exact default_straight|..].
  - split; [repeat constructor; cbn; intuition discriminate|]. intros nm. cbn.
    split; [intros [<-|[<-|[]]]; eexists; split; eauto|].
    intros (f & [H|[H|[]]] & _); injection H as <- <-; auto.
  - intros pre nm f post H Hd. cbn in H. split_list H; discriminate Hd.
  - intros pre nm f post H Hx. cbn in H. split_list H; discriminate Hx.
  - intros pre nm f post x H Hx _. cbn in H.
    split_list H; cbn in Hx; injection Hx as <-;
      (apply plain_leaf; try reflexivity; [intros ? []|]); econstructor; try reflexivity; cbn; lia.
Qed.

Lemma default_unset : ~ filled (cls default_E 0) (set_values default_vals).
Proof.
  intros [_ H]. destruct (proj2 (H "b"%string)) as [Hb|[]]; [|discriminate].
  eexists. split; [right; left; reflexivity|reflexivity].
Qed.

Lemma default_load :
  struct_from_bytes default_E 9 0 [1; 5] VNone true [] = Ok default_dict.
Proof. reflexivity. Qed.

Lemma default_differs :
  struct_to_bytes default_E 9 0 default_vals VNone = Ok [1; 5]
  /\ struct_from_bytes default_E 9 0 [1; 5] VNone true [] = Ok default_dict
  /\ py_eq default_E 9 (VStruct 0 default_vals) (VStruct 0 default_dict) = Ok false.
Proof. repeat split; reflexivity. Qed.

Lemma counted_raises : py_eq round_E 9 (VStruct 0 round_vals) (VStruct 0 round_vals) = Raise (EFieldReference "count").
Proof. vm_compute. reflexivity. Qed.
