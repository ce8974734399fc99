(** A struct with a NaN (C110). *)
From Coq Require Import String Lia.
From Verif Require Import Tac IdentityProofs JsonWitness Samples.
Open Scope list_scope.
Open Scope Z_scope.

(** Objects 0 and 1 are NaNs with the same bits, the others are 1.0. *)
Definition two_nans (a : nat) : Z := match a with 0%nat | 1%nat => 9221120237041090561 | _ => 4607182418800017408 end.
Definition no_gens (a : nat) : list value := [].
Definition measure : value := VStruct 2 [("f"%string, VFloat 9221120237041090561)].
Definition with_object (a : nat) : list (string * thing) := [("f"%string, TFloat a)].

Lemma two_patterns a : pattern double (two_nans a).
Proof. unfold pattern. change (2 ^ i_bits double) with 18446744073709551616. destruct a as [|[|a]]; cbn; lia. Qed.
Lemma with_sound a : sound two_nans (TDict (with_object a)).
Proof.
  apply sound_dict; [cbn; constructor; [intros []|constructor]|]. intros k x [[= <- <-]|[]]. apply sound_float. apply two_patterns.
Qed.
Lemma measure_mapping : mapping j_classes measure.
Proof.
  split; [split; [|split]|split].
  - cbn. constructor; [intros []|constructor].
  - cbn. constructor; [reflexivity|constructor].
  - intros x Hx. exact Hx.
  - cbn. constructor; [intros []|constructor].
  - intros x [<-|[]]. cbn. auto.
Qed.
Lemma measure_contents a : (a = 0 \/ a = 1)%nat -> contents two_nans no_gens j_classes measure (with_object a).
Proof.
  intros Ha. split; [apply with_sound|]. exists 3%nat, [("f"%string, VFloat 9221120237041090561)]. split; [apply view_struct; reflexivity|].
  destruct Ha as [-> | ->]; reflexivity.
Qed.

(** The same object, or a copy of it. *)
Lemma nan_answers : i_eq two_nans no_gens (TDict (with_object 0)) (TDict (with_object 0)) = true
  /\ i_eq two_nans no_gens (TDict (with_object 1)) (TDict (with_object 0)) = false
  /\ i_eq two_nans no_gens (TDict (with_object 2)) (TDict [("f"%string, TInt 1)]) = true
  /\ i_eq two_nans no_gens (TDict [("l"%string, TList [TGen 4; TFloat 1])]) (TDict [("l"%string, TList [TGen 4; TFloat 1])]) = true
  /\ i_eq two_nans no_gens (TDict [("l"%string, TList [TGen 4])]) (TDict [("l"%string, TList [TGen 5])]) = false
  /\ py_eq j_classes 5 measure measure = Ok false.
Proof. repeat split; vm_compute; reflexivity. Qed.

Lemma by_value_refuted : ~ (forall floats gens E v t t', mapping E v -> is_struct v -> contents floats gens E v t -> contents floats gens E v t' ->
  i_eq floats gens (TDict t) (TDict t') = true).
Proof.
  intros H. specialize (H two_nans no_gens j_classes measure (with_object 1) (with_object 0) measure_mapping I (measure_contents 1 (or_intror eq_refl)) (measure_contents 0 (or_introl eq_refl))).
  destruct nan_answers as (_ & H2 & _). congruence.
Qed.

Lemma unshared_nans : unshared two_nans (TDict (with_object 0)) (TDict (with_object 1)).
Proof.
  assert (Hw : forall a o, odd two_nans (TDict (with_object a)) o -> o = TFloat a).
  { intros a o H. inversion H as [| | |d k x o' Hin Ho]; subst. destruct Hin as [[= <- <-]|[]]. inversion Ho; subst. reflexivity. }
  intros o H0 H1. apply Hw in H0, H1. congruence.
Qed.
