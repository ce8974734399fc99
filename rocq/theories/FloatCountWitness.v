(** Examples of arrays whose count is a float (C103). *)
From Coq Require Import QArith String Lia.
From Verif Require Import FloatCountProofs Samples.
Open Scope list_scope.
Open Scope Z_scope.

Definition two_and_a_half : Z := 4612811918334230528.
Definition one_half : Z := 4602678819172646912.
Definition two : Z := 4611686018427387904.
Definition a_nan : Z := 9221120237041090560.
Definition an_infinity : Z := 9218868437227405312.

Lemma double_pattern x : 0 <= x < 2 ^ 64 -> pattern double x.
Proof. intros H. exact H. Qed.

Lemma half_broken : pattern double two_and_a_half /\ not_whole two_and_a_half.
Proof.
  assert (Hp : pattern double two_and_a_half) by (apply double_pattern; split; [discriminate|reflexivity]).
  split; [exact Hp|]. intros k H. apply (whole_iff _ k Hp) in H.
  replace (int_float_eqb k two_and_a_half) with (rat_eqb (k, 1) (5 * 2 ^ 50, 2 ^ 51)) in H by reflexivity.
  unfold rat_eqb in H. cbn [fst snd] in H. apply Z.eqb_eq in H. lia.
Qed.

Lemma two_whole : pattern double two /\ whole two 2.
Proof.
  assert (Hp : pattern double two) by (apply double_pattern; split; [discriminate|reflexivity]).
  split; [exact Hp|]. apply (whole_iff _ 2 Hp). vm_compute. reflexivity.
Qed.

Lemma half_finite : is_finite double two_and_a_half /\ rounded_up two_and_a_half = 3.
Proof. split; [reflexivity|vm_compute; reflexivity]. Qed.

Lemma odd_ones : pattern double a_nan /\ is_nan double a_nan /\ pattern double an_infinity /\ plus_infinity an_infinity.
Proof.
  split; [apply double_pattern; split; [discriminate|reflexivity]|]. split; [split; [reflexivity|discriminate]|].
  split; [apply double_pattern; split; [discriminate|reflexivity]|]. split; [vm_compute; discriminate|]. split; [|reflexivity]. intros [_ H]. apply H. reflexivity.
Qed.

Definition one_byte (v : value) : dumped unit := field_to_stream [] 5 (u8 (byte "")) v VNone [].
Definition read_byte : loader value := field_from_stream [] 5 (u8 (byte "")) VNone [].

Lemma alike_refuted : ~ (forall dump1 err x l, pattern double x -> f_array_dump dump1 err x (VList l) = f_array_dump dump1 err x (VGen l)).
Proof.
  intros H. specialize (H one_byte (fun n => EArraySize None 0 (Some n)) two_and_a_half [VInt 1; VInt 2; VInt 3] (proj1 half_broken)). vm_compute in H. discriminate H.
Qed.

Lemma reload_refuted : ~ (forall err x l out fuel, pattern double x -> is_finite double x -> f_array_dump one_byte err x (VGen l) = (out, Ok tt) ->
  (length l < fuel)%nat -> exists s', f_array_load x fuel read_byte (mkStream out 0) = (s', Ok (VList l))).
Proof.
  intros H. destruct (H (fun n => EArraySize None 0 (Some n)) one_half [VInt 1; VInt 2] [1; 2] 5%nat) as (s' & Hs).
  - apply double_pattern; split; [discriminate|reflexivity].
  - reflexivity.
  - vm_compute. reflexivity.
  - cbn [length]. lia.
  - vm_compute in Hs. discriminate Hs.
Qed.
