(** Proof automation shared by the proof files. *)
From Coq Require Export ZifyBool ZifyNat Lia.
From Verif Require Export Base.

Ltac dmlia := Z.to_euclidean_division_equations; lia.

(** Lift a boolean sweep over 0..n-1. *)
Lemma sweep (P : Z -> bool) (n : nat) :
  forallb P (map Z.of_nat (seq 0 n)) = true ->
  forall z, 0 <= z < Z.of_nat n -> P z = true.
Proof.
  intros H z Hz. rewrite forallb_forall in H. apply H.
  apply in_map_iff. exists (Z.to_nat z). split; [lia|]. apply in_seq. lia.
Qed.
