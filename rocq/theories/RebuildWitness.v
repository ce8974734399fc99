(** Witnesses used by PropertiesBuild.v. *)
From Verif Require Import Samples StructProofs.
From Verif Require Export RebuildProofs RoundWitness.

Lemma round_present name f x : In (name, f) (k_comps (cls round_E 0)) -> dget round_dict name = Some x ->
  x <> VNotPresent -> run_struct round_E 9 0 round_dict (c_present (conf f) VNone None) = Ok true.
Proof.
  intros Hin Hx Hne. cbn in Hin.
  repeat (destruct Hin as [Hin|Hin];
          [injection Hin as <- <-; try (vm_compute; reflexivity); vm_compute in Hx; injection Hx as <-;
           destruct Hne; reflexivity|]).
  destruct Hin.
Qed.

Lemma round_discard name f : In (name, f) (k_comps (cls round_E 0)) -> c_discard (conf f) = true ->
  exists v, run_struct round_E 9 0 round_dict (compute_value_for_dump (conf f) VNone) = Ok v.
Proof.
  intros Hin Hd. cbn in Hin.
  repeat (destruct Hin as [Hin|Hin]; [injection Hin as <- <-; try discriminate Hd|]); [|destruct Hin].
  eexists. vm_compute. reflexivity.
Qed.

Lemma round_valid : validated round_E 9 0 round_vals /\ validated round_E 9 0 round_dict.
Proof. split; apply validate_contents_iff; vm_compute; reflexivity. Qed.

(** A discarded field that decides whether another is present. *)
Definition lost_E : env :=
  [class_of "Lost"
     [named "flag" (u8 (with_discard (with_default (VInt 0) (byte "flag"))));
      named "x" (u8 (with_present if_flag VNone (byte "x")))]].

Definition rebuilds : Prop := forall E n cid vals d, instance_of E cid vals ->
  to_dict E n cid vals false = Ok d -> to_dict E n cid d false = Ok d.

Lemma lost_refutes : ~ rebuilds.
Proof.
  intros H. specialize (H lost_E 9%nat O [("flag"%string, VInt 1); ("x"%string, VInt 5)] [("x"%string, VInt 5)]).
  assert (Hw : instance_of lost_E 0 [("flag"%string, VInt 1); ("x"%string, VInt 5)]).
  { split; [|split].
    - split; [repeat constructor; cbn; intuition discriminate|].
      split; [repeat constructor|]. intros name. cbn. tauto.
    - repeat constructor; cbn; intuition discriminate.
    - intros x. cbn. tauto. }
  specialize (H Hw). vm_compute in H. specialize (H eq_refl). discriminate H.
Qed.
