(** Examples of callables that write into the dictionary of fields being dumped (C106). *)
From Coq Require Import String Lia.
From Verif Require Import Samples ScribbleProofs ScribbleWitness EditProofs.
From Verif Require Export SpecEdits.
Open Scope list_scope.
Open Scope Z_scope.

(** Nobody writes; every [present] sets [y], or sets it unless it is there. *)
Definition careful : edits := Edits (fun _ d => d) (fun _ _ d => d) (fun _ _ _ d => d).
Definition meddling : edits := Edits (fun _ d => d) (fun _ _ d => dset d "y" (VInt 9)) (fun _ _ _ d => d).
Definition filling : edits := Edits (fun _ d => d) (fun _ _ d => put_default "y" (VInt 9) d) (fun _ _ _ d => d).

Lemma careful_off : hands_off careful.
Proof. split; [|split]; reflexivity. Qed.
Lemma filling_inserts : inserts_only filling.
Proof. split; [|split]; intros; try apply extends_refl. apply put_extends. Qed.

(** [y] has the default 0 and is discarded. *)
Definition padded_class : env := [class_of "D" [named "x" (u8 (byte "x")); named "y" (u8 (with_discard (with_default (VInt 0) (byte "y"))))]].

Definition one_two : dict := [("x"%string, VInt 1); ("y"%string, VInt 2)].

Lemma pair_dumps : struct_to_stream pair_class 6 0 one_two VNone = ([1; 2], Ok tt)
  /\ e_struct_to_stream pair_class meddling 6 0 one_two VNone = ([1; 9], Ok tt)
  /\ e_struct_to_stream pair_class filling 6 0 one_two VNone = ([1; 2], Ok tt).
Proof. split; [|split]; vm_compute; reflexivity. Qed.
Lemma padded_dumps : struct_to_stream padded_class 6 0 one_two VNone = ([1; 0], Ok tt)
  /\ e_struct_to_stream padded_class filling 6 0 one_two VNone = ([1; 9], Ok tt).
Proof. split; vm_compute; reflexivity. Qed.

Lemma inserts_unlike : ~ (forall E W n cid vals ctx, inserts_only W -> e_struct_to_stream E W n cid vals ctx = struct_to_stream E n cid vals ctx).
Proof. intros H. specialize (H padded_class filling 6%nat 0%nat one_two VNone filling_inserts). rewrite (proj1 padded_dumps), (proj2 padded_dumps) in H. discriminate H. Qed.

Lemma own_overwritten : ~ (forall E W n cid vals ctx before name f after all_fields w o1 d1 d2 v,
  comps E cid = before ++ (name, f) :: after -> c_name (conf f) = Some name ->
  to_dict E n cid vals false = Ok all_fields -> dget all_fields name = Some w ->
  e_dump_fields E W (e_do_dump E W n) n before ctx all_fields = (o1, d1, Ok tt) ->
  e_compute_value W (conf f) ctx d1 = ([], d2, Ok v) -> v = w \/ v = VNotPresent).
Proof.
  intros H. specialize (H pair_class meddling 6%nat 0%nat one_two VNone [("x"%string, u8 (byte "x"))] "y"%string (u8 (byte "y")) [] one_two (VInt 2)
    [1] [("x"%string, VInt 1); ("y"%string, VInt 9)] [("x"%string, VInt 1); ("y"%string, VInt 9)] (VInt 9)).
  destruct H as [H|H]; try (vm_compute; reflexivity); discriminate H.
Qed.
