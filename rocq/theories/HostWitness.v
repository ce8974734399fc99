(** Examples of structs on hosts with different byte orders (C101). *)
From Coq Require Import String.
From Verif Require Import Decl Samples.
From Verif Require Export SpecHosts.
Open Scope list_scope.
Open Scope Z_scope.

(** A length without byte order, little-endian numbers, a union of a byte and a float. *)
Definition travel (h : endian) : classdef := class_of "T"
  [named "n" (Field (byte "n") (integer_on h false None));
   named "l" (Field (basic "l" SNone) (KArray (Field (basic "" (SInt 2)) (integer_on h true (Some Little))) (CntRef "n") None));
   named "u" (Field (basic "u" SNone) (KUnion [CField (Field (byte "") (integer_on h true None)); CField (Field (basic "" (SInt 4)) (float_on h binary32 (Some Big)))]
                                              (fun _ _ _ => Ok 0%nat) (fun _ _ _ => Ok 0%nat)))].
Definition travel_env (h : endian) : env := [travel h].

Lemma travel_met : ported_env Little Big (travel_env Little) (travel_env Big)
  /\ travel_env Little <> travel_env Big
  /\ struct_to_stream (travel_env Big) 5 0 [("n"%string, VInt 2); ("l"%string, VList [VInt 258; VInt 3]); ("u"%string, VInt 7)] VNone = ([2; 2; 1; 3; 0; 7], Ok tt).
Proof.
  split; [|split].
  - constructor; [|constructor]. split; [|split; reflexivity].
    repeat apply Forall2_cons; try apply Forall2_nil; (split; [reflexivity|]); cbn [snd named travel].
    + apply ported_integer. right. reflexivity.
    + apply ported_array. apply ported_integer. left. discriminate.
    + apply ported_union. repeat apply Forall2_cons; try apply Forall2_nil; apply ported_field; [apply ported_integer; right; reflexivity|apply ported_float; discriminate].
  - intros H. discriminate H.
  - vm_compute. reflexivity.
Qed.

Lemma bind_refuted :
  ~ (forall h h' defaults nm i o class c fmt, assoc defaults "endian"%string <> None ->
       bind_to_container defaults nm i o (mkDecl class false (Field c (float_on h fmt None)))
       = bind_to_container defaults nm i o (mkDecl class false (Field c (float_on h' fmt None))))
  /\ ~ (forall h h' defaults nm i o class c r tz sg, assoc defaults "endian"%string <> None ->
       bind_to_container defaults nm i o (mkDecl class false (Field c (timestamp_on h r tz sg None)))
       = bind_to_container defaults nm i o (mkDecl class false (Field c (timestamp_on h' r tz sg None)))).
Proof.
  split; intros H.
  - specialize (H Little Big [("endian"%string, Big)] "x"%string 0 (Some 0) "Float32"%string (basic "x" (SInt 4)) binary32 ltac:(discriminate)). discriminate H.
  - specialize (H Little Big [("endian"%string, Big)] "x"%string 0 (Some 0) "Timestamp"%string (basic "x" (SInt 4)) ResS true true ltac:(discriminate)). discriminate H.
Qed.

Lemma any_host_refuted :
  ~ (forall c sg z ctx d out s', field_to_stream [] 5 (Field c (integer_on Little sg None)) (VInt z) ctx d = (out, Ok tt) ->
       field_from_stream [] 5 (Field c (integer_on Little sg None)) ctx d (mkStream out 0) = (s', Ok (VInt z)) ->
       field_from_stream [] 5 (Field c (integer_on Big sg None)) ctx d (mkStream out 0) = (s', Ok (VInt z))).
Proof.
  intros H. specialize (H (basic "x" (SInt 2)) true 258 VNone [] [2; 1] (mkStream [2; 1] 2) eq_refl eq_refl).
  vm_compute in H. discriminate H.
Qed.
