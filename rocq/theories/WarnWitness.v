(** Classes that warn, and that do not (C99). *)
From Coq Require Import String Lia.
From Verif Require Import Tac SpecWarn WarnProofs Samples.
Open Scope list_scope.
Open Scope Z_scope.

(** The byte [a] is present, but insists that [b] is there; [b] is computed. *)
Definition scold : query bool := QIn "b" (fun b => if b then QRet true else QRaise (EValidation None)).
Definition scold_env : env :=
  [class_of "Scold" [named "a" (u8 (with_present (fun _ _ => scold) VNotPresent (byte "a"))); named "b" (u8 (with_compute (QRet (VInt 7)) (byte "b")))]].

(** The byte [a] is set, [b] is computed from nothing. *)
Definition mild_env : env := [class_of "Mild" [named "a" (u8 (byte "a")); named "b" (u8 (with_compute (QRet (VInt 7)) (byte "b")))]].

Lemma mild_meek : meek_env mild_env.
Proof.
  constructor; [|constructor]. constructor; [|constructor; [|constructor]]; (split; [intros; constructor|split; cbn; try exact I; constructor]).
Qed.

Lemma mild_dateless : dateless_env mild_env.
Proof. repeat constructor. Qed.

Lemma scold_instance : instance_of scold_env 0 [("a"%string, VInt 1)].
Proof.
  split; [|split].
  - split; [|split].
    + cbn. constructor; [cbn; intuition discriminate|]. constructor; [cbn; auto|constructor].
    + cbn. constructor; [reflexivity|]. constructor; [reflexivity|constructor].
    + intros x Hx. exact Hx.
  - repeat constructor; cbn; auto.
  - intros x [<-|[]]. cbn. auto.
Qed.

Lemma scold_refutes :
  ~ (forall E n cid vals ctx out, dateless_env E -> instance_of E cid vals ->
       struct_to_stream E n cid vals ctx = (out, Ok tt) -> s_struct_to_stream E n cid vals ctx = (out, Ok tt)).
Proof.
  intros H. specialize (H scold_env 5%nat 0%nat [("a"%string, VInt 1)] VNone [1; 7]).
  assert (Hd : dateless_env scold_env) by (repeat constructor).
  specialize (H Hd scold_instance). assert (Hs : struct_to_stream scold_env 5 0 [("a"%string, VInt 1)] VNone = ([1; 7], Ok tt)) by (vm_compute; reflexivity).
  specialize (H Hs). vm_compute in H. discriminate.
Qed.
