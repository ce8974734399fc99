(** A class whose [present] function changes its mind (C109). *)
From Coq Require Import String Lia.
From Verif Require Import Tac SpecMoodLoads MoodLoadProofs Samples.
Open Scope list_scope.
Open Scope Z_scope.

(** A byte that is there when first asked for, but not later; and one that is always there. *)
Definition shy_conf : fconf := with_present (fun _ _ => QRet true) VNotPresent (byte "x").
Definition shy_mood (t : nat) (c : fconf) : fconf :=
  match c_name c with
  | Some name => if String.eqb name "x" then with_present (fun _ _ => QRet (Nat.ltb t 1)) (c_npv c) c else c
  | None => c
  end.
Definition positive : value -> query unit := fun v => match v with VInt z => if 0 <? z then QRet tt else QRaise (EValidation None) | _ => QRet tt end.
Definition shy_env : env := [mkClass "Shy" [named "x" (u8 shy_conf); named "y" (u8 (byte "y"))] [("x"%string, [positive]); ("y"%string, [])] [] 2 []].

Lemma shy_moody : moody shy_mood.
Proof.
  intros t c. unfold same_but_callables, shy_mood. destruct (c_name c) as [name|] eqn:Hn; [destruct (String.eqb name "x")|]; cbn; rewrite ?Hn; repeat split; auto.
Qed.

Lemma shy_wf : well_formed (cls shy_env 0).
Proof.
  split; [|split].
  - cbn. constructor; [cbn; intuition discriminate|]. constructor; [cbn; auto|constructor].
  - cbn. constructor; [reflexivity|]. constructor; [reflexivity|constructor].
  - intros x Hx. exact Hx.
Qed.

Lemma shy_loads :
  t_struct_from_stream shy_env shy_mood 5 0 VNone [] 0 (mkStream [1; 2] 0)
  = (2%nat, (mkStream [1; 2] 2, Ok [("x"%string, VInt 1); ("y"%string, VInt 2)]))
  /\ t_struct_from_stream shy_env shy_mood 5 0 VNone [] 2 (mkStream [1; 2] 0)
     = (4%nat, (mkStream [1; 2] 1, Ok [("x"%string, VNotPresent); ("y"%string, VInt 1)]))
  /\ snd (t_struct_from_stream shy_env shy_mood 5 0 VNone [] 0 (mkStream [0; 2] 0)) = (mkStream [0; 2] 2, Raise (EValidation None))
  /\ t_partial_load shy_env shy_mood 5 0 None VNone 2 (mkStream [1] 0) = (4%nat, (mkStream [1] 1, Ok [("x"%string, VNotPresent); ("y"%string, VInt 1)]))
  /\ t_struct_to_stream shy_env shy_mood 5 0 [("x"%string, VInt 1); ("y"%string, VInt 2)] VNone 2 = ([2], Ok tt).
Proof. repeat split; vm_compute; reflexivity. Qed.

Lemma same_bytes_refuted :
  ~ (forall E mood n cid ctx t t' data vals out, moody mood -> well_formed (cls E cid) ->
       t_struct_from_stream E mood n cid ctx [] t (mkStream data 0) = (t', (mkStream data (length data), Ok vals)) ->
       t_struct_to_stream E mood n cid vals ctx t' = (out, Ok tt) -> out = data).
Proof.
  intros H. destruct shy_loads as (H1 & _ & _ & _ & H5).
  specialize (H shy_env shy_mood 5%nat 0%nat VNone 0%nat 2%nat [1; 2] _ [2] shy_moody shy_wf H1 H5). discriminate.
Qed.

Lemma same_load_refuted :
  ~ (forall E mood n cid ctx t t' s, moody mood -> well_formed (cls E cid) ->
       snd (t_struct_from_stream E mood n cid ctx [] t s) = snd (t_struct_from_stream E mood n cid ctx [] t' s)).
Proof.
  intros H. destruct shy_loads as (H1 & H2 & _).
  specialize (H shy_env shy_mood 5%nat 0%nat VNone 0%nat 2%nat (mkStream [1; 2] 0) shy_moody shy_wf). rewrite H1, H2 in H. discriminate.
Qed.
