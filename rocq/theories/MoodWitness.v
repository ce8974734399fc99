(** A class whose compute function changes its mind (C98). *)
From Coq Require Import String Lia.
From Verif Require Import Tac SpecMoods MoodProofs Samples.
Open Scope list_scope.
Open Scope Z_scope.

(** A byte computed by a function that says 1 at first, and 2 later; a method insists on 1. *)
Definition fickle_conf : fconf := with_compute (QRet (VInt 1)) (byte "x").
Definition fickle_mood (t : nat) (c : fconf) : fconf :=
  match c_compute c with Some _ => with_compute (QRet (VInt (if Nat.ltb t 2 then 1 else 2))) c | None => c end.
Definition insists : value -> query unit := fun v => match v with VInt 1 => QRet tt | _ => QRaise (EValidation None) end.
Definition fickle_env : env := [mkClass "Fickle" [named "x" (u8 fickle_conf); named "y" (u8 (byte "y"))] [("x"%string, [insists]); ("y"%string, [])] [] 2 []].

Lemma fickle_moody : moody fickle_mood.
Proof.
  intros t c. unfold same_but_callables, fickle_mood. destruct (c_compute c) eqn:Hc; cbn; repeat split; auto; try congruence; discriminate.
Qed.

Lemma fickle_instance : instance_of fickle_env 0 [("y"%string, VInt 5)].
Proof.
  split; [|split].
  - split; [|split].
    + cbn. constructor; [cbn; intuition discriminate|]. constructor; [cbn; auto|constructor].
    + cbn. constructor; [reflexivity|]. constructor; [reflexivity|constructor].
    + intros x Hx. exact Hx.
  - repeat constructor; cbn; intuition.
  - intros x [<-|[]]. cbn. auto.
Qed.

Lemma fickle_refutes :
  ~ (forall E mood n cid vals out name f vs q, moody mood -> instance_of E cid vals ->
       t_struct_to_stream E mood n cid vals VNone 0 = (out, Ok tt) ->
       In (name, f) (k_comps (cls E cid)) -> c_discard (conf f) = false -> In (name, vs) (k_fvals (cls E cid)) -> In q vs ->
       exists all parts v s s', Forall2 (written_once E mood n VNone all) (k_comps (cls E cid)) parts /\ out = concat parts
         /\ dget all name = Some v /\ t_run_struct E mood n cid vals (q v) s = (s', Ok tt)).
Proof.
  intros H. destruct (H fickle_env fickle_mood 5%nat 0%nat [("y"%string, VInt 5)] [2; 5] "x"%string (u8 fickle_conf) [insists] insists) as (all & parts & v & s & s' & Hp & Ho & Hg & Hq).
  - apply fickle_moody.
  - apply fickle_instance.
  - vm_compute. reflexivity.
  - left. reflexivity.
  - reflexivity.
  - left. reflexivity.
  - left. reflexivity.
  - assert (v = VInt 1) as -> by (unfold t_run_struct, insists in Hq; destruct v as [| | | |z|x|b|u|u|us aw|l|g|d|cid d]; try discriminate; destruct z as [|[| |]|]; try discriminate; reflexivity).
    unfold fickle_env, cls, nth in Hp. cbn [k_comps] in Hp. inversion Hp as [|? p1 ? ps H1 _]; subst. cbn [concat] in Ho.
    destruct H1 as [(-> & Ha)|(w & Hw & _ & Hf)].
    + destruct (Ha eq_refl) as [Ha'|(t & Ht)]; [rewrite Ha' in Hg; discriminate|].
      unfold fickle_mood, fickle_conf in Ht. cbn in Ht. discriminate.
    + specialize (Hw eq_refl). rewrite Hg in Hw. injection Hw as <-.
      assert (Hone : field_to_stream fickle_env 5 (u8 fickle_conf) (VInt 1) VNone all = ([1], Ok tt)) by reflexivity.
      unfold fickle_env, cls, nth in Hone. rewrite Hone in Hf. injection Hf as <-. discriminate.
Qed.
