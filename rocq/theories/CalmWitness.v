(** A class with a number that is new each time (C111). *)
From Coq Require Import String Lia.
From Verif Require Import Tac Samples RoundWitness MoodProofs CalmProofs.
From Verif Require Export SpecCalm.
Open Scope list_scope.
Open Scope Z_scope.

(** The computing function tells how often it and others have been called. *)
Definition ticket_mood (t : nat) (c : fconf) : fconf :=
  match c_compute c with Some _ => with_compute (QRet (VInt (Z.of_nat t))) c | None => c end.
Definition ticket_E : env :=
  [class_of "Ticket" [named "no" (u8 (with_compute (QRet (VInt 0)) (byte "no"))); named "seat" (u8 (byte "seat"))]].
Definition ticket_vals : dict := [("seat"%string, VInt 9)].
Definition ticket_dict (z : Z) : dict := [("no"%string, VInt z); ("seat"%string, VInt 9)].

(** As [to_dict] gives it. *)
Definition ticket_shown (z : Z) : dict := [("seat"%string, VInt 9); ("no"%string, VInt z)].

Lemma ticket_moody : moody ticket_mood.
Proof.
  intros t c. unfold same_but_callables, ticket_mood. destruct (c_compute c) eqn:Hc; cbn; repeat split; auto; try congruence; discriminate.
Qed.
Lemma ticket_settled : presence_settled ticket_mood.
Proof. intros t c. unfold ticket_mood. destruct (c_compute c); reflexivity. Qed.

Lemma ticket_straight : straight_class (cls ticket_E 0).
Proof.
  split.
  { split; [repeat constructor; cbn; intuition discriminate|].
    split; [repeat constructor|]. intros name. cbn. tauto. }
  split; [intros name ms H; cbn in H; intuition congruence|]. reflexivity.
Qed.

Lemma ticket_instance vals : vals = ticket_vals \/ (exists z, vals = ticket_dict z) -> instance_of ticket_E 0 vals.
Proof.
  intros H. split; [apply ticket_straight|].
  destruct H as [->|[z ->]]; (split; [repeat constructor; cbn; intuition discriminate|]); intros x; cbn; tauto.
Qed.

Lemma ticket_set z : all_set ticket_E 0 (ticket_dict z).
Proof.
  intros name f [H|[H|[]]]; injection H as <- <-; right; (split; [reflexivity|]); eexists; (split; [reflexivity|discriminate]).
Qed.

Lemma ticket_holds z : 0 <= z < 256 -> holds_struct ticket_E false 0 (ticket_shown z).
Proof.
  intros Hz. apply holds_all; [exact ticket_straight|..].
  - split; [repeat constructor; cbn; intuition discriminate|]. intros nm. cbn.
    split; [intros [<-|[<-|[]]]; eexists; split; eauto|].
    intros (f & [H|[H|[]]] & _); injection H as <- <-; auto.
  - intros pre nm f post H Hd. cbn in H. split_list H; discriminate Hd.
  - intros pre nm f post H Hx. cbn in H. split_list H; discriminate Hx.
  - intros pre nm f post x H Hx _. cbn in H.
    split_list H; cbn in Hx; injection Hx as <-;
      (apply plain_leaf; try reflexivity; [intros ? []|]); econstructor; try reflexivity; cbn; lia.
Qed.

(** The struct is dumped at times 0 and 20, and loaded. *)
Lemma ticket_dumps : t_validate_contents ticket_E ticket_mood 5 0 ticket_vals 0%nat = (2%nat, Ok tt)
  /\ t_to_dict ticket_E ticket_mood 5 0 ticket_vals false 2%nat = (6%nat, Ok (ticket_shown 2))
  /\ t_struct_to_stream ticket_E ticket_mood 5 0 ticket_vals VNone 0 = ([2; 9], Ok tt)
  /\ t_struct_to_stream ticket_E ticket_mood 5 0 ticket_vals VNone 20 = ([22; 9], Ok tt)
  /\ t_struct_from_stream ticket_E ticket_mood 5 0 VNone [] 50 (mkStream [2; 9] 0) = (52%nat, (mkStream [2; 9] 2, Ok (ticket_dict 2)))
  /\ t_struct_to_stream ticket_E ticket_mood 5 0 (ticket_dict 2) VNone 60 = ([2; 9], Ok tt).
Proof. repeat split; vm_compute; reflexivity. Qed.

(** A discarded field that is set is written as the function says all the same. *)
Definition stub_E : env := [class_of "Stub" [named "no" (u8 (with_discard (with_compute (QRet (VInt 0)) (byte "no"))))]].

Lemma stub_dumps : t_struct_to_stream stub_E ticket_mood 5 0 [("no"%string, VInt 7)] VNone 0 <> t_struct_to_stream stub_E ticket_mood 5 0 [("no"%string, VInt 7)] VNone 1.
Proof. vm_compute. discriminate. Qed.

Lemma stub_instance : instance_of stub_E 0 [("no"%string, VInt 7)].
Proof.
  split; [split; [repeat constructor; cbn; intuition discriminate|]; split; [repeat constructor|]; intros name; cbn; tauto|].
  split; [repeat constructor; cbn; intuition discriminate|]. intros x. cbn. tauto.
Qed.

Lemma set_discarded_refuted : ~ (forall E mood n cid vals ctx t t', moody mood -> presence_settled mood -> instance_of E cid vals ->
  (forall name f, In (name, f) (k_comps (cls E cid)) -> exists v, dget vals name = Some v /\ v <> VUndefined) ->
  t_struct_to_stream E mood n cid vals ctx t = t_struct_to_stream E mood n cid vals ctx t').
Proof.
  intros H. apply stub_dumps. apply H; [exact ticket_moody|exact ticket_settled|exact stub_instance|].
  intros name f [Hi|[]]. injection Hi as <- <-. eexists. split; [reflexivity|discriminate].
Qed.

Lemma unset_refuted : ~ (forall E mood n cid vals ctx t t', moody mood -> presence_settled mood -> instance_of E cid vals ->
  t_struct_to_stream E mood n cid vals ctx t = t_struct_to_stream E mood n cid vals ctx t').
Proof.
  intros H. specialize (H ticket_E ticket_mood 5%nat 0%nat ticket_vals VNone 0%nat 20%nat ticket_moody ticket_settled (ticket_instance _ (or_introl eq_refl))).
  destruct ticket_dumps as (_ & _ & H1 & H2 & _). rewrite H1, H2 in H. discriminate.
Qed.
