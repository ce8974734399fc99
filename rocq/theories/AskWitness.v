(** Classes used as examples for C80. *)
From Coq Require Import ZArith List String.
From Verif Require Import Tac AskProofs Samples.
From Verif Require Export SpecAsk.
Import ListNotations.
Open Scope string_scope.

Definition add_one (x : value + exn) : query value :=
  match x with inl (VInt z) => QRet (VInt (z + 1)) | inl _ => QRaise ETypeErr | inr e => QRaise e end.

(** [b] is one more than [a], and [c] one more than [b]. *)
Definition chain : env :=
  [class_of "Chain" [named "a" (u8 (byte "a"));
                     named "b" (u8 (with_compute (QGet "a" add_one) (byte "b")));
                     named "c" (u8 (with_compute (QGet "b" add_one) (byte "c")))]].

(** [a] is one more than [b], and [b] one more than [a]. *)
Definition circle : env :=
  [class_of "Circle" [named "a" (u8 (with_compute (QGet "b" add_one) (byte "a")));
                      named "b" (u8 (with_compute (QGet "a" add_one) (byte "b")))]].

(** [third] is there if two fields were loaded before. *)
Definition if_two : value -> option stream -> query bool :=
  fun _ _ => QKeys (fun names => QRet (Nat.eqb (List.length names) 2)).
Definition third : field := u8 (with_present if_two VNone (byte "third")).

Lemma chain_reads : reads chain 0 [("a", VInt 1)] "c" (inl (VInt 3)).
Proof.
  assert (Ha : reads chain 0 [("a", VInt 1)] "a" (inl (VInt 1))).
  { apply reads_stored; cbn; auto. }
  assert (Hb : reads chain 0 [("a", VInt 1)] "b" (inl (VInt 2))).
  { eapply reads_given with (p := inl true) (v := VInt 2).
    - right. left. reflexivity.
    - cbn. intros [H|[]]. discriminate.
    - eapply supplies_computed; [reflexivity|reflexivity|].
      eapply answers_get; [exact Ha|]. apply answers_ret.
    - apply answers_ret.
    - apply given_value; discriminate. }
  eapply reads_given with (p := inl true) (v := VInt 3).
  - right. right. left. reflexivity.
  - cbn. intros [H|[]]. discriminate.
  - eapply supplies_computed; [reflexivity|reflexivity|].
    eapply answers_get; [exact Hb|]. apply answers_ret.
  - apply answers_ret.
  - apply given_value; discriminate.
Qed.

Lemma circle_endless n : struct_get circle n 0 [] "a" = OOF /\ struct_get circle n 0 [] "b" = OOF.
Proof.
  induction n as [|n [IHa IHb]]; [split; reflexivity|].
  split; cbn - [struct_get]; cbn [struct_get]; cbn - [struct_get]; rewrite ?IHa, ?IHb; reflexivity.
Qed.
