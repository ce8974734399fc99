(** A class used as an example for C83. *)
From Coq Require Import ZArith List String.
From Verif Require Import Tac Samples InheritWitness.
From Verif Require Export PatchProofs.
Import ListNotations.
Open Scope string_scope.

(** A kind, a signed 16-bit number, and a body preceded by its length. *)
Definition record : list (string * field) :=
  [named "kind" (u8 (byte "kind"));
   named "num" (Field (basic "num" (SInt 2)) (KInt true Big))] ++ message.
Definition records : env := [class_of "Record" record].
Definition record_before : dict := [("num", VInt 258); ("body", VBytes [7; 8]%Z); ("kind", VInt 5)].
Definition record_after : dict := [("num", VInt (-2)); ("body", VBytes [7; 8]%Z); ("kind", VInt 5)].
(** What the fields come to, the computed length included. *)
Definition record_all (num : Z) : dict :=
  [("num", VInt num); ("body", VBytes [7; 8]%Z); ("kind", VInt 5); ("size", VInt 2)].

Lemma records_well_formed : well_formed (cls records 0).
Proof. split; [repeat constructor; cbn; intuition discriminate|]. split; [repeat constructor|]. intros x. cbn. tauto. Qed.

Lemma record_instance num : instance_of records 0 [("num", VInt num); ("body", VBytes [7; 8]%Z); ("kind", VInt 5)].
Proof.
  split; [exact records_well_formed|]. split; [repeat constructor; cbn; intuition discriminate|].
  intros x. cbn. intuition.
Qed.

Lemma record_independent : independent (cls records 0) (others (cls records 0) "num").
Proof.
  intros name f Hi Hn. cbn in Hi, Hn. cbn.
  destruct Hi as [[= <- <-]|[[= <- <-]|[[= <- <-]|[[= <- <-]|[]]]]].
  - split; [apply contained_leaf; exact I|]. split; [intros; constructor|]. intros q. discriminate.
  - intuition discriminate.
  - split; [apply contained_leaf; exact I|]. split; [intros; constructor|].
    intros q [= <-]. apply looks_get; [cbn; auto|]. intros [[]|]; constructor.
  - split; [apply contained_leaf; [exact I|cbn; auto]|]. split; [intros; constructor|]. intros q. discriminate.
Qed.

(** The length is not independent of the body. *)
Lemma body_not_independent : exists vals vals' out out',
  instance_of records 0 vals /\ instance_of records 0 vals'
  /\ (forall x, x <> "body" -> dget vals x = dget vals' x)
  /\ struct_to_stream records 9 0 vals VNone = (out, Ok tt)
  /\ struct_to_stream records 9 0 vals' VNone = (out', Ok tt)
  /\ nth 3 out 0%Z <> nth 3 out' 0%Z.
Proof.
  exists record_before, [("num", VInt 258); ("body", VBytes [7]%Z); ("kind", VInt 5)],
    [5; 1; 2; 2; 7; 8]%Z, [5; 1; 2; 1; 7]%Z.
  split; [apply record_instance|]. split.
  { split; [exact records_well_formed|]. split; [repeat constructor; cbn; intuition discriminate|].
    intros x. cbn. intuition. }
  split; [|split; [vm_compute; reflexivity|split; [vm_compute; reflexivity|discriminate]]].
  intros x Hx. cbn [dget record_before]. destruct (String.eqb_spec "num" x); auto.
  destruct (String.eqb_spec "body" x); [congruence|]. auto.
Qed.
