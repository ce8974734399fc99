(** Classes used as examples for C81. *)
From Coq Require Import ZArith List String.
From Verif Require Import Tac InheritProofs Samples.
Import ListNotations.
Open Scope string_scope.

(** [size] is the length of [body]. *)
Definition body_length : query value :=
  QGet "body" (fun r => match r with
                        | inl (VBytes bs) => QRet (VInt (zlen bs))
                        | inl _ => QRaise ETypeErr
                        | inr e => QRaise e
                        end).
Definition message : list (string * field) :=
  [named "size" (u8 (with_compute body_length (byte "size")));
   named "body" (Field (basic "body" (SRef "size")) KBytes)].

(** class Message(Struct): size, body;  class Checked(Message): sum = UInt8() *)
Definition messages : env :=
  [class_of "Message" message; class_of "Checked" (message ++ [named "sum" (u8 (byte "sum"))])].

Lemma messages_extends : extends messages 1 0.
Proof.
  split; [eexists; reflexivity|]. split; [|exists []; reflexivity].
  intros name methods Hi. exists []. rewrite app_nil_r. cbn in *. tauto.
Qed.

Lemma messages_well_formed : well_formed (cls messages 0) /\ well_formed (cls messages 1).
Proof.
  split; (split; [repeat constructor; cbn; intuition discriminate|]; split; [repeat constructor|]; intros x; cbn; tauto).
Qed.

Lemma messages_closed : closed (cls messages 0).
Proof.
  split.
  - split.
    + intros name methods q v Hi Hq. cbn in Hi. destruct Hi as [[= <- <-]|[[= <- <-]|[]]]; destruct Hq.
    + intros q [].
  - intros name f Hi. cbn in Hi. destruct Hi as [[= <- <-]|[[= <- <-]|[]]].
    + split; [apply contained_leaf; exact I|]. split; [intros; constructor|].
      intros q [= <-]. apply looks_get; [right; left; reflexivity|].
      intros [[]|]; constructor.
    + split; [apply contained_leaf; [exact I|left; reflexivity]|]. split; [intros; constructor|]. intros q. discriminate.
Qed.

(** A base class whose computed field counts the fields of the struct it is asked about. *)
Definition how_many : query value := QKeys (fun names => QRet (VInt (zlen names))).
Definition counting : list (string * field) := [named "n" (u8 (with_compute how_many (byte "n")))].
Definition countings : env :=
  [class_of "Base" counting; class_of "Sub" (counting ++ [named "x" (u8 (byte "x"))])].

Lemma counting_differs :
  extends countings 1 0 /\ well_formed (cls countings 0) /\ well_formed (cls countings 1)
  /\ struct_to_bytes countings 9 1 [("x", VInt 7)] VNone = Ok [1; 7]%Z
  /\ struct_to_bytes countings 9 0 [] VNone = Ok [0]%Z.
Proof.
  split.
  { split; [eexists; reflexivity|]. split; [|exists []; reflexivity].
    intros name methods Hi. exists []. rewrite app_nil_r. cbn in *. tauto. }
  split; [|split; [|split; reflexivity]];
  (split; [repeat constructor; cbn; intuition discriminate|]; split; [repeat constructor|]; intros x; cbn; tauto).
Qed.
