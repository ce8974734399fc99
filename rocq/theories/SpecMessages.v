(** What the messages of exceptions should say (C91), independently of how they are built. *)
From Coq Require Import Sorted.
From Verif Require Export Messages Decimal.
Open Scope list_scope.
Open Scope Z_scope.

Definition ascii_text (t : text) : Prop := Forall (fun ch => 0 <= ch < 128) t.
Definition printable (t : text) : Prop := Forall (fun ch => 32 <= ch < 127) t.

(** ** String literals *)

Definition hex_value (a d : Z) : Prop := (48 <= a <= 57 /\ d = a - 48) \/ (97 <= a <= 102 /\ d = a - 87).

(** [t], between quotes [q], is the source text of a string literal for [s]. *)
Inductive denotes (q : Z) : text -> text -> Prop :=
| dn_nil : denotes q [] []
| dn_plain ch t s : 32 <= ch < 127 -> ch <> q -> ch <> 92 -> denotes q t s -> denotes q (ch :: t) (ch :: s)
| dn_itself ch t s : ch = 34 \/ ch = 39 \/ ch = 92 -> denotes q t s -> denotes q (92 :: ch :: t) (ch :: s)
| dn_tab t s : denotes q t s -> denotes q (92 :: 116 :: t) (9 :: s)
| dn_newline t s : denotes q t s -> denotes q (92 :: 110 :: t) (10 :: s)
| dn_return t s : denotes q t s -> denotes q (92 :: 114 :: t) (13 :: s)
| dn_hex a b x y t s : hex_value a x -> hex_value b y -> denotes q t s ->
    denotes q (92 :: 120 :: a :: b :: t) (16 * x + y :: s).

Inductive literal (s : text) : text -> Prop :=
| literal_for q t : q = 34 \/ q = 39 -> denotes q t s -> literal s (q :: t ++ [q]).

(** ** Order of names: the usual order of texts *)
Inductive text_lt : text -> text -> Prop :=
| tl_nil ch t : text_lt [] (ch :: t)
| tl_head a b s t : a < b -> text_lt (a :: s) (b :: t)
| tl_tail a s t : text_lt s t -> text_lt (a :: s) (a :: t).

(** ** Texts joined by commas *)
Inductive comma_separated : list text -> text -> Prop :=
| cs_one x : comma_separated [x] x
| cs_more x l t : comma_separated l t -> comma_separated (x :: l) (x ++ lit ", " ++ t).
