(** Words for callables that write into the dictionary of fields being dumped (C106). *)
From Coq Require Import String.
From Verif Require Export SpecScribbles Edits.

(** Every callable leaves a dictionary that is related in this way to the one it got. *)
Definition all_edits (R : dict -> dict -> Prop) (W : edits) : Prop :=
  (forall c d, R d (ed_compute W c d)) /\ (forall c ctx d, R d (ed_present W c ctx d)) /\ (forall c v ctx d, R d (ed_decide W c v ctx d)).

(** Nobody writes; nobody changes or removes an entry. *)
Definition hands_off (W : edits) : Prop := all_edits (fun d d' => d' = d) W.
Definition inserts_only (W : edits) : Prop := all_edits extends W.
