(** Witnesses used by PropertiesHalt.v. *)
From Verif Require Import Samples RoundWitness HaltProofs.
Open Scope Z_scope.

(** Names up to an empty one, followed by a byte. *)
Definition blank (v : value) : bool := match v with VStr [] => true | _ => false end.
Definition name_item : field := Field (basic "names" SNone) (KStringZ Utf8 None).
Definition names_of (h : haltfn) : field := Field (basic "names" SNone) (KArray name_item CntNone (Some h)).
Definition list_E : env :=
  [class_of "Kept" [named "names" (names_of (sentinel_kept blank)); named "tail" (u8 (byte "tail"))];
   class_of "Removed" [named "names" (names_of (sentinel_removed blank)); named "tail" (u8 (byte "tail"))]].

Definition kept_vals : dict :=
  [("names"%string, VList [VStr [97; 98]; VStr [233]; VStr []]); ("tail"%string, VInt 5)].
Definition kept_bytes : list Z := [97; 98; 0; 195; 169; 0; 0; 5].

Lemma kept_instance : instance_of list_E 0 kept_vals.
Proof.
  split; [|split].
  - split; [repeat constructor; cbn; intuition discriminate|].
    split; [repeat constructor|]. intros name. cbn. tauto.
  - repeat constructor; cbn; intuition discriminate.
  - intros x. cbn. tauto.
Qed.

Lemma kept_dump : struct_to_stream list_E 9 0 kept_vals VNone = (kept_bytes, Ok tt).
Proof. vm_compute. reflexivity. Qed.
Lemma kept_to_dict : to_dict list_E 9 0 kept_vals false = Ok kept_vals.
Proof. vm_compute. reflexivity. Qed.
Lemma kept_load : struct_from_stream list_E 9 0 VNone [] (mkStream kept_bytes 0)
  = (mkStream kept_bytes 8, Ok kept_vals).
Proof. vm_compute. reflexivity. Qed.

Lemma name_suits t : Forall (fun cp => cp <> 0) t -> suits list_E [] false kept_vals name_item (VStr t).
Proof.
  intros H. apply plain_leaf; try reflexivity; [intros ? []|]. apply suits_stringz; auto.
Qed.

Lemma kept_holds : holds_struct list_E false 0 kept_vals.
Proof.
  apply holds_all.
  - split; [apply kept_instance|]. split; [intros name ms H; cbn in H; intuition congruence|]. reflexivity.
  - split; [apply kept_instance|]. intros name. cbn. split.
    + intros [<-|[<-|[]]]; eexists; (split; [eauto|reflexivity]).
    + intros (f & [H|[H|[]]] & _); injection H as <- _; auto.
  - intros pre nm f post H Hd. cbn in H. split_list H; discriminate Hd.
  - intros pre nm f post H Hd. cbn in H. split_list H; discriminate Hd.
  - intros pre nm f post x H Hx Hne. cbn in H. split_list H; cbn in Hx; injection Hx as <-.
    + apply plain_container; try reflexivity.
      apply (holds_sentinel list_E _ _ _ _ name_item CntNone blank [VStr [97; 98]; VStr [233]] (VStr [])); auto.
      * intros x [<-|[<-|[<-|[]]]]; apply name_suits; repeat constructor; discriminate.
      * repeat constructor.
      * exact I.
    + apply plain_leaf; try reflexivity; [intros ? []|econstructor; reflexivity].
Qed.

(** The check that takes the empty name off the list: what is loaded is dumped without it. *)
Definition removed_vals : dict :=
  [("names"%string, VList [VStr [97; 98]; VStr [233]]); ("tail"%string, VInt 5)].
Definition removed_bytes : list Z := [97; 98; 0; 195; 169; 0; 5].

Lemma removed_load : struct_from_stream list_E 9 1 VNone [] (mkStream kept_bytes 0)
  = (mkStream kept_bytes 8, Ok removed_vals).
Proof. vm_compute. reflexivity. Qed.
Lemma removed_dump : struct_to_stream list_E 9 1 removed_vals VNone = (removed_bytes, Ok tt).
Proof. vm_compute. reflexivity. Qed.
Lemma removed_reload : struct_from_stream list_E 9 1 VNone [] (mkStream removed_bytes 0)
  = (mkStream removed_bytes 7, Raise (EDeserialization (Some "names"%string))).
Proof. vm_compute. reflexivity. Qed.

Lemma removed_not_round :
  ~ (forall E n cid bs vals out, struct_from_stream E n cid VNone [] (mkStream bs 0) = (mkStream bs (length bs), Ok vals) ->
     struct_to_stream E n cid vals VNone = (out, Ok tt) ->
     struct_from_stream E n cid VNone [] (mkStream out 0) = (mkStream out (length out), Ok vals)).
Proof.
  intros H. specialize (H list_E 9%nat 1%nat kept_bytes removed_vals removed_bytes removed_load removed_dump).
  rewrite removed_reload in H. discriminate H.
Qed.
