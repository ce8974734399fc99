(** Witnesses used by PropertiesWire.v. *)
From Verif Require Import Samples.
From Verif Require Export SpecWire RoundWitness WireProofs.
Open Scope Z_scope.

Lemma inner_regular z t : regular_struct round_E 1 (inner_val z t).
Proof.
  apply regular_all; [exact inner_straight|..].
  - split; [repeat constructor; cbn; intuition discriminate|]. intros nm. cbn.
    split; [intros [<-|[<-|[]]]; eexists; split; eauto|].
    intros (f & [H|[H|[]]] & _); injection H as <- <-; auto.
  - intros nm f [H|[H|[]]] Hd; injection H as <- <-; discriminate Hd.
  - intros nm f [H|[H|[]]] Hd; injection H as <- <-; discriminate Hd.
  - intros nm f v [H|[H|[]]] Hv Hne; injection H as <- <-; apply always; reflexivity.
  - intros nm f v [H|[H|[]]] Hv Hne; injection H as <- <-; cbn in Hv; injection Hv as <-;
      apply regular_leaf; constructor.
  - intros nm f [H|[H|[]]] Hv; injection H as <- <-; discriminate Hv.
Qed.

Lemma byte_regular d name z : regular round_E d (u8 (byte name)) (VInt z).
Proof. apply regular_leaf. econstructor. reflexivity. Qed.

Lemma round_regular : regular_struct round_E 0 round_dict.
Proof.
  apply regular_all; [exact round_straight|..].
  - split; [repeat constructor; cbn; intuition discriminate|]. intros nm. cbn. split.
    + intros H. repeat (destruct H as [<-|H]; [eexists; split; [eauto 15|reflexivity]|]). destruct H.
    + intros (f & H & Hd).
      repeat (destruct H as [H|H]; [injection H as <- <-; solve [discriminate Hd|auto 15]|]). destruct H.
  - intros nm f H Hd. cbn in H.
    repeat (destruct H as [H|H]; [injection H as <- <-; try discriminate Hd|]); [|destruct H].
    split; [intros ? ? ? ? ?; reflexivity|]. repeat split.
  - intros nm f H Hd. cbn in H.
    repeat (destruct H as [H|H]; [injection H as <- <-; try discriminate Hd|]); [|destruct H].
    apply regular_leaf. econstructor. left. reflexivity.
  - intros nm f v H Hv Hne. cbn in H.
    repeat (destruct H as [H|H]; [injection H as <- <-; try (apply always; reflexivity)|]); [..|destruct H].
    + right. exists "flag"%string, (fun v => match v with VInt 1 => true | _ => false end), (VInt 1).
      split; [left; reflexivity|]. repeat (split; [try reflexivity; try exact I|]).
      intros mem get keys ctx so. cbn. destruct (get "flag"%string) as [[]| |]; try reflexivity.
      destruct z as [|[]|]; reflexivity.
    + cbn in Hv. injection Hv as <-. destruct Hne. reflexivity.
  - intros nm f v H Hv Hne. cbn in H.
    repeat (destruct H as [H|H]; [injection H as <- <-; cbn in Hv; try discriminate Hv; injection Hv as <-;
            try apply byte_regular|]); [..|destruct H].
    + apply regular_leaf. econstructor. reflexivity.
    + destruct Hne. reflexivity.
    + apply regular_array. intros x [<-|[<-|[<-|[]]]].
      * apply regular_leaf. econstructor. reflexivity.
      * apply regular_none. exact I.
      * apply regular_leaf. econstructor. reflexivity.
    + apply regular_leaf. econstructor. right. eexists. split; reflexivity.
    + eapply regular_union_struct; [intros ctx; reflexivity|reflexivity|apply inner_regular].
    + apply regular_nested, inner_regular.
    + apply regular_array. intros x [<-|[<-|[]]]; apply regular_leaf; constructor.
  - intros nm f H Hv. cbn in H.
    repeat (destruct H as [H|H]; [injection H as <- <-; try discriminate Hv|]); [|destruct H].
    exists false. right. exists "flag"%string, (fun v => match v with VInt 1 => false | _ => true end), (VInt 1).
    split; [left; reflexivity|]. repeat (split; [try reflexivity; try exact I|]).
    intros mem get keys ctx so. cbn. destruct (get "flag"%string) as [[]| |]; try reflexivity.
    destruct z as [|[]|]; reflexivity.
Qed.

Lemma round_accepted : all_accepted (cls round_E 0) round_dict.
Proof.
  intros nm f v _ H _. cbn in H.
  repeat (destruct H as [H|H]; [injection H as <- <-; constructor|]). destruct H.
Qed.

(** The wire form of a struct, from the specification alone. *)
Lemma inner_wire : wire_fields round_E (inner_val 300 [97; 98]) (k_comps inner_class) [172; 2; 97; 98; 0].
Proof.
  change [172; 2; 97; 98; 0] with ([172; 2] ++ [97; 98; 0] ++ []).
  apply fields_present with (v := VInt 300); [left; reflexivity|discriminate| |].
  - eapply wire_leaf; [constructor| |left; split; reflexivity].
    apply form_vli; [|discriminate]. split; [|split; [reflexivity|]].
    + exists [172], 2. split; [reflexivity|]. split; [repeat constructor; lia|lia].
    + split; [reflexivity|]. right. cbn. lia.
  - apply fields_present with (v := VStr [97; 98]); [left; reflexivity|discriminate| |constructor].
    eapply wire_leaf; [constructor|apply form_stringz; reflexivity|left; split; reflexivity].
Qed.

Lemma item_regular : regular round_E round_dict item VNone.
Proof. apply regular_none. exact I. Qed.
Lemma item_none : wire round_E round_dict item VNone [128; 0].
Proof. apply wire_none; [constructor|]. apply none_given. reflexivity. Qed.
Lemma item_negative : wire round_E round_dict item (VInt (-2)) [255; 254].
Proof.
  eapply wire_leaf; [constructor| |right; split; [left; reflexivity|left; reflexivity]].
  apply form_int; [reflexivity|]. split; [repeat constructor; lia|]. split; [|reflexivity].
  split; cbn; lia.
Qed.

Lemma float_wire : wire round_E [] (Field (basic "f" (SInt 4)) (KFloat binary32 Big))
    (VFloat 4609434218613702656) [63; 192; 0; 0].
Proof.
  eapply wire_leaf; [constructor| |right; split; [left; reflexivity|left; reflexivity]].
  apply (form_float _ _ single _ Big); [constructor|repeat constructor; lia|reflexivity|].
  split; [split; cbn; lia|]. split; [split; cbn; lia|].
  split; [intros H; vm_compute in H; intuition discriminate|].
  split; [intros H; vm_compute in H; intuition discriminate|]. split; [reflexivity|].
  left. repeat split; try (intros H; vm_compute in H; discriminate).
Qed.
Lemma time_wire : wire round_E [] (Field (basic "ms" (SInt 8)) (KTime ResMs true true Big))
    (VTime (1700000000 * 1000000) true) [0; 0; 1; 139; 207; 229; 104; 0].
Proof.
  eapply wire_leaf; [constructor| |right; split; [left; reflexivity|left; reflexivity]].
  apply form_time; [left; reflexivity|]. split; [repeat constructor; lia|]. split; [|reflexivity].
  split; vm_compute; congruence.
Qed.
Lemma uuid_wire : wire round_E [] (Field (basic "u" (SInt 16)) (KUuid BINARY_VARIANT_2))
    (VUUID 5233100606242806050955395731361296) [3; 2; 1; 0; 5; 4; 7; 6; 8; 9; 10; 11; 12; 13; 14; 16].
Proof.
  eapply wire_leaf; [constructor| |right; split; [left; reflexivity|left; reflexivity]].
  apply form_uuid. exists 0, 1, 2, 3, 4, 5, 6, 7, [8; 9; 10; 11; 12; 13; 14; 16]. split; [reflexivity|].
  split; [repeat constructor; lia|]. split; [vm_compute; reflexivity|reflexivity].
Qed.
