(** Witnesses used by PropertiesLoad.v. *)
From Verif Require Import Samples SpecAccess SizeProofs.
From Verif Require Export LoadFinish InjProofs RoundWitness.

Lemma bytes_reported A E : robust_schema A E -> forall n cid data ctx exact e,
  struct_from_bytes E n cid data ctx exact [] = Raise e -> malformed e \/ A e.
Proof.
  intros HS n cid data ctx exact e H. unfold struct_from_bytes in H.
  destruct (struct_from_stream E n cid ctx [] (mkStream data 0)) as [s' [vals|e'|]] eqn:Hl; try discriminate.
  - destruct (exact && _); try discriminate. injection H as <-. left. left. reflexivity.
  - injection H as <-. eapply struct_load_reported; eauto.
Qed.

Lemma only_malformed A E : robust_schema A E -> (forall e, A e -> malformed e) ->
  forall n cid data ctx exact e,
  struct_from_bytes E n cid data ctx exact [] = Raise e -> malformed e.
Proof. intros HS HA n cid data ctx exact e H. destruct (bytes_reported A E HS _ _ _ _ _ _ H); auto. Qed.

Lemma bytes_total A E rank : robust_schema A E -> bounded_schema E rank ->
  forall cid data ctx exact, exists n r,
  (forall m, (n <= m)%nat -> struct_from_bytes E m cid data ctx exact [] = r)
  /\ ((exists vals, r = Ok vals) \/ exists e, r = Raise e /\ (malformed e \/ A e)).
Proof.
  intros HS Hb cid data ctx exact.
  destruct (struct_load_total A E HS rank Hb cid ctx (mkStream data 0)) as (n & s' & r & Hn & _ & Hr).
  exists n. unfold struct_from_bytes.
  destruct Hr as [[vals ->]|(e & -> & He)].
  - eexists. split; [intros m Hm; rewrite Hn by auto; reflexivity|].
    destruct (exact && _); [right|left]; eauto. eexists. split; eauto. left. left. reflexivity.
  - exists (Raise e). split; [intros m Hm; rewrite Hn by auto; reflexivity|]. right. eauto.
Qed.

(** A magic number, a count, that many 16-bit numbers below ten, a length, that many bytes,
    a nested struct, a choice, and bytes up to the end. *)
Definition by_first : stream -> value -> dict -> res nat := fun s _ _ =>
  match rest s with 0 :: _ => Ok 0%nat | _ => Ok 1%nat end.
Definition packet_E : env :=
  [class_of "Packet"
     [named "magic" (Field (with_const (VBytes [77; 90]) (basic "magic" (SInt 2))) KBytes);
      named "count" (u8 (byte "count"));
      named "items" (Field (basic "items" SNone)
         (KArray (Field (with_validators [at_most_9] (basic "items" (SInt 2))) (KInt true Big))
            (CntRef "count") None));
      named "size" (u8 (byte "size"));
      named "data" (Field (basic "data" (SRef "size")) KBytes);
      named "one" (Field (basic "one" SNone) (KNested 1));
      named "pick" (Field (basic "pick" SNone)
         (KUnion [CField (u8 (byte "pick")); CStruct 1] by_first (fun _ _ _ => Ok 0%nat)));
      named "tail" (Field (basic "tail" SNone) (KArray (u8 (byte "tail")) CntNone None))];
   class_of "Part" [named "v" (Field (basic "v" SNone) (KVli LEB128 None));
                    named "w" (Field (with_null (VInt (-1)) (basic "w" (SInt 2))) (KInt true Big))]].

Definition packet_rank (cid : nat) : nat := match cid with O => 1 | _ => 0 end.
Definition invalid_only (e : exn) : Prop := exists fld, e = EValidation fld.

Lemma quiet A name size : callables_raise A (basic name size).
Proof. split; [intros ? ? ? []|discriminate]. Qed.

Lemma packet_fields : robust_fields invalid_only [] (k_comps (cls packet_E 0)).
Proof.
  assert (Hb : forall ints name, robust invalid_only ints (Some name) (u8 (byte name))).
  { intros ints name. apply robust_leaf; try (now right); try exact I; try contradiction.
    - apply quiet.
    - econstructor. reflexivity.
    - apply null_refused. reflexivity. }
  assert (Hi : forall name, integer_field (u8 (byte name))).
  { intros name. split; [exact I|]. split; [reflexivity|]. left. intros ? ? ?. reflexivity. }
  cbn. apply robust_other.
  { apply robust_leaf; try (now right); try exact I; try contradiction.
    - split; [intros ? ? ? []|discriminate].
    - apply sized_bytes. left. eexists. reflexivity.
    - apply null_refused. reflexivity. }
  apply robust_integer; auto. apply robust_other.
  { apply robust_array; auto; [apply quiet|right; right; eexists; split; [reflexivity|left; reflexivity]|].
    apply robust_leaf; try (now right); try exact I; try contradiction.
    - split; [|discriminate]. intros check v e [<-|[]] H. destruct v; try discriminate. cbn in H.
      destruct (z <=? 9); try discriminate. injection H as <-. eexists. reflexivity.
    - econstructor. reflexivity.
    - apply null_refused. reflexivity. }
  apply robust_integer; auto. apply robust_other.
  { apply robust_leaf; try (now right); try exact I; try contradiction.
    - apply quiet.
    - apply sized_bytes. right. eexists. split; [reflexivity|left; reflexivity].
    - apply null_refused. reflexivity. }
  apply robust_other. { apply robust_nested; auto. apply quiet. }
  apply robust_other.
  { apply robust_union; auto; [apply quiet| | |].
    - intros s ctx d e H. unfold by_first in H. destruct (rest s) as [|[]]; discriminate.
    - intros s ctx d i H. unfold by_first in H. cbn.
      destruct (rest s) as [|[]]; injection H as <-; lia.
    - intros g [Hg|[Hg|[]]]; [|discriminate]. injection Hg as <-. auto. }
  apply robust_other; [|apply robust_nil].
  apply robust_array; auto. apply quiet.
Qed.

Lemma part_fields : robust_fields invalid_only [] (k_comps (cls packet_E 1)).
Proof.
  cbn. apply robust_integer.
  - apply robust_leaf; try (now right); try exact I; try contradiction; [apply quiet|constructor|].
    apply null_refused. reflexivity.
  - split; [exact I|]. split; [reflexivity|]. left. intros ? ? ?. reflexivity.
  - apply robust_other; [|apply robust_nil].
    apply robust_leaf; try (now right); try exact I; try contradiction.
    + split; [intros ? ? ? []|discriminate].
    + econstructor. reflexivity.
    + eapply null_int. reflexivity.
Qed.

Lemma packet_robust : robust_schema invalid_only packet_E.
Proof.
  intros [|[|cid]]; (split; [|split]).
  - split; [repeat constructor; cbn; intuition discriminate|].
    split; [repeat constructor|]. intros name. cbn. tauto.
  - exact packet_fields.
  - split; [|intros ? ? ? ? []]. intros n vals name methods q v e Hin Hq. cbn in Hin.
    repeat (destruct Hin as [Hin|Hin]; [injection Hin as <- <-; contradiction|]); destruct Hin.
  - split; [repeat constructor; cbn; intuition discriminate|].
    split; [repeat constructor|]. intros name. cbn. tauto.
  - exact part_fields.
  - split; [|intros ? ? ? ? []]. intros n vals name methods q v e Hin Hq. cbn in Hin.
    repeat (destruct Hin as [Hin|Hin]; [injection Hin as <- <-; contradiction|]); destruct Hin.
  - unfold cls. cbn. destruct cid; (split; [constructor|]; split; [constructor|intros ? []]).
  - unfold cls. cbn. destruct cid; constructor.
  - unfold cls. cbn. destruct cid; (split; [intros ? ? ? ? ? ? ? []|intros ? ? ? ? []]).
Qed.

Lemma packet_bounded : bounded_schema packet_E packet_rank.
Proof.
  assert (Hq : forall name size, callables_return (basic name size)) by (intros ? ? ? ? []).
  assert (Hb : forall r name, bounded packet_E packet_rank r (u8 (byte name))).
  { intros r name. apply bounded_leaf; [apply Hq|exact I]. }
  intros [|[|cid]] name f Hin; cbn in Hin.
  - repeat (destruct Hin as [Hin|Hin]; [injection Hin as <- <-|]); [..|destruct Hin]; auto.
    + apply bounded_leaf; [intros ? ? []|exact I].
    + apply bounded_counted; auto; [discriminate|left; intros ? ? ?; reflexivity|].
      apply bounded_leaf; [|exact I]. intros check v [<-|[]]. destruct v; try discriminate.
      cbn. destruct (z <=? 9); discriminate.
    + apply bounded_leaf; [apply Hq|exact I].
    + apply bounded_nested; auto.
    + apply bounded_union; auto.
      * intros s ctx d. unfold by_first. destruct (rest s) as [|[]]; discriminate.
      * intros g [Hg|[Hg|[]]]; [|discriminate]. injection Hg as <-. auto.
      * intros cid [Hg|[Hg|[]]]; [discriminate|]. injection Hg as <-. cbn. lia.
    + apply bounded_to_end; auto. intros ctx d s s1 v [n Hl] _.
      destruct (leaf_consumes packet_E (byte "tail") (KInt false Little) 1 eq_refl ltac:(intros ? ? ?; reflexivity)
        eq_refl ltac:(lia) ltac:(apply null_fits_none; reflexivity) _ _ _ _ _ _ Hl). lia.
  - repeat (destruct Hin as [Hin|Hin]; [injection Hin as <- <-|]); [..|destruct Hin];
      (apply bounded_leaf; [intros ? ? []|exact I]).
  - destruct cid; destruct Hin.
Qed.

Definition packet_bytes : list Z :=
  [77; 90; 2; 0; 3; 0; 5; 1; 200; 172; 2; 255; 255; 7; 1; 2; 9; 8].
Definition packet_value : dict :=
  [("magic"%string, VBytes [77; 90]); ("count"%string, VInt 2);
   ("items"%string, VList [VInt 3; VInt 5]); ("size"%string, VInt 1); ("data"%string, VBytes [200]);
   ("one"%string, VStruct 1 [("v"%string, VInt 300); ("w"%string, VNone)]);
   ("pick"%string, VStruct 1 [("v"%string, VInt 7); ("w"%string, VInt 258)]);
   ("tail"%string, VList [VInt 9; VInt 8])].
Lemma packet_loads :
  struct_from_bytes packet_E 9 0 packet_bytes VNone true [] = Ok packet_value
  /\ struct_from_bytes packet_E 9 0 [77; 91] VNone true [] = Raise (EValidation (Some "magic"%string))
  /\ struct_from_bytes packet_E 9 0 [77; 90; 1; 0; 10] VNone true [] = Raise (EValidation (Some "x"%string))
  /\ exists e, struct_from_bytes packet_E 9 0 [77; 90; 1; 0] VNone true [] = Raise e
       /\ is_UnexpectedEOFError e = true.
Proof. repeat split; try (vm_compute; reflexivity). eexists. split; vm_compute; reflexivity. Qed.

(** Text, textual UUIDs and timestamps let other exceptions through. *)
Definition text_E : env :=
  [class_of "Text" [named "s" (Field (basic "s" (SInt 2)) (KString Utf8 None))];
   class_of "Id" [named "u" (Field (basic "u" (SInt 32)) (KUuid HEX_STRING))];
   class_of "When" [named "t" (Field (basic "t" (SInt 8)) (KTime ResS true true Big))];
   class_of "TextZ" [named "s" (Field (basic "s" SNone) (KStringZ Utf8 None))];
   class_of "TextBom" [named "s" (Field (basic "s" SNone) (KStringZ (Utf16Bom Little) None))]].

Lemma text_escapes :
  struct_from_bytes text_E 9 0 [255; 255] VNone true [] = Raise EUnicodeDecode
  /\ struct_from_bytes text_E 9 3 [255; 255] VNone true [] = Raise EUnicodeDecode
  /\ struct_from_bytes text_E 9 4 [65; 0; 0; 0] VNone true [] = Raise EUnicodeErr
  /\ struct_from_bytes text_E 9 1 (repeat 122 32) VNone true [] = Raise EValueErr
  /\ (exists e, struct_from_bytes text_E 9 2 [127; 255; 255; 255; 255; 255; 255; 255] VNone true [] = Raise e
        /\ (e = EValueErr \/ e = EOverflow \/ e = EOSErr)).
Proof. repeat split; try (vm_compute; reflexivity). eexists. split; [vm_compute; reflexivity|auto]. Qed.

Lemma escapes_not_malformed e :
  e = EUnicodeDecode \/ e = EUnicodeErr \/ e = EValueErr \/ e = EOverflow \/ e = EOSErr -> ~ malformed e.
Proof. intros [->|[->|[->|[->| ->]]]] [H|[fld H]]; discriminate. Qed.

Definition text_only (e : exn) : Prop :=
  e = EUnicodeDecode \/ e = EUnicodeErr \/ e = EValueErr \/ e = EOverflow \/ e = EOSErr.
Lemma text_robust : robust_schema text_only text_E.
Proof.
  assert (Hall : forall k e, escapes k e -> text_only e).
  { unfold text_only. intros k e H. destruct k as [sg ed|f mx|f ed|r tz sg ed| |cd pad|cd pad|fmt|comp cnt halt|cid|choices ld dmp]; try contradiction; cbn in H; try tauto.
    - destruct cd; tauto.
    - destruct fmt; cbn in H; tauto. }
  intros [|[|[|[|[|cid]]]]]; (split; [|split]).
  all: try (split; [repeat constructor; cbn; intuition discriminate|];
    split; [repeat constructor|]; intros name; cbn; tauto).
  all: try (split; [|intros ? ? ? ? []]; intros n vals name methods q v e Hin Hq; cbn in Hin;
    repeat (destruct Hin as [Hin|Hin]; [injection Hin as <- <-; contradiction|]); destruct Hin).
  all: try (unfold cls; cbn; apply robust_other; [|apply robust_nil];
    apply robust_leaf; try (now right); try exact I; eauto; [apply quiet| |apply null_refused; reflexivity]).
  - apply sized_string. left. eexists. reflexivity.
  - apply sized_uuid. reflexivity.
  - apply sized_time. left. eexists. reflexivity.
  - apply sized_stringz. right. repeat split.
  - apply sized_stringz. right. repeat split.
  - unfold cls. cbn. destruct cid; (split; [constructor|]; split; [constructor|intros ? []]).
  - unfold cls. cbn. destruct cid; constructor.
  - unfold cls. cbn. destruct cid; (split; [intros ? ? ? ? ? ? ? []|intros ? ? ? ? []]).
Qed.

Lemma text_bounded : bounded_schema text_E (fun _ => 0%nat).
Proof.
  intros [|[|[|[|[|cid]]]]] name f Hin; cbn in Hin.
  1-5: destruct Hin as [Hin|[]]; injection Hin as <- <-; apply bounded_leaf; [intros ? ? []|exact I].
  destruct cid; destruct Hin.
Qed.
