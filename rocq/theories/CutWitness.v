(** A schema for PropertiesCut.v. *)
From Verif Require Import Samples FieldMore.
From Verif Require Export CutProofs LocalWitness.

(** A flag, a number that is present if the flag is set, a length and that much text, a
    nullable number, a choice made by the flag, and an array of nested structs. *)
Definition telegram_E : env :=
  [class_of "Telegram"
     [named "flag" (u8 (byte "flag"));
      named "opt" (Field (with_present if_flag VNone (basic "opt" (SInt 2))) (KInt true Big));
      named "size" (Field (basic "size" SNone) (KVli ULEB128 None));
      named "data" (Field (basic "data" (SRef "size")) (KString Utf8 None));
      named "w" (Field (with_null VNone (basic "w" (SInt 2))) (KInt true Big));
      named "pick" (Field (basic "pick" SNone)
         (KUnion [CField (u8 (byte "pick")); CStruct 1] by_flag (fun _ _ _ => Ok 0%nat)));
      named "parts" (Field (basic "parts" SNone)
         (KArray (Field (basic "parts" SNone) (KNested 1)) (CntRef "flag") None))];
   class_of "Part" [named "v" (Field (basic "v" SNone) (KVli LEB128 None));
                    named "s" (Field (basic "s" (SInt 2)) KBytes)]].

Lemma telegram_delimited : delimited_schema telegram_E.
Proof.
  assert (Hbl : forall name size, blind (basic name size)) by (intros ? ? ? ? ? ?; reflexivity).
  assert (Hb : forall nats name, delimited nats (u8 (byte name))).
  { intros nats name. apply delimited_a_leaf; [apply Hbl| |apply dnull_refused; reflexivity].
    split; [exact I|]. left. exists 1. split; [reflexivity|lia]. }
  intros [|[|cid]].
  - split; [repeat constructor; cbn; intuition discriminate|]. cbn.
    apply delimited_natural; auto.
    { split; [exact I|]. split; [reflexivity|]. left. intros ? ? ?. reflexivity. }
    apply delimited_other.
    { apply delimited_a_leaf; [intros ? ? ? ?; reflexivity| |apply dnull_refused; reflexivity].
      split; [exact I|]. left. exists 2. split; [reflexivity|lia]. }
    apply delimited_natural.
    { apply delimited_a_leaf; [apply Hbl|exact I|apply dnull_refused; reflexivity]. }
    { split; [exact I|]. split; [reflexivity|]. left. intros ? ? ?. reflexivity. }
    apply delimited_other.
    { apply delimited_a_leaf; [apply Hbl| |apply dnull_refused; reflexivity].
      split; [exact I|]. right. eexists. split; [reflexivity|left; reflexivity]. }
    apply delimited_other.
    { apply delimited_a_leaf; [intros ? ? ? ?; reflexivity| |apply dnull_zeros; [left; reflexivity|exact I]].
      split; [exact I|]. left. exists 2. split; [reflexivity|lia]. }
    apply delimited_other.
    { apply delimited_union; auto. intros g [Hg|[Hg|[]]]; [|discriminate]. injection Hg as <-. auto. }
    apply delimited_other; [|constructor].
    apply delimited_array; auto; [discriminate|]. apply delimited_nested; auto.
  - split; [repeat constructor; cbn; intuition discriminate|]. cbn.
    apply delimited_other; [|apply delimited_other; [|constructor]].
    + apply delimited_a_leaf; [apply Hbl|exact I|apply dnull_refused; reflexivity].
    + apply delimited_a_leaf; [apply Hbl| |apply dnull_refused; reflexivity].
      split; [exact I|]. left. exists 2. split; [reflexivity|lia].
  - unfold cls. cbn. destruct cid; (split; constructor).
Qed.

Lemma telegram_notices : noticing_schema telegram_E.
Proof.
  assert (Hu : forall name, notices_end (u8 (byte name)))
    by (intros name; apply notices_leaf; [eexists; reflexivity|exact I]).
  intros [|[|cid]] name f; cbn.
  - intros H. repeat (destruct H as [[= _ <-]|H]); try contradiction; auto.
    1-4: apply notices_leaf; [cbn; eauto|exact I].
    + apply notices_union. intros g [[= <-]|[H|[]]]; [auto|discriminate].
    + apply notices_array, notices_nested.
  - intros H. repeat (destruct H as [[= _ <-]|H]); try contradiction; apply notices_leaf; cbn; auto.
  - unfold cls. destruct cid; intros [].
Qed.

Lemma telegram_formed : well_formed (cls telegram_E 0).
Proof.
  split; [repeat constructor; cbn; intuition discriminate|]. split; [repeat constructor|].
  intros x. cbn. tauto.
Qed.

Definition telegram : list Z := [1; 255; 254; 3; 97; 195; 169; 0; 0; 9; 128; 1; 98; 99].
Definition telegram_values : dict :=
  [("flag"%string, VInt 1); ("opt"%string, VInt (-2)); ("size"%string, VInt 3);
   ("data"%string, VStr [97; 233]); ("w"%string, VNone); ("pick"%string, VInt 9);
   ("parts"%string, VList [VStruct 1 [("v"%string, VInt 128); ("s"%string, VBytes [98; 99])]])].

Lemma telegram_loads :
  struct_from_stream telegram_E 9 0 VNone [] (mkStream telegram 0)
  = (mkStream telegram (length telegram), Ok telegram_values).
Proof. vm_compute. reflexivity. Qed.
