(** Consequences and witnesses used by PropertiesLocal.v. *)
From Verif Require Import Samples StreamProofs PyIntProofs FieldMore ForwardProofs.
From Verif Require Export LocalProofs ReportProofs LoadWitness.

Lemma rest_at data p : rest (mkStream data p) = skipn p data.
Proof. reflexivity. Qed.

Lemma sd_start E n cid ctx data s1 vals : delimited_schema E -> bytes_ok data ->
  struct_from_stream E n cid ctx [] (mkStream data 0) = (s1, Ok vals) ->
  exists bs suf, data = bs ++ suf /\ s1 = mkStream data (length bs)
    /\ forall s' suf', rest s' = bs ++ suf' ->
       struct_from_stream E n cid ctx [] s' = (advance s' (length bs), Ok vals).
Proof.
  intros HS Hb H. destruct (struct_load_sd E HS n cid ctx (mkStream data 0) s1 vals Hb H) as (bs & suf & Hr & Hs & H').
  exists bs, suf. repeat (split; auto).
Qed.

(** Data behind the struct makes no difference. *)
Lemma load_appended E n cid ctx data s1 vals extra : delimited_schema E -> bytes_ok data ->
  struct_from_stream E n cid ctx [] (mkStream data 0) = (s1, Ok vals) ->
  struct_from_stream E n cid ctx [] (mkStream (data ++ extra) 0)
  = (mkStream (data ++ extra) (s_pos s1), Ok vals).
Proof.
  intros HS Hb H. destruct (sd_start _ _ _ _ _ _ _ HS Hb H) as (bs & suf & Hd & -> & H').
  rewrite (H' _ (suf ++ extra)); [reflexivity|]. rewrite rest_at. cbn [skipn]. rewrite Hd, <- app_assoc. auto.
Qed.

(** The consumed bytes alone load as the same instance, completely. *)
Lemma load_consumed E n cid ctx data s1 vals : delimited_schema E -> bytes_ok data ->
  struct_from_stream E n cid ctx [] (mkStream data 0) = (s1, Ok vals) ->
  let used := firstn (s_pos s1) data in
  struct_from_stream E n cid ctx [] (mkStream used 0) = (mkStream used (length used), Ok vals).
Proof.
  intros HS Hb H. destruct (sd_start _ _ _ _ _ _ _ HS Hb H) as (bs & suf & Hd & -> & H').
  cbn [s_pos]. rewrite Hd, firstn_app, Nat.sub_diag, firstn_all, app_nil_r. cbv zeta.
  rewrite (H' _ []); [reflexivity|]. rewrite app_nil_r. reflexivity.
Qed.

(** A truncated struct never loads. *)
Lemma load_truncated E n cid ctx data s1 vals k : delimited_schema E -> bytes_ok data ->
  struct_from_stream E n cid ctx [] (mkStream data 0) = (s1, Ok vals) -> (k < s_pos s1)%nat ->
  forall s2 vals', struct_from_stream E n cid ctx [] (mkStream (firstn k data) 0) <> (s2, Ok vals').
Proof.
  intros HS Hb H Hk s2 vals' H2.
  assert (Hb2 : bytes_ok (firstn k data)).
  { rewrite <- (firstn_skipn k data) in Hb. apply bytes_ok_app in Hb. tauto. }
  destruct (sd_start _ _ _ _ _ _ _ HS Hb2 H2) as (bs & suf & Hd & _ & H').
  specialize (H' (mkStream data 0) (suf ++ skipn k data)). rewrite H in H'.
  assert (Hr : rest (mkStream data 0) = bs ++ suf ++ skipn k data).
  { rewrite rest_at. cbn [skipn]. rewrite app_assoc, <- Hd, firstn_skipn. auto. }
  specialize (H' Hr). injection H' as -> _. cbn [s_pos advance] in Hk.
  assert (Hl : length (firstn k data) = (length bs + length suf)%nat) by (rewrite Hd, app_length; auto).
  rewrite firstn_length in Hl. lia.
Qed.

(** Structs written one after the other are read one after the other. *)
Lemma load_sequence E n cid ctx : delimited_schema E -> forall msgs vss,
  Forall2 (fun bs vals => bytes_ok bs /\
    struct_from_stream E n cid ctx [] (mkStream bs 0) = (mkStream bs (length bs), Ok vals)) msgs vss ->
  forall pre suf, reads_all E n cid ctx (mkStream (pre ++ concat msgs ++ suf) (length pre)) vss
    (mkStream (pre ++ concat msgs ++ suf) (length (pre ++ concat msgs))).
Proof.
  intros HS msgs vss H. induction H as [|bs vals msgs vss [Hb H] _ IH]; intros pre suf.
  - cbn [concat]. rewrite app_nil_r. constructor.
  - cbn [concat]. destruct (sd_start _ _ _ _ _ _ _ HS Hb H) as (bs' & suf' & Hd & Hs & H').
    injection Hs as Hs. assert (bs' = bs).
    { subst bs. rewrite app_length in Hs. destruct suf'; [symmetry; apply app_nil_r|cbn in Hs; lia]. }
    subst bs'. eapply reads_next.
    + apply (H' _ (concat msgs ++ suf)). rewrite rest_at, skipn_app, skipn_all, Nat.sub_diag.
      cbn [skipn app]. rewrite <- app_assoc. reflexivity.
    + unfold advance. cbn [s_data s_pos]. rewrite <- app_assoc.
      replace (pre ++ bs ++ concat msgs ++ suf) with ((pre ++ bs) ++ concat msgs ++ suf)
        by (rewrite <- app_assoc; auto).
      replace (length pre + length bs)%nat with (length (pre ++ bs)) by (rewrite app_length; auto).
      replace (length (pre ++ bs ++ concat msgs)) with (length ((pre ++ bs) ++ concat msgs))
        by (rewrite <- app_assoc; auto).
      apply IH.
Qed.

(** A flag, a number that is present if the flag is set, a length and that many bytes, a
    nullable number, a choice made by the flag, and an array of nested structs. *)
Definition by_flag : stream -> value -> dict -> res nat := fun _ _ d =>
  match dget d "flag" with Some (VInt 1) => Ok 0%nat | _ => Ok 1%nat end.
Definition message_E : env :=
  [class_of "Message"
     [named "flag" (u8 (byte "flag"));
      named "opt" (Field (with_present if_flag VNone (basic "opt" (SInt 2))) (KInt true Big));
      named "size" (Field (basic "size" SNone) (KVli ULEB128 None));
      named "data" (Field (basic "data" (SRef "size")) (KString Utf8 None));
      named "w" (Field (with_null VNone (basic "w" (SInt 2))) (KInt true Big));
      named "pick" (Field (basic "pick" SNone)
         (KUnion [CField (u8 (byte "pick")); CStruct 1] by_flag (fun _ _ _ => Ok 0%nat)));
      named "parts" (Field (basic "parts" SNone)
         (KArray (Field (basic "parts" SNone) (KNested 1)) (CntRef "flag") None))];
   class_of "Part" [named "v" (Field (basic "v" SNone) (KVli LEB128 None));
                    named "s" (Field (basic "s" SNone) (KStringZ Utf8 None))]].

Lemma message_delimited : delimited_schema message_E.
Proof.
  assert (Hbl : forall name size, blind (basic name size)) by (intros ? ? ? ? ? ?; reflexivity).
  assert (Hb : forall nats name, delimited nats (u8 (byte name))).
  { intros nats name. apply delimited_a_leaf; [apply Hbl| |apply dnull_refused; reflexivity].
    split; [exact I|]. left. exists 1. split; [reflexivity|lia]. }
  intros [|[|cid]].
  - split; [repeat constructor; cbn; intuition discriminate|]. cbn.
    apply delimited_natural; auto.
    { split; [exact I|]. split; [reflexivity|]. left. intros ? ? ?. reflexivity. }
    apply delimited_other.
    { apply delimited_a_leaf; [intros ? ? ? ?; reflexivity| |apply dnull_refused; reflexivity].
      split; [exact I|]. left. exists 2. split; [reflexivity|lia]. }
    apply delimited_natural.
    { apply delimited_a_leaf; [apply Hbl|exact I|apply dnull_refused; reflexivity]. }
    { split; [exact I|]. split; [reflexivity|]. left. intros ? ? ?. reflexivity. }
    apply delimited_other.
    { apply delimited_a_leaf; [apply Hbl| |apply dnull_refused; reflexivity].
      split; [exact I|]. right. eexists. split; [reflexivity|left; reflexivity]. }
    apply delimited_other.
    { apply delimited_a_leaf; [intros ? ? ? ?; reflexivity| |apply dnull_zeros; [left; reflexivity|exact I]].
      split; [exact I|]. left. exists 2. split; [reflexivity|lia]. }
    apply delimited_other.
    { apply delimited_union; auto. intros g [Hg|[Hg|[]]]; [|discriminate]. injection Hg as <-. auto. }
    apply delimited_other; [|constructor].
    apply delimited_array; auto; [discriminate|]. apply delimited_nested; auto.
  - split; [repeat constructor; cbn; intuition discriminate|]. cbn.
    apply delimited_other; [|apply delimited_other; [|constructor]];
      (apply delimited_a_leaf; [apply Hbl|exact I|apply dnull_refused; reflexivity]).
  - unfold cls. cbn. destruct cid; (split; constructor).
Qed.

Definition message_1 : list Z := [1; 255; 254; 3; 97; 195; 169; 0; 0; 9; 128; 1; 98; 0].
Definition message_2 : list Z := [0; 1; 120; 1; 2; 5; 0].
Definition values_1 : dict :=
  [("flag"%string, VInt 1); ("opt"%string, VInt (-2)); ("size"%string, VInt 3);
   ("data"%string, VStr [97; 233]); ("w"%string, VNone); ("pick"%string, VInt 9);
   ("parts"%string, VList [VStruct 1 [("v"%string, VInt 128); ("s"%string, VStr [98])]])].
Definition values_2 : dict :=
  [("flag"%string, VInt 0); ("opt"%string, VNone); ("size"%string, VInt 1);
   ("data"%string, VStr [120]); ("w"%string, VInt 258);
   ("pick"%string, VStruct 1 [("v"%string, VInt 5); ("s"%string, VStr [])]); ("parts"%string, VList [])].

Lemma messages_load :
  struct_from_stream message_E 9 0 VNone [] (mkStream message_1 0)
  = (mkStream message_1 (length message_1), Ok values_1)
  /\ struct_from_stream message_E 9 0 VNone [] (mkStream message_2 0)
  = (mkStream message_2 (length message_2), Ok values_2).
Proof. split; vm_compute; reflexivity. Qed.

Lemma bytes_ok_check bs : forallb (fun b => (0 <=? b) && (b <? 256)) bs = true -> bytes_ok bs.
Proof.
  intros H. apply Forall_forall. intros b Hb. eapply forallb_forall in H; [|exact Hb].
  apply andb_true_iff in H. unfold byte_ok. lia.
Qed.

(** An array up to the end of the data, and a length that may be negative. *)
Definition greedy_E : env :=
  [class_of "Tail" [named "tail" (Field (basic "tail" SNone) (KArray (u8 (byte "tail")) CntNone None))];
   class_of "Signed" [named "size" (Field (basic "size" (SInt 1)) (KInt true Big));
                      named "data" (Field (basic "data" (SRef "size")) KBytes)]].

Lemma greedy_loads :
  (struct_from_stream greedy_E 9 0 VNone [] (mkStream [1; 2] 0)
     = (mkStream [1; 2] 2, Ok [("tail"%string, VList [VInt 1; VInt 2])])
   /\ struct_from_stream greedy_E 9 0 VNone [] (mkStream ([1; 2] ++ [3]) 0)
     = (mkStream [1; 2; 3] 3, Ok [("tail"%string, VList [VInt 1; VInt 2; VInt 3])]))
  /\ (struct_from_stream greedy_E 9 1 VNone [] (mkStream [255; 7] 0)
     = (mkStream [255; 7] 2, Ok [("size"%string, VInt (-1)); ("data"%string, VBytes [7])])
   /\ struct_from_stream greedy_E 9 1 VNone [] (mkStream ([255; 7] ++ [8]) 0)
     = (mkStream [255; 7; 8] 3, Ok [("size"%string, VInt (-1)); ("data"%string, VBytes [7; 8])])).
Proof. repeat split; vm_compute; reflexivity. Qed.

(** Reports: the named field is the outermost one. *)
Lemma report_loads :
  struct_from_bytes packet_E 9 0 [77; 90; 0; 3; 1; 2] VNone true []
    = Raise (EUnexpectedEOF (Some "data"%string) 3 4)
  /\ struct_from_bytes packet_E 9 0 [77; 90; 0; 0; 5; 1] VNone true []
    = Raise (EUnexpectedEOF (Some "one"%string) 2 5).
Proof. split; vm_compute; reflexivity. Qed.
