(** Leaf fields with several byte forms: what they load they can dump, and load again. *)
From Coq Require Import String ZArith List Lia.
From Verif Require Export SpecSettle.
From Verif Require Import Tac PyIntProofs StreamProofs CodecsProofs UuidProofs FieldProofs FieldMore
  VarintsProofs VarintsMore LeafMore LoadProofs LocalProofs CanonLeaf BomProofs.
Import ListNotations.
Open Scope Z_scope.

(** ** Text *)
Lemma utf8_scalar cp : utf8_char cp <> None <-> is_scalar cp = true.
Proof.
  unfold utf8_char. destruct (is_scalar cp); cbn [negb]; [|split; congruence].
  split; auto. intros _. repeat (destruct (_ <? _); try discriminate).
Qed.
Lemma utf16_scalar e cp : utf16_char e cp <> None <-> is_scalar cp = true.
Proof.
  unfold utf16_char. destruct (is_scalar cp); cbn [negb]; [|split; congruence].
  split; auto. intros _. repeat (destruct (_ <? _); try discriminate).
Qed.
Lemma utf32_scalar e cp : utf32_char e cp <> None <-> is_scalar cp = true.
Proof.
  unfold utf32_char. destruct (is_scalar cp); cbn [negb]; [|split; congruence]. split; auto. discriminate.
Qed.

Lemma dec_encodable cd buf cp : bytes_ok buf -> dec_step cd buf = DChar cp -> encode_char cd cp <> None.
Proof.
  intros Hb H.
  assert (Hone : one_form cd -> encode_char cd cp <> None).
  { intros Ho. rewrite (dec_canonical _ _ _ Ho Hb H). discriminate. }
  destruct cd as [| | |e|e|t| |e|e]; try (apply Hone; exact I); clear Hone; cbn [dec_step] in H.
  - destruct buf as [|b [|? ?]]; try discriminate. destruct (page_char t b) as [x|] eqn:Hp; [|discriminate].
    injection H as ->. cbn [encode_char]. apply assigned_char in Hp.
    destruct (page_byte_some _ _ _ Hp) as [b' ->]. discriminate.
  - destruct (bytes_eqb buf [239; 187; 191]); [discriminate|].
    cbn [encode_char]. rewrite (utf8_canonical _ _ Hb H). discriminate.
  - exfalso. revert H. destruct (bytes_eqb _ _); [discriminate|]. destruct (bytes_eqb _ _); [discriminate|].
    destruct (dec_utf16 e buf); discriminate.
  - exfalso. revert H. destruct (bytes_eqb _ _); [discriminate|]. destruct (bytes_eqb _ _); [discriminate|].
    destruct (dec_utf32 e buf); discriminate.
Qed.

Lemma mark_encodable cd buf cd' cp : dec_step cd buf = DBom cd' -> encode_char cd' cp <> None ->
  encode_char cd cp <> None.
Proof.
  intros H. assert (Hone : ~ one_form cd).
  { intros Ho. exact (dec_no_mark _ _ _ Ho H). }
  destruct cd as [| | |e|e|t| |e|e]; try (destruct (Hone I)); clear Hone; cbn [dec_step] in H.
  - destruct buf as [|b [|? ?]]; try discriminate. destruct (page_char t b); discriminate.
  - destruct (bytes_eqb buf [239; 187; 191]); [injection H as <-; auto|].
    pose proof (dec_utf8_marks buf) as Hm. rewrite H in Hm. destruct Hm.
  - cbn [encode_char]. rewrite utf16_scalar.
    destruct (bytes_eqb buf [255; 254]); [injection H as <-; apply utf16_scalar|].
    destruct (bytes_eqb buf [254; 255]); [injection H as <-; apply utf16_scalar|].
    pose proof (dec_utf16_marks e buf) as Hm. destruct (dec_utf16 e buf); try discriminate; destruct Hm.
  - cbn [encode_char]. rewrite utf32_scalar.
    destruct (bytes_eqb buf [255; 254; 0; 0]); [injection H as <-; apply utf32_scalar|].
    destruct (bytes_eqb buf [0; 0; 254; 255]); [injection H as <-; apply utf32_scalar|].
    pose proof (dec_utf32_marks e buf) as Hm. destruct (dec_utf32 e buf); try discriminate; destruct Hm.
Qed.

Lemma stringz_encodable cd0 fuel : forall cd nm mx nr buf acc s s1 v, bytes_ok (rest s) -> bytes_ok buf ->
  (forall cp, encode_char cd cp <> None -> encode_char cd0 cp <> None) ->
  Forall (fun cp => cp <> 0 /\ encode_char cd0 cp <> None) acc ->
  stringz_loop fuel nm cd mx nr buf acc s = (s1, Ok v) ->
  exists bs t, rest s = bs ++ rest s1 /\ s1 = advance s (length bs) /\ bs <> [] /\ v = VStr t
    /\ Forall (fun cp => cp <> 0 /\ encode_char cd0 cp <> None) t.
Proof.
  induction fuel as [|fuel IH]; intros cd nm mx nr buf acc s s1 v Hb Hbuf Hcd Hacc H; [discriminate|].
  cbn [stringz_loop] in H. destruct (iter_next mx nr s) as [[b s2]|] eqn:Hi; [|destruct (forgiven cd buf); discriminate].
  destruct (iter_next_ok _ _ _ _ _ Hi) as (suf & Hr & -> & _).
  rewrite Hr in Hb. inversion Hb as [|? ? Hb0 Hsuf]; subst.
  assert (Hbuf' : bytes_ok (buf ++ [b])) by (apply bytes_ok_app; split; [auto|apply bytes_ok_one; auto]).
  assert (Hrest : bytes_ok (rest (advance s 1))) by (rewrite (rest_one _ _ _ Hr); auto).
  assert (Hstep : forall s3, (exists bs t, rest (advance s 1) = bs ++ rest s3 /\ s3 = advance (advance s 1) (length bs)
      /\ bs <> [] /\ v = VStr t /\ Forall (fun cp => cp <> 0 /\ encode_char cd0 cp <> None) t) ->
    exists bs t, rest s = bs ++ rest s3 /\ s3 = advance s (length bs) /\ bs <> [] /\ v = VStr t
      /\ Forall (fun cp => cp <> 0 /\ encode_char cd0 cp <> None) t).
  { intros s3 (bs & t & H1 & H2 & _ & H3 & H4). exists (b :: bs), t.
    rewrite (rest_one _ _ _ Hr) in H1. split; [rewrite Hr, H1; auto|].
    split; [rewrite H2, advance_advance; auto|]. split; [discriminate|auto]. }
  destruct (dec_step cd (buf ++ [b])) as [cp| | |cd'|] eqn:Hd; try discriminate.
  - destruct (cp =? 0) eqn:Hz.
    + injection H as <- <-. exists [b], (rev acc). rewrite (rest_one _ _ _ Hr).
      split; [auto|]. split; [auto|]. split; [discriminate|]. split; auto. apply Forall_rev. auto.
    + apply Hstep. refine (IH (started cd) nm mx (nr + 1) [] (cp :: acc) _ s1 v Hrest ltac:(constructor) _ _ H).
      * intros x Hx. apply Hcd. destruct cd; exact Hx.
      * constructor; auto. split; [lia|]. apply Hcd. apply (dec_encodable _ _ _ Hbuf' Hd).
  - apply Hstep. exact (IH cd nm mx (nr + 1) (buf ++ [b]) acc _ s1 v Hrest Hbuf' Hcd Hacc H).
  - apply Hstep. refine (IH cd' nm mx (nr + 1) [] acc _ s1 v Hrest ltac:(constructor) _ Hacc H).
    intros x Hx. apply Hcd. exact (mark_encodable _ _ _ _ Hd Hx).
Qed.

Lemma text_encodable cd t : Forall (fun cp => cp <> 0 /\ encode_char cd cp <> None) t ->
  exists bs, encode cd (t ++ [0]) = Ok bs /\ bs <> [] /\ bytes_ok bs.
Proof.
  intros H. destruct (proj2 (encode_ok_iff cd (t ++ [0]))) as [bs Hbs].
  { apply Forall_app. split; [eapply Forall_impl; [|exact H]; cbn; tauto|]. constructor; [|constructor].
    intros Hz. pose proof (encode_nul cd) as Hn. cbn [encode_chars] in Hn. rewrite Hz in Hn. discriminate. }
  exists bs. split; auto. split; [|eapply encode_bytes_ok; eauto].
  intros ->. destruct (encode_app_inv _ _ _ _ Hbs) as (b1 & b2 & _ & H2 & H3).
  rewrite encode_nul in H2. injection H2 as <-. destruct (app_eq_nil _ _ (eq_sym H3)) as [_ Hx].
  destruct cd; discriminate Hx.
Qed.

(** ** Leaves *)
Lemma vli_nonempty fmt z bs : vli_encode fmt z = Ok bs -> bs <> [] /\ bytes_ok bs.
Proof.
  intros H. destruct (varint_shape _ _ _ H) as (ini & last & -> & Hi & Hl). split.
  - intros Hx. apply app_eq_nil in Hx. destruct Hx. discriminate.
  - apply bytes_ok_app. split; [|apply bytes_ok_one; unfold byte_ok; lia].
    eapply Forall_impl; [|exact Hi]. cbn. intros b Hb. unfold byte_ok. lia.
Qed.

Lemma vli_decoded fmt s s1 z : bytes_ok (rest s) -> vli_decode fmt s = (s1, Ok z) ->
  (exists bs, vli_encode fmt z = Ok bs) /\ exists cs, rest s = cs ++ rest s1 /\ s1 = advance s (length cs) /\ cs <> [].
Proof.
  intros Hb H. split.
  - destruct fmt; [apply varint_signed_total; auto|apply varint_signed_total; auto|..];
      apply varint_reject; auto; cbn [vli_decode] in H.
    + unfold decode_integer_uleb128 in H. eapply uleb_nonneg; [|exact H]. lia.
    + unfold decode_integer_vlq in H. eapply vlq_nonneg; [|exact H]. lia.
  - destruct (varint_decode_total fmt s Hb) as (H1 & H2 & [(ini & last & suf & Hr & Hi & Hl)|Hx]).
    + rewrite (H1 _ _ _ Hr Hi Hl) in H. injection H as <- _. exists (ini ++ [last]).
      rewrite app_length. cbn [length]. rewrite app_assoc in Hr.
      assert (Hlen : (length ini + 1)%nat = length (ini ++ [last])) by (rewrite app_length; auto).
      rewrite Hlen, (rest_advance_app _ _ _ Hr). split; auto. split; auto.
      intros Hx. apply app_eq_nil in Hx. destruct Hx. discriminate.
    + rewrite (H2 Hx) in H. discriminate.
Qed.

Lemma uuid_parsed fmt raw u : fmt = CANONICAL_STRING \/ fmt = HEX_STRING -> uuid_parse fmt raw = Ok u ->
  0 <= u < 2 ^ 128.
Proof.
  intros Hf H.
  assert (Hh : exists t, uuid_of_hex t = Ok u).
  { destruct Hf as [-> | ->]; cbn [uuid_parse] in H; destruct (decode Ascii raw) as [t| |]; try discriminate; eauto. }
  destruct Hh as [t Ht]. unfold uuid_of_hex in Ht. destruct (negb _); [discriminate|].
  destruct (int_base16 _) as [v|]; [|discriminate]. destruct ((0 <=? v) && (v <? 2 ^ 128)) eqn:Hr; [|discriminate].
  injection Ht as <-. apply andb_true_iff in Hr. rewrite Z.leb_le, Z.ltb_lt in Hr. auto.
Qed.

(** What the leaves of [several_forms] load has a form of its own. *)
Lemma several_redump nats c k d dd dd0 s s1 w : several_forms nats c k -> bytes_ok (rest s) -> have_nats nats d ->
  leaf_load c k (get_expected_size_with dd c k d) (get_expected_size_with dd0 c k []) s = (s1, Ok w) ->
  leaf_suits c d k w /\ leaf_value w
  /\ exists cs bs, rest s = cs ++ rest s1 /\ s1 = advance s (length cs) /\ (cs = [] <-> bs = [])
     /\ bytes_ok bs /\ (c_size c = SNone \/ natural_size nats c)
     /\ (c_size c = SNone \/ get_expected_size_with dd c k d = Ok (zlen bs))
     /\ forall g, c_size c = SNone \/ g = get_expected_size_with dd c k d -> leaf_dump c k g w = (bs, Ok tt).
Proof.
  intros Hk Hb Hd H. destruct Hk as [fmt Hs|fmt Hf|t pad Hn|cd pad Hs Hfa Hde].
  - cbn [leaf_load leaf_dump] in *. unfold lbind, lret in H.
    destruct (vli_decode fmt s) as [s2 [z|ex|]] eqn:Hv; try discriminate. injection H as <- <-.
    destruct (vli_decoded _ _ _ _ Hb Hv) as [[bs He] (cs & H1 & H2 & H3)].
    destruct (vli_nonempty _ _ _ He) as [Hne Hok].
    split; [constructor|]. split; [exact I|]. exists cs, bs.
    do 2 (split; auto). split; [tauto|]. split; auto. split; auto. split; auto.
    intros g _. cbn [vli_encode_value]. rewrite He. reflexivity.
  - assert (Hf' : fmt = CANONICAL_STRING \/ fmt = HEX_STRING) by tauto.
    assert (Hsz : exists n, c_size c = SInt n /\ 0 < n
      /\ n = match fmt with CANONICAL_STRING => 36 | HEX_STRING => 32 | _ => 16 end).
    { destruct Hf as [[-> Hs]|[-> Hs]]; eexists; (split; [exact Hs|]); split; auto; lia. }
    destruct Hsz as (n & Hs & Hn & Hnf). cbn [leaf_load leaf_dump] in *. rewrite Hs in H.
    destruct (read s n) as [raw s2] eqn:Hr. destruct (zlen raw <? n) eqn:Hl; [discriminate|].
    destruct (read_full s n raw s2 ltac:(lia) Hr Hl) as (Hz & suf & Hrest & ->).
    destruct (match fmt with BINARY_VARIANT_1 | BINARY_VARIANT_2 => _ | _ => false end); [discriminate|].
    destruct (uuid_parse fmt raw) as [u|ex|] eqn:Hu; try discriminate. injection H as <- <-.
    pose proof (uuid_parsed _ _ _ Hf' Hu) as Hrange.
    assert (Hlen : zlen (uuid_dump fmt u) = n) by (rewrite uuid_dump_length, Hnf; destruct fmt; reflexivity).
    split; [constructor; auto; rewrite Hs, Hnf; auto|]. split; [exact I|].
    exists raw, (uuid_dump fmt u). rewrite (rest_advance_app _ _ _ Hrest).
    split; auto. split; auto. split.
    { split; intros Hx; rewrite Hx in *; cbn in *; unfold zlen in *; cbn in *; lia. }
    split; [apply uuid_dump_ok|]. split; [right; left; exists n; split; auto; lia|].
    split; [right; unfold get_expected_size_with; rewrite Hs, Hlen; auto|]. auto.
  - cbn [leaf_load leaf_dump] in *. unfold lbind, lret, llift in H.
    destruct (natural_size_ok nats c (KString (Charmap t) pad) d dd Hn Hd) as (n & Hg & Hn0). rewrite Hg in H.
    destruct (read_exact_size c (Ok n) s) as [s2 [data|ex|]] eqn:Hr; try discriminate.
    destruct (read_exact_canonical c n s s2 data Hn0 Hb Hr) as (R & A & Hz & Hok).
    destruct (decode (Charmap t) data) as [cps|ex|] eqn:Hdec; try discriminate. injection H as <- <-.
    apply page_decode in Hdec.
    assert (Henc : exists bs, encode (Charmap t) cps = Ok bs).
    { apply page_encode. clear - Hdec. induction Hdec; constructor; eauto. }
    destruct Henc as [bs Henc]. pose proof (page_encode_bytes _ _ _ Henc) as Hbs.
    assert (Hlen : length bs = length data).
    { clear - Hdec Hbs. revert bs Hbs. induction Hdec as [|x y l m _ _ IH]; intros bs Hbs;
        inversion Hbs; subst; cbn [length]; auto. }
    assert (Hz' : zlen bs = n) by (unfold zlen in *; lia).
    split.
    { econstructor; [exact Henc|]. rewrite Hz'. clear - Hg Hn Hd. unfold declared_size.
      unfold get_expected_size_with in Hg. destruct Hn as [(m & Hm & _)|(nm & Hm & Hin)]; rewrite Hm in *.
      - injection Hg as ->. left. reflexivity.
      - destruct (Hd nm Hin) as (z & Hz & _). rewrite Hz in *. injection Hg as ->. right. exists nm. auto. }
    split; [exact I|]. exists data, bs. split; auto. split; auto.
    split; [split; intros ->; [destruct bs|destruct data]; auto; discriminate|].
    split; [eapply encode_bytes_ok; eauto|]. split; auto. split; [right; rewrite Hg, Hz'; auto|].
    intros g [Hx|Hx].
    { destruct Hn as [(m & Hm & _)|(nm & Hm & Hin)]; congruence. }
    rewrite Hx, Hg. unfold encode_and_resize. rewrite Henc. cbn [bind]. rewrite Hz', Z.sub_diag. reflexivity.
  - cbn [leaf_load leaf_dump] in *.
    destruct (match get_expected_size_with dd c (KStringZ cd pad) d with Ok n => _ | Raise e => _ | OOF => _ end)
      as [mx|ex|]; try discriminate.
    destruct (stringz_encodable cd _ _ _ _ _ [] [] _ _ _ Hb ltac:(constructor) (fun _ h => h) ltac:(constructor) H)
      as (cs & t & R & A & Hne & -> & Ht).
    destruct (text_encodable cd t Ht) as (bs & He & Hbne & Hok).
    split. { constructor; auto. eapply Forall_impl; [|exact Ht]. cbn. tauto. }
    split; [exact I|]. exists cs, bs. do 2 (split; auto). split; [tauto|]. split; auto. split; auto. split; auto.
    intros g _. rewrite He. reflexivity.
Qed.
