(** Codecs: decoding what was encoded, character by character. *)
From Verif Require Import Tac PyIntProofs.
From Verif Require Export Codecs.

Lemma bytes_eqb_refl bs : bytes_eqb bs bs = true.
Proof. induction bs; cbn [bytes_eqb]; [auto|]. rewrite Z.eqb_refl. auto. Qed.

Lemma bytes_eqb_eq a : forall b, bytes_eqb a b = true <-> a = b.
Proof.
  induction a as [|x a IH]; intros [|y b]; cbn [bytes_eqb]; split; intros H; try discriminate; auto.
  - apply andb_true_iff in H. destruct H as [H1 H2]. apply IH in H2. f_equal; [lia|auto].
  - injection H as -> ->. rewrite Z.eqb_refl. apply IH. auto.
Qed.

(** The codec of the characters behind the byte order mark. *)
Definition base (c : codec) : codec :=
  match c with Utf8Sig => Utf8 | Utf16Bom e => Utf16 e | Utf32Bom e => Utf32 e | _ => c end.

(** Every non-empty proper prefix asks for more bytes; the whole gives the character. *)
Definition decodes_to (c : codec) (bs : list Z) (cp : Z) : Prop :=
  bs <> [] /\ dec_step c bs = DChar cp /\
  forall p q, bs = p ++ q -> p <> [] -> q <> [] -> dec_step c p = DMore.

Ltac bok := unfold bytes_ok; repeat (apply Forall_cons; [unfold byte_ok in *; lia|]); apply Forall_nil.

Lemma Some_inj {A} (a b : A) : Some a = Some b -> a = b.
Proof. congruence. Qed.
Ltac inj_some := let H := fresh in intros H; apply Some_inj in H; subst.

Lemma prefix1 {A} (a : A) (p q : list A) :
  [a] = p ++ q -> p <> [] -> q <> [] -> False.
Proof.
  destruct p as [|x p]; [congruence|]. cbn. intros H _ Hq. injection H as _ H.
  symmetry in H. apply app_eq_nil in H. tauto.
Qed.

Lemma prefix2 {A} (a b : A) (p q : list A) :
  [a; b] = p ++ q -> p <> [] -> q <> [] -> p = [a].
Proof.
  destruct p as [|x p]; [congruence|]. cbn. intros H _ Hq. injection H as -> H.
  destruct p as [|y p]; [reflexivity|]. exfalso. cbn in H. injection H as _ H.
  symmetry in H. apply app_eq_nil in H. tauto.
Qed.

Lemma prefix3 {A} (a b c : A) (p q : list A) :
  [a; b; c] = p ++ q -> p <> [] -> q <> [] -> p = [a] \/ p = [a; b].
Proof.
  destruct p as [|x p]; [congruence|]. cbn. intros H _ Hq. injection H as -> H.
  destruct p as [|y p]; [auto|]. right. f_equal. apply (prefix2 b c _ q); auto. discriminate.
Qed.

Lemma prefix4 {A} (a b c d : A) (p q : list A) :
  [a; b; c; d] = p ++ q -> p <> [] -> q <> [] -> p = [a] \/ p = [a; b] \/ p = [a; b; c].
Proof.
  destruct p as [|x p]; [congruence|]. cbn. intros H _ Hq. injection H as -> H.
  destruct p as [|y p]; [auto|]. right.
  destruct (prefix3 b c d (y :: p) q) as [->| ->]; auto; discriminate.
Qed.

Lemma is_scalar_iff cp :
  is_scalar cp = true <-> 0 <= cp <= 1114111 /\ ~ (55296 <= cp <= 57343).
Proof. unfold is_scalar, is_surrogate. lia. Qed.

Lemma utf8_decodes cp bs :
  encode_char Utf8 cp = Some bs -> bytes_ok bs /\ decodes_to Utf8 bs cp.
Proof.
  cbn [encode_char]. unfold utf8_char, utf16_char, utf32_char. destruct (is_scalar cp) eqn:Hs; cbn [negb]; [|discriminate].
  apply is_scalar_iff in Hs.
  destruct (cp <? 128) eqn:H1.
  { inj_some. split; [bok|]. split; [discriminate|]. split.
    - cbn [dec_step dec_utf8]. rewrite H1. reflexivity.
    - intros p q E Hp Hq. exfalso. eapply prefix1; eauto. }
  destruct (cp <? 2048) eqn:H2.
  { inj_some.
    assert (Hq0 : 2 <= cp / 64 <= 31) by dmlia.
    assert (Hm0 : 0 <= cp mod 64 < 64) by dmlia.
    pose proof (Z.div_mod cp 64 ltac:(lia)) as Hd.
    remember (cp / 64) as a. remember (cp mod 64) as b.
    split; [bok|]. split; [discriminate|]. split.
    - cbn [dec_step dec_utf8]. unfold is_cont.
      replace (192 + a <? 128) with false by lia.
      replace ((194 <=? 192 + a) && (192 + a <=? 223)) with true by lia.
      replace ((128 <=? 128 + b) && (128 + b <=? 191)) with true by lia.
      f_equal. lia.
    - intros p q E Hp Hq. apply prefix2 in E; auto. subst p.
      cbn [dec_step dec_utf8].
      replace (192 + a <? 128) with false by lia.
      replace ((194 <=? 192 + a) && (192 + a <=? 223)) with true by lia. reflexivity. }
  destruct (cp <? 65536) eqn:H3.
  { inj_some.
    set (a := cp / 4096). set (b := cp / 64 mod 64). set (c := cp mod 64).
    assert (Hb : 0 <= b < 64) by (apply Z.mod_pos_bound; lia).
    assert (Hc : 0 <= c < 64) by (apply Z.mod_pos_bound; lia).
    assert (Hcp : cp = a * 4096 + b * 64 + c).
    { subst a b c. rewrite (Z.div_mod cp 64) at 1 by lia.
      rewrite (Z.div_mod (cp / 64) 64) at 1 by lia. rewrite Z.div_div by lia.
      change (64 * 64) with 4096. lia. }
    clearbody a b c.
    assert (Ha : 0 <= a <= 15) by lia.
    assert (S1 : utf8_second_ok (224 + a) (128 + b) = true).
    { unfold utf8_second_ok, is_cont.
      destruct (224 + a =? 224) eqn:?; [lia|]. destruct (224 + a =? 237) eqn:?; [lia|].
      destruct (224 + a =? 240) eqn:?; [lia|]. destruct (224 + a =? 244) eqn:?; lia. }
    assert (S2 : is_cont (128 + c) = true) by (unfold is_cont; lia).
    assert (N0 : (224 + a <? 128) = false) by lia.
    assert (N1 : (194 <=? 224 + a) && (224 + a <=? 223) = false) by lia.
    assert (N2 : (224 <=? 224 + a) && (224 + a <=? 239) = true) by lia.
    split; [bok|]. split; [discriminate|]. split.
    - cbn [dec_step dec_utf8]. rewrite N0, N1, N2, S1, S2. cbn [andb]. f_equal. lia.
    - intros p q E Hp Hq. apply prefix3 in E; auto.
      destruct E as [-> | ->]; cbn [dec_step dec_utf8]; rewrite N0, N1, N2; [reflexivity|].
      rewrite S1. reflexivity. }
  { inj_some.
    set (a := cp / 262144). set (b := cp / 4096 mod 64). set (c := cp / 64 mod 64).
    set (d := cp mod 64).
    assert (Hb : 0 <= b < 64) by (apply Z.mod_pos_bound; lia).
    assert (Hc : 0 <= c < 64) by (apply Z.mod_pos_bound; lia).
    assert (Hd : 0 <= d < 64) by (apply Z.mod_pos_bound; lia).
    assert (Hcp : cp = a * 262144 + b * 4096 + c * 64 + d).
    { subst a b c d. rewrite (Z.div_mod cp 64) at 1 by lia.
      rewrite (Z.div_mod (cp / 64) 64) at 1 by lia. rewrite Z.div_div by lia.
      change (64 * 64) with 4096.
      rewrite (Z.div_mod (cp / 4096) 64) at 1 by lia. rewrite Z.div_div by lia.
      change (4096 * 64) with 262144. lia. }
    clearbody a b c d.
    assert (Ha : 0 <= a <= 4) by lia.
    assert (S1 : utf8_second_ok (240 + a) (128 + b) = true).
    { unfold utf8_second_ok, is_cont.
      destruct (240 + a =? 224) eqn:?; [lia|]. destruct (240 + a =? 237) eqn:?; [lia|].
      destruct (240 + a =? 240) eqn:?; [lia|]. destruct (240 + a =? 244) eqn:?; lia. }
    assert (S2 : is_cont (128 + c) = true) by (unfold is_cont; lia).
    assert (S3 : is_cont (128 + d) = true) by (unfold is_cont; lia).
    assert (N0 : (240 + a <? 128) = false) by lia.
    assert (N1 : (194 <=? 240 + a) && (240 + a <=? 223) = false) by lia.
    assert (N2 : (224 <=? 240 + a) && (240 + a <=? 239) = false) by lia.
    assert (N3 : (240 <=? 240 + a) && (240 + a <=? 244) = true) by lia.
    split; [bok|]. split; [discriminate|]. split.
    - cbn [dec_step dec_utf8]. rewrite N0, N1, N2, N3, S1, S2, S3. cbn [andb]. f_equal. lia.
    - intros p q E Hp Hq. apply prefix4 in E; auto.
      destruct E as [-> | [-> | ->]]; cbn [dec_step dec_utf8]; rewrite N0, N1, N2, N3;
        [reflexivity| |]; rewrite S1; [reflexivity|]. rewrite S2. reflexivity. }
Qed.

Lemma le_bytes2 v : le_bytes 2 v = [v mod 256; v / 256 mod 256].
Proof. reflexivity. Qed.

Lemma utf16_unit e v : 0 <= v < 65536 ->
  exists b0 b1, order e (le_bytes 2 v) = [b0; b1] /\ le_value (order e [b0; b1]) = v
    /\ byte_ok b0 /\ byte_ok b1.
Proof.
  intros Hv. rewrite le_bytes2.
  assert (Hm : byte_ok (v mod 256)) by (unfold byte_ok; dmlia).
  assert (Hm' : byte_ok (v / 256 mod 256)) by (unfold byte_ok; dmlia).
  assert (E : v mod 256 + 256 * (v / 256 mod 256 + 256 * 0) = v) by dmlia.
  destruct e; cbn [order rev app]; eexists; eexists; (split; [reflexivity|]);
    cbn [order rev app le_value]; auto.
Qed.

Lemma utf16_decodes e cp bs :
  encode_char (Utf16 e) cp = Some bs -> bytes_ok bs /\ decodes_to (Utf16 e) bs cp.
Proof.
  cbn [encode_char]. unfold utf8_char, utf16_char, utf32_char. destruct (is_scalar cp) eqn:Hs; cbn [negb]; [|discriminate].
  apply is_scalar_iff in Hs.
  destruct (cp <? 65536) eqn:H1.
  - inj_some.
    destruct (utf16_unit e cp) as (b0 & b1 & -> & E & Hb0 & Hb1); [lia|].
    split; [bok|]. split; [discriminate|]. split.
    + cbn [dec_step dec_utf16]. rewrite E.
      replace ((55296 <=? cp) && (cp <=? 56319)) with false by lia.
      replace ((56320 <=? cp) && (cp <=? 57343)) with false by lia. reflexivity.
    + intros p q Epq Hp Hq. apply prefix2 in Epq; auto. subst p. reflexivity.
  - inj_some.
    assert (Hhi : 0 <= (cp - 65536) / 1024 < 1024) by dmlia.
    assert (Hlo : 0 <= (cp - 65536) mod 1024 < 1024) by dmlia.
    pose proof (Z.div_mod (cp - 65536) 1024 ltac:(lia)) as Hdm.
    remember ((cp - 65536) / 1024) as h. remember ((cp - 65536) mod 1024) as l.
    destruct (utf16_unit e (55296 + h)) as (b0 & b1 & -> & E & Hb0 & Hb1); [lia|].
    destruct (utf16_unit e (56320 + l)) as (b2 & b3 & -> & E' & Hb2 & Hb3); [lia|].
    cbn [app].
    split; [bok|].
    split; [discriminate|]. split.
    + cbn [dec_step dec_utf16]. rewrite E, E'.
      replace ((55296 <=? 55296 + h) && (55296 + h <=? 56319)) with true by lia.
      replace ((56320 <=? 56320 + l) && (56320 + l <=? 57343)) with true by lia.
      cbn [andb]. f_equal. lia.
    + intros p q Epq Hp Hq. apply prefix4 in Epq; auto.
      destruct Epq as [-> | [-> | ->]]; cbn [dec_step dec_utf16]; try reflexivity.
      rewrite E.
      replace ((55296 <=? 55296 + h) && (55296 + h <=? 56319)) with true by lia. reflexivity.
Qed.

Lemma utf32_decodes e cp bs :
  encode_char (Utf32 e) cp = Some bs -> bytes_ok bs /\ decodes_to (Utf32 e) bs cp.
Proof.
  cbn [encode_char]. unfold utf8_char, utf16_char, utf32_char. destruct (is_scalar cp) eqn:Hs; cbn [negb]; [|discriminate].
  pose proof (proj1 (is_scalar_iff cp) Hs) as Hs'.
  inj_some.
  assert (Hok : bytes_ok (order e (le_bytes 4 cp))) by (apply order_ok, le_bytes_ok).
  assert (Hv : le_value (order e (order e (le_bytes 4 cp))) = cp).
  { rewrite order_involutive, le_value_le_bytes. apply Z.mod_small. cbn. lia. }
  assert (Hl : length (order e (le_bytes 4 cp)) = 4%nat) by (rewrite order_length, le_bytes_length; reflexivity).
  remember (order e (le_bytes 4 cp)) as bs eqn:Ebs. clear Ebs.
  destruct bs as [|b0 [|b1 [|b2 [|b3 [|]]]]]; try discriminate Hl.
  split; [exact Hok|]. split; [discriminate|]. split.
  - cbn [dec_step dec_utf32]. rewrite Hv, Hs. reflexivity.
  - intros p q Epq Hp Hq. apply prefix4 in Epq; auto.
    destruct Epq as [-> | [-> | ->]]; reflexivity.
Qed.

Lemma page_decodes t cp b : page_byte t cp = Some b -> 0 <= b <= 255 /\ page_char t b = Some cp.
Proof.
  unfold page_byte. destruct (Z.eqb_spec cp 0) as [->|]; [intros [= <-]; split; [lia|reflexivity]|].
  intros H. apply find_some in H. destruct H as [Hi Hc].
  apply in_map_iff in Hi. destruct Hi as (i & <- & Hi). apply in_rev, in_seq in Hi. split; [lia|].
  destruct (page_char t (Z.of_nat i)) as [x|]; [|discriminate]. f_equal. lia.
Qed.

Lemma encode_char_decodes c cp bs :
  encode_char c cp = Some bs -> bytes_ok bs /\ decodes_to (base c) bs cp.
Proof.
  destruct c as [| | |e|e|t| |e|e]; cbn [base];
    [| |apply utf8_decodes|apply utf16_decodes|apply utf32_decodes|
     |apply utf8_decodes|apply utf16_decodes|apply utf32_decodes]; cbn [encode_char].
  - destruct ((0 <=? cp) && (cp <? 128)) eqn:H; [|discriminate]. inj_some.
    split; [bok|]. split; [discriminate|]. split.
    + cbn [dec_step]. replace (cp <? 128) with true by lia. reflexivity.
    + intros p q E Hp Hq. exfalso. eapply prefix1; eauto.
  - destruct ((0 <=? cp) && (cp <? 256)) eqn:H; [|discriminate]. inj_some.
    split; [bok|]. split; [discriminate|]. split; [reflexivity|].
    intros p q E Hp Hq. exfalso. eapply prefix1; eauto.
  - destruct (page_byte t cp) as [b|] eqn:Hp; [|discriminate]. inj_some.
    apply page_decodes in Hp. destruct Hp as [Hb Hp].
    split; [bok|]. split; [discriminate|]. split; [cbn [dec_step]; rewrite Hp; reflexivity|].
    intros p q E Hpn Hq. exfalso. eapply prefix1; eauto.
Qed.

(** Feeding a character's bytes to [decode_from]. *)
Lemma decode_from_char c bs cp : decodes_to c bs cp ->
  forall q p tl, bs = p ++ q -> q <> [] ->
  decode_from c p (q ++ tl) = do s <- decode_from c [] tl; Ok (cp :: s).
Proof.
  intros (Hne & Hfull & Hpre) q. induction q as [|b q IH]; intros p tl E Hq; [congruence|].
  cbn [app decode_from]. destruct q as [|b' q].
  - cbn [app]. rewrite <- E, Hfull. reflexivity.
  - rewrite (Hpre (p ++ [b]) (b' :: q)).
    + apply IH; [|discriminate]. rewrite <- app_assoc. exact E.
    + rewrite <- app_assoc. exact E.
    + intros H. apply app_eq_nil in H. destruct H; discriminate.
    + discriminate.
Qed.

Lemma decode_char_app c cp bs tl : encode_char c cp = Some bs ->
  decode_from (base c) [] (bs ++ tl) = do s <- decode_from (base c) [] tl; Ok (cp :: s).
Proof.
  intros H. apply encode_char_decodes in H. destruct H as [_ H].
  apply (decode_from_char (base c) bs cp H bs [] tl eq_refl). apply H.
Qed.

Lemma decode_chars_app c s : forall bs tl, encode_chars c s = Ok bs ->
  decode_from (base c) [] (bs ++ tl) = do t <- decode_from (base c) [] tl; Ok (s ++ t).
Proof.
  induction s as [|cp s IH]; intros bs tl; cbn [encode_chars].
  - intros [= <-]. cbn [app]. destruct (decode_from (base c) [] tl); reflexivity.
  - destruct (encode_char c cp) as [b|] eqn:Ec; [|discriminate].
    destruct (encode_chars c s) as [r| |] eqn:Es; cbn [bind]; try discriminate.
    intros [= <-]. rewrite <- app_assoc, (decode_char_app _ _ _ _ Ec), (IH _ _ eq_refl).
    destruct (decode_from (base c) [] tl); reflexivity.
Qed.

Lemma strip_encoded c bs : strip_bom c (bom c ++ bs) = (base c, bs).
Proof. destruct c as [| | |e|e|t| |[]|[]]; reflexivity. Qed.

Lemma encode_inv c s bs : encode c s = Ok bs -> exists b, encode_chars c s = Ok b /\ bs = bom c ++ b.
Proof. unfold encode. destruct (encode_chars c s); try discriminate. intros [= <-]. eauto. Qed.

Lemma decode_base c bs : decode (base c) bs = decode_from (base c) [] bs.
Proof. destruct c; reflexivity. Qed.

Lemma decode_encode_app c s bs tl : encode c s = Ok bs ->
  decode c (bs ++ tl) = do t <- decode (base c) tl; Ok (s ++ t).
Proof.
  rewrite decode_base. intros H. apply encode_inv in H. destruct H as (b & H & ->). unfold decode.
  rewrite <- app_assoc, strip_encoded. apply decode_chars_app. auto.
Qed.

Lemma decode_encode c s bs : encode c s = Ok bs -> decode c bs = Ok s.
Proof.
  intros H. pose proof (decode_encode_app c s bs [] H) as E.
  rewrite app_nil_r, decode_base in E. rewrite E. cbn. rewrite app_nil_r. reflexivity.
Qed.

Lemma bom_ok c : bytes_ok (bom c).
Proof. destruct c as [| | |e|e|t| |[]|[]]; cbn; repeat constructor; unfold byte_ok; lia. Qed.

Lemma encode_chars_ok c s : forall bs, encode_chars c s = Ok bs -> bytes_ok bs.
Proof.
  induction s as [|cp s IH]; intros bs; cbn [encode_chars]; [intros [= <-]; constructor|].
  destruct (encode_char c cp) as [b|] eqn:Ec; [|discriminate].
  destruct (encode_chars c s) as [r| |] eqn:Es; cbn [bind]; try discriminate.
  intros [= <-]. apply Forall_app. split; [|apply (IH _ eq_refl)].
  apply encode_char_decodes in Ec. apply Ec.
Qed.

Lemma encode_bytes_ok c s bs : encode c s = Ok bs -> bytes_ok bs.
Proof.
  intros H. apply encode_inv in H. destruct H as (b & H & ->). apply Forall_app.
  split; [apply bom_ok|eapply encode_chars_ok; eauto].
Qed.

Lemma chars_app c s t bs bt : encode_chars c s = Ok bs -> encode_chars c t = Ok bt ->
  encode_chars c (s ++ t) = Ok (bs ++ bt).
Proof.
  revert bs. induction s as [|cp s IH]; intros bs; cbn [encode_chars app].
  - intros [= <-] H. exact H.
  - destruct (encode_char c cp) as [b|] eqn:Ec; [|discriminate].
    destruct (encode_chars c s) as [r| |] eqn:Es; cbn [bind]; try discriminate.
    intros [= <-] Ht. rewrite (IH _ eq_refl Ht). cbn [bind]. rewrite app_assoc. reflexivity.
Qed.

Lemma encode_app c s t bs bt : encode c s = Ok bs -> encode_chars c t = Ok bt ->
  encode c (s ++ t) = Ok (bs ++ bt).
Proof.
  intros H Ht. apply encode_inv in H. destruct H as (b & H & ->). unfold encode.
  rewrite (chars_app _ _ _ _ _ H Ht). cbn [bind]. rewrite app_assoc. reflexivity.
Qed.

Lemma chars_app_inv c s t : forall bs, encode_chars c (s ++ t) = Ok bs ->
  exists b1 b2, encode_chars c s = Ok b1 /\ encode_chars c t = Ok b2 /\ bs = b1 ++ b2.
Proof.
  induction s as [|cp s IH]; intros bs; cbn [encode_chars app].
  - intros H. exists [], bs. auto.
  - destruct (encode_char c cp) as [b|] eqn:Ec; [|discriminate].
    destruct (encode_chars c (s ++ t)) as [r| |] eqn:Es; cbn [bind]; try discriminate.
    intros [= <-]. destruct (IH _ eq_refl) as (b1 & b2 & -> & -> & ->).
    cbn [bind]. exists (b ++ b1), b2. rewrite app_assoc. auto.
Qed.

Lemma encode_app_inv c s t bs : encode c (s ++ t) = Ok bs ->
  exists b1 b2, encode c s = Ok b1 /\ encode_chars c t = Ok b2 /\ bs = b1 ++ b2.
Proof.
  intros H. apply encode_inv in H. destruct H as (b & H & ->). apply chars_app_inv in H.
  destruct H as (b1 & b2 & H1 & H2 & ->). exists (bom c ++ b1), b2. unfold encode. rewrite H1.
  cbn [bind]. rewrite app_assoc. auto.
Qed.

Lemma chars_no_oof c s : encode_chars c s <> OOF.
Proof.
  induction s as [|cp s IH]; cbn [encode_chars]; [discriminate|].
  destruct (encode_char c cp); [|discriminate].
  destruct (encode_chars c s); cbn [bind]; congruence.
Qed.

Lemma encode_no_oof c s : encode c s <> OOF.
Proof. unfold encode. pose proof (chars_no_oof c s). destruct (encode_chars c s); cbn [bind]; congruence. Qed.

Lemma chars_raise c s e : encode_chars c s = Raise e -> e = EUnicodeEncode.
Proof.
  induction s as [|cp s IH]; cbn [encode_chars]; [discriminate|].
  destruct (encode_char c cp); [|intros [= <-]; reflexivity].
  destruct (encode_chars c s); cbn [bind]; try discriminate. auto.
Qed.

Lemma encode_raise c s e : encode c s = Raise e -> e = EUnicodeEncode.
Proof.
  unfold encode. intros H. apply (chars_raise c s). destruct (encode_chars c s); cbn [bind] in H; congruence.
Qed.

(** Text is encodable iff each of its characters is. *)
Lemma encode_ok_iff c s :
  (exists bs, encode c s = Ok bs) <-> Forall (fun cp => encode_char c cp <> None) s.
Proof.
  assert (Hiff : (exists bs, encode_chars c s = Ok bs) <-> Forall (fun cp => encode_char c cp <> None) s).
  { induction s as [|cp s IH]; cbn [encode_chars].
    - split; eauto.
    - split.
      + intros [bs H]. destruct (encode_char c cp) as [b|] eqn:Ec; [|discriminate].
        constructor; [congruence|]. apply IH.
        destruct (encode_chars c s); cbn [bind] in H; try discriminate. eauto.
      + intros H. inversion H as [|? ? H1 H2]; subst.
        destruct (encode_char c cp) as [b|]; [|congruence].
        destruct (proj2 IH H2) as [r ->]. cbn [bind]. eauto. }
  rewrite <- Hiff. unfold encode. split; intros [bs H].
  - destruct (encode_chars c s); try discriminate. eauto.
  - rewrite H. cbn [bind]. eauto.
Qed.

(** The NUL terminator: the codec's code unit width of zero bytes. *)
Definition unit_width (c : codec) : nat :=
  match c with
  | Ascii | Latin1 | Utf8 | Charmap _ | Utf8Sig => 1
  | Utf16 _ | Utf16Bom _ => 2
  | Utf32 _ | Utf32Bom _ => 4
  end.

Lemma encode_nul c : encode_chars c [0] = Ok (repeat 0 (unit_width c)).
Proof. destruct c as [| | |[]|[]|t| |[]|[]]; reflexivity. Qed.

Lemma ascii_chars s : Forall (fun ch => 0 <= ch < 128) s -> encode Ascii s = Ok s.
Proof.
  intros H. unfold encode. cut (encode_chars Ascii s = Ok s); [intros ->; reflexivity|].
  induction s as [|ch s IH]; [reflexivity|].
  inversion H as [|? ? H1 H2]; subst. cbn [encode_chars encode_char].
  replace ((0 <=? ch) && (ch <? 128)) with true by lia. rewrite IH by auto. reflexivity.
Qed.

(** The byte order mark is recognised when complete. *)
Definition marks (c : codec) (bs : list Z) (c' : codec) : Prop :=
  dec_step c bs = DBom c' /\
  forall p q, bs = p ++ q -> p <> [] -> q <> [] -> dec_step c p = DMore.

Lemma marks_1 e : marks (Utf16Bom e) [255; 254] (Utf16 Little).
Proof. split; [reflexivity|]. intros p q E Hp Hq. apply prefix2 in E; auto. subst p. reflexivity. Qed.
Lemma marks_2 e : marks (Utf16Bom e) [254; 255] (Utf16 Big).
Proof. split; [reflexivity|]. intros p q E Hp Hq. apply prefix2 in E; auto. subst p. reflexivity. Qed.
Lemma marks_3 e : marks (Utf32Bom e) [255; 254; 0; 0] (Utf32 Little).
Proof.
  split; [reflexivity|]. intros p q E Hp Hq. apply prefix4 in E; auto.
  destruct E as [-> | [-> | ->]]; reflexivity.
Qed.
Lemma marks_4 e : marks (Utf32Bom e) [0; 0; 254; 255] (Utf32 Big).
Proof.
  split; [reflexivity|]. intros p q E Hp Hq. apply prefix4 in E; auto.
  destruct E as [-> | [-> | ->]]; reflexivity.
Qed.
Lemma marks_5 : marks Utf8Sig [239; 187; 191] Utf8.
Proof.
  split; [reflexivity|]. intros p q E Hp Hq. apply prefix3 in E; auto.
  destruct E as [-> | ->]; reflexivity.
Qed.

Lemma bom_marks c : bom c = [] /\ base c = c \/ bom c <> [] /\ marks c (bom c) (base c).
Proof.
  destruct c as [| | |e|e|t| |[]|[]]; try (left; split; reflexivity); right; (split; [discriminate|]).
  - apply marks_5.
  - apply marks_2.
  - apply marks_1.
  - apply marks_4.
  - apply marks_3.
Qed.

Lemma started_base c : started (base c) = base c.
Proof. destruct c; reflexivity. Qed.
