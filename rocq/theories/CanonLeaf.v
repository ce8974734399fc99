(** Canonical leaf fields: dumping the loaded value reproduces the bytes. *)
From Coq Require Import QArith Qabs Lqa.
From Verif Require Export SpecCanon.
From Verif Require Import Tac PyIntProofs StreamProofs CodecsProofs UuidProofs FieldProofs FieldMore
  FloatMore TimeProofs LoadProofs LocalProofs.
Open Scope Z_scope.

(** ** Text *)
Ltac split_bytes := repeat match goal with
  | H : bytes_ok (_ :: _) |- _ => inversion H; clear H; subst
  | H : Forall byte_ok (_ :: _) |- _ => inversion H; clear H; subst
  end.

Lemma utf8_canonical buf cp : bytes_ok buf -> dec_utf8 buf = DChar cp -> utf8_char cp = Some buf.
Proof.
  intros Hb H. destruct buf as [|b0 r]; [discriminate|]. cbn [dec_utf8] in H.
  split_bytes. unfold byte_ok in *.
  destruct (b0 <? 128) eqn:T0.
  { destruct r; [injection H as <-|discriminate]. unfold utf8_char.
    replace (is_scalar b0) with true by (unfold is_scalar, is_surrogate; lia). cbn [negb]. rewrite T0. auto. }
  destruct ((194 <=? b0) && (b0 <=? 223)) eqn:T1.
  { destruct r as [|b1 [|? ?]]; try discriminate. destruct (is_cont b1) eqn:C1; [|discriminate].
    injection H as <-. unfold is_cont in *. unfold utf8_char. set (cp := (b0 - 192) * 64 + (b1 - 128)).
    assert (Hc : 128 <= cp < 2048) by (unfold cp; lia).
    replace (is_scalar cp) with true by (unfold is_scalar, is_surrogate; lia). cbn [negb].
    replace (cp <? 128) with false by lia. replace (cp <? 2048) with true by lia.
    assert (cp / 64 = b0 - 192) by (unfold cp; Z.div_mod_to_equations; lia).
    assert (cp mod 64 = b1 - 128) by (unfold cp; Z.div_mod_to_equations; lia).
    repeat f_equal; lia. }
  destruct ((224 <=? b0) && (b0 <=? 239)) eqn:T2.
  { destruct r as [|b1 [|b2 [|? ?]]]; try discriminate; [destruct (utf8_second_ok b0 b1 || (b0 =? 237) && is_cont b1); discriminate|].
    destruct (utf8_second_ok b0 b1 && is_cont b2) eqn:C1; [|discriminate].
    injection H as <-. unfold utf8_second_ok, is_cont in *. unfold utf8_char.
    set (cp := (b0 - 224) * 4096 + (b1 - 128) * 64 + (b2 - 128)).
    assert (Hr : 128 <= b1 <= 191 /\ 128 <= b2 <= 191).
    { destruct (b0 =? 224), (b0 =? 237), (b0 =? 240), (b0 =? 244); lia. }
    assert (Hc : 2048 <= cp < 65536 /\ (cp < 55296 \/ 57343 < cp)).
    { unfold cp. destruct (Z.eqb_spec b0 224), (Z.eqb_spec b0 237), (b0 =? 240), (b0 =? 244); lia. }
    replace (is_scalar cp) with true by (unfold is_scalar, is_surrogate; lia). cbn [negb].
    replace (cp <? 128) with false by lia. replace (cp <? 2048) with false by lia.
    replace (cp <? 65536) with true by lia.
    assert (cp / 4096 = b0 - 224) by (unfold cp; Z.div_mod_to_equations; lia).
    assert (cp / 64 mod 64 = b1 - 128) by (unfold cp; Z.div_mod_to_equations; lia).
    assert (cp mod 64 = b2 - 128) by (unfold cp; Z.div_mod_to_equations; lia).
    repeat f_equal; lia. }
  destruct ((240 <=? b0) && (b0 <=? 244)) eqn:T3; [|discriminate].
  destruct r as [|b1 [|b2 [|b3 [|? ?]]]]; try discriminate;
    try (destruct (utf8_second_ok b0 b1); discriminate);
    try (destruct (utf8_second_ok b0 b1 && is_cont b2); discriminate).
  destruct (utf8_second_ok b0 b1 && is_cont b2 && is_cont b3) eqn:C1; [|discriminate].
  injection H as <-. unfold utf8_second_ok, is_cont in *. unfold utf8_char.
  set (cp := (b0 - 240) * 262144 + (b1 - 128) * 4096 + (b2 - 128) * 64 + (b3 - 128)).
  assert (Hr : 128 <= b1 <= 191 /\ 128 <= b2 <= 191 /\ 128 <= b3 <= 191).
  { destruct (b0 =? 224), (b0 =? 237), (b0 =? 240), (b0 =? 244); lia. }
  assert (Hc : 65536 <= cp <= 1114111).
  { unfold cp. destruct (Z.eqb_spec b0 224), (Z.eqb_spec b0 237), (Z.eqb_spec b0 240), (Z.eqb_spec b0 244); lia. }
  replace (is_scalar cp) with true by (unfold is_scalar, is_surrogate; lia). cbn [negb].
  replace (cp <? 128) with false by lia. replace (cp <? 2048) with false by lia.
  replace (cp <? 65536) with false by lia.
  assert (cp / 262144 = b0 - 240) by (unfold cp; Z.div_mod_to_equations; lia).
  assert (cp / 4096 mod 64 = b1 - 128) by (unfold cp; Z.div_mod_to_equations; lia).
  assert (cp / 64 mod 64 = b2 - 128) by (unfold cp; Z.div_mod_to_equations; lia).
  assert (cp mod 64 = b3 - 128) by (unfold cp; Z.div_mod_to_equations; lia).
  repeat f_equal; lia.
Qed.

Lemma unit_canonical e bs : bytes_ok bs -> order e (le_bytes (length bs) (le_value (order e bs))) = bs.
Proof.
  intros H. rewrite <- (order_length e bs), le_bytes_le_value by (apply order_ok; auto).
  apply order_involutive.
Qed.

Lemma unit_range e bs : bytes_ok bs -> 0 <= le_value (order e bs) < 256 ^ zlen bs.
Proof. intros H. rewrite <- (zlen_order e bs). apply le_value_bound. apply order_ok. auto. Qed.

Lemma dchar_inj a b : DChar a = DChar b -> a = b.
Proof. intros H. congruence. Qed.

Lemma page_one t b cp : one_form (Charmap t) -> byte_ok b -> page_char t b = Some cp -> page_byte t cp = Some b.
Proof.
  intros Ho Hb H. unfold page_byte. destruct (cp =? 0) eqn:Hz.
  { apply Z.eqb_eq in Hz. subst cp. f_equal. apply (Ho 0 b 0); auto. }
  destruct (find _ _) as [b'|] eqn:Hf.
  - apply find_some in Hf. destruct Hf as [_ Hf]. destruct (page_char t b') as [x|] eqn:Hx; [|discriminate].
    apply Z.eqb_eq in Hf. subst x. f_equal. eapply Ho; eauto.
  - exfalso. assert (Hin : In b (map Z.of_nat (rev (seq 0 256)))).
    { apply in_map_iff. exists (Z.to_nat b). unfold byte_ok in Hb. split; [lia|].
      apply -> in_rev. apply in_seq. lia. }
    pose proof (find_none _ _ Hf b Hin) as Hn. cbn beta in Hn. rewrite H, Z.eqb_refl in Hn. discriminate.
Qed.

Lemma dec_canonical cd buf cp : one_form cd -> bytes_ok buf -> dec_step cd buf = DChar cp ->
  encode_char cd cp = Some buf.
Proof.
  intros Ho Hb. destruct cd as [| | |e|e|t| |e|e]; try contradiction; cbn [dec_step].
  - destruct buf as [|b [|? ?]]; try discriminate. split_bytes. unfold byte_ok in *.
    destruct (b <? 128) eqn:H; [|discriminate]. intros [= <-]. cbn [encode_char].
    replace ((0 <=? b) && (b <? 128)) with true by lia. auto.
  - destruct buf as [|b [|? ?]]; try discriminate. split_bytes. unfold byte_ok in *.
    intros [= <-]. cbn [encode_char]. replace ((0 <=? b) && (b <? 256)) with true by lia. auto.
  - apply utf8_canonical; auto.
  - intros H. destruct buf as [|b0 [|b1 [|b2 [|b3 [|? ?]]]]]; try discriminate; cbn [dec_utf16] in H.
    + pose proof (unit_canonical e _ Hb) as Hc. pose proof (unit_range e _ Hb) as Hr.
      change (256 ^ zlen [b0; b1]) with 65536 in Hr. cbn [length] in Hc.
      set (u := le_value (order e [b0; b1])) in *.
      destruct ((55296 <=? u) && (u <=? 56319)) eqn:H1; [discriminate|].
      destruct ((56320 <=? u) && (u <=? 57343)) eqn:H2; [discriminate|]. injection H as <-.
      cbn [encode_char]; unfold utf16_char.
      replace (is_scalar u) with true by (unfold is_scalar, is_surrogate; lia). cbn [negb].
      replace (u <? 65536) with true by lia. rewrite Hc. auto.
    + destruct (proj1 (bytes_ok_app [b0; b1] [b2; b3]) Hb) as [Hb1 Hb2].
      pose proof (unit_canonical e _ Hb1) as Hc1. pose proof (unit_canonical e _ Hb2) as Hc2.
      cbn [length] in Hc1, Hc2.
      set (u := le_value (order e [b0; b1])) in *. set (u' := le_value (order e [b2; b3])) in *.
      destruct ((55296 <=? u) && (u <=? 56319) && ((56320 <=? u') && (u' <=? 57343))) eqn:H1; [|discriminate].
      assert (Hu : 55296 <= u <= 56319 /\ 56320 <= u' <= 57343) by lia.
      apply dchar_inj in H.
      assert (Hr : 65536 <= cp <= 1114111) by lia.
      cbn [encode_char]; unfold utf16_char.
      replace (is_scalar cp) with true by (unfold is_scalar, is_surrogate; lia). cbn [negb].
      replace (cp <? 65536) with false by lia. cbv zeta.
      assert (E1 : 55296 + (cp - 65536) / 1024 = u) by (Z.div_mod_to_equations; lia).
      assert (E2 : 56320 + (cp - 65536) mod 1024 = u') by (Z.div_mod_to_equations; lia).
      rewrite E1, E2.
      rewrite Hc1, Hc2. auto.
  - intros H. destruct buf as [|b0 [|b1 [|b2 [|b3 [|? ?]]]]]; try discriminate; cbn [dec_utf32] in H.
    pose proof (unit_canonical e _ Hb) as Hc. cbn [length] in Hc.
    set (u := le_value (order e [b0; b1; b2; b3])) in *.
    destruct (is_scalar u) eqn:Hs; [|discriminate]. injection H as <-.
    cbn [encode_char]; unfold utf32_char. rewrite Hs. cbn [negb]. rewrite Hc. auto.
  - destruct buf as [|b [|? ?]]; try discriminate.
    destruct (page_char t b) as [x|] eqn:Hp; [|discriminate]. intros [= ->].
    cbn [encode_char]. rewrite (page_one _ _ _ Ho (Forall_inv Hb) Hp). auto.
Qed.

Lemma bytes_ok_one b : byte_ok b -> bytes_ok [b].
Proof. intros H. apply Forall_cons; [exact H|apply Forall_nil]. Qed.

Lemma chars_canonical cd bs : one_form cd -> bytes_ok bs -> forall buf t, bytes_ok buf ->
  decode_from cd buf bs = Ok t -> encode_chars cd t = Ok (buf ++ bs).
Proof.
  intros Ho. induction bs as [|b bs IH]; intros Hb buf t Hbuf H; cbn [decode_from] in H.
  - destruct buf; [|discriminate]. injection H as <-. reflexivity.
  - inversion Hb as [|? ? Hb0 Hbs]; subst.
    assert (Hbuf' : bytes_ok (buf ++ [b])) by (apply bytes_ok_app; split; [auto|apply bytes_ok_one; auto]).
    destruct (dec_step cd (buf ++ [b])) as [cp| | |cd'|] eqn:Hd; try discriminate.
    + destruct (decode_from cd [] bs) as [t'| |] eqn:Ht; try discriminate. injection H as <-.
      cbn [encode_chars]. rewrite (dec_canonical _ _ _ Ho Hbuf' Hd). rewrite (IH Hbs [] t') by (auto; constructor).
      cbn [bind app]. rewrite <- app_assoc. reflexivity.
    + rewrite (IH Hbs _ _ Hbuf' H), <- app_assoc. reflexivity.
Qed.

Lemma decode_canonical cd bs t : one_form cd -> bytes_ok bs -> decode cd bs = Ok t -> encode cd t = Ok bs.
Proof.
  intros Ho Hb. replace (decode cd bs) with (decode_from cd [] bs) by (destruct cd; auto; contradiction).
  intros H. unfold encode. rewrite (chars_canonical cd bs Ho Hb [] t ltac:(constructor) H).
  destruct cd; auto; contradiction.
Qed.

Lemma dec_no_mark cd buf cd' : one_form cd -> dec_step cd buf <> DBom cd'.
Proof.
  intros Ho Hd. destruct cd as [| | |e|e|t| |e|e]; try contradiction; revert Hd; cbn [dec_step].
  - destruct buf as [|b [|]]; try discriminate. destruct (b <? 128); discriminate.
  - destruct buf as [|b [|]]; discriminate.
  - pose proof (dec_utf8_marks buf). intros Hd. rewrite Hd in *. auto.
  - pose proof (dec_utf16_marks e buf). intros Hd. rewrite Hd in *. auto.
  - pose proof (dec_utf32_marks e buf). intros Hd. rewrite Hd in *. auto.
  - destruct buf as [|b [|]]; try discriminate. destruct (page_char t b); discriminate.
Qed.

Lemma encode_nonzero cd cp bs : encode_char cd cp = Some bs -> encode_chars cd [cp] = Ok bs.
Proof. intros H. cbn [encode_chars]. rewrite H. cbn [bind]. rewrite app_nil_r. auto. Qed.

Lemma stringz_canonical cd fuel : one_form cd -> forall nm mx nr buf acc s s1 v pre, bytes_ok (rest s) -> bytes_ok buf ->
  encode cd (rev acc) = Ok pre ->
  stringz_loop fuel nm cd mx nr buf acc s = (s1, Ok v) ->
  exists bs suf t, rest s = bs ++ suf /\ s1 = advance s (length bs) /\ v = VStr t
    /\ encode cd (t ++ [0]) = Ok (pre ++ buf ++ bs).
Proof.
  intros Ho. assert (Hst : started cd = cd) by (destruct cd; auto; contradiction).
  induction fuel as [|fuel IH]; intros nm mx nr buf acc s s1 v pre Hb Hbuf Hacc H; [discriminate|].
  cbn [stringz_loop] in H. destruct (iter_next mx nr s) as [[b s2]|] eqn:Hi; [|destruct (forgiven cd buf); discriminate].
  destruct (iter_next_ok _ _ _ _ _ Hi) as (suf & Hr & -> & _).
  rewrite Hr in Hb. inversion Hb as [|? ? Hb0 Hsuf]; subst.
  assert (Hbuf' : bytes_ok (buf ++ [b])) by (apply bytes_ok_app; split; [auto|apply bytes_ok_one; auto]).
  assert (Hrest : bytes_ok (rest (advance s 1))) by (rewrite (rest_one _ _ _ Hr); auto).
  destruct (dec_step cd (buf ++ [b])) as [cp| | |cd'|] eqn:Hd; try discriminate.
  3: destruct (dec_no_mark _ _ _ Ho Hd).
  1: rewrite Hst in H.
  - pose proof (dec_canonical _ _ _ Ho Hbuf' Hd) as He. destruct (cp =? 0) eqn:Hz.
    + injection H as <- <-. apply Z.eqb_eq in Hz. subst cp.
      exists [b], suf, (rev acc). split; [auto|]. split; [auto|]. split; [auto|].
      rewrite (encode_app _ _ _ _ _ Hacc (encode_nonzero _ _ _ He)). reflexivity.
    + assert (Hacc' : encode cd (rev (cp :: acc)) = Ok (pre ++ (buf ++ [b]))).
      { cbn [rev]. apply encode_app; auto. apply encode_nonzero. auto. }
      destruct (IH _ _ _ [] _ _ _ _ _ Hrest ltac:(constructor) Hacc' H) as (bs & suf' & t & H1 & H2 & H3 & H4).
      exists (b :: bs), suf', t. rewrite (rest_one _ _ _ Hr) in H1.
      split; [rewrite Hr, H1; auto|]. split; [rewrite H2, advance_advance; auto|]. split; auto.
      rewrite H4. f_equal. rewrite <- !app_assoc. reflexivity.
  - destruct (IH _ _ _ _ _ _ _ _ _ Hrest Hbuf' Hacc H) as (bs & suf' & t & H1 & H2 & H3 & H4).
    exists (b :: bs), suf', t. rewrite (rest_one _ _ _ Hr) in H1.
    split; [rewrite Hr, H1; auto|]. split; [rewrite H2, advance_advance; auto|]. split; auto.
    rewrite H4. f_equal. rewrite <- !app_assoc. reflexivity.
Qed.

(** ** Timestamps *)
Lemma rnd64_signed n d : rnd64 (n, d)
  = match rnd64 (Z.abs n, d) with
    | Some (a, b) => Some ((if n <? 0 then - a else a), b)
    | None => None
    end.
Proof.
  unfold rnd64. rewrite Z.abs_involutive. destruct (round_mag binary64 (Z.abs n) d) as [mag|]; auto.
  destruct (unpack_mag binary64 mag) as [m e]. destruct (dyadic m e) as [n' d'].
  replace (Z.abs n <? 0) with false by lia. auto.
Qed.

Lemma rhe_bound n d k : 0 <= n -> 0 < d -> n < k * d -> 0 <= round_half_even n d <= k + 1.
Proof.
  intros Hn Hd Hk. pose proof (Z.div_pos n d Hn Hd). pose proof (Z.div_lt_upper_bound n d k Hd ltac:(lia)).
  unfold round_half_even. destruct (_ <? _); try lia. destruct (_ <? _); try lia. destruct (Z.even _); lia.
Qed.

Lemma rhe_signed_bound n d k : 0 < d -> Z.abs n < k * d -> Z.abs (round_half_even_signed (n, d)) <= k + 1.
Proof.
  intros Hd Hk. unfold round_half_even_signed. destruct (Z.ltb_spec n 0).
  - pose proof (rhe_bound (- n) d k ltac:(lia) Hd ltac:(lia)). lia.
  - pose proof (rhe_bound n d k ltac:(lia) Hd ltac:(lia)). lia.
Qed.

Lemma fromtimestamp_far n d us aware : 0 < d -> 2 ^ 51 * d <= Z.abs n -> py_fromtimestamp (n, d) aware = Ok us -> False.
Proof.
  intros Hd Hn. unfold py_fromtimestamp, rmul. cbn [fst snd].
  assert (Hrem : Z.abs (Z.rem n d) < d).
  { pose proof (Z.rem_bound_abs n d ltac:(lia)). lia. }
  assert (Hq : 2 ^ 51 <= Z.abs (Z.quot n d)).
  { rewrite <- Z.quot_abs by lia. rewrite (Z.abs_eq d) by lia.
    rewrite Z.quot_div_nonneg by lia. apply Z.div_le_lower_bound; lia. }
  rewrite rnd64_signed.
  assert (H : (frac (Z.abs (Z.rem n d * 1000000)) (d * 1) < inject_Z 1000000)%Q).
  { apply frac_lt; [lia|]. rewrite Z.abs_mul. lia. }
  assert (H2 : (inject_Z 1000000 <= inject_Z (2 ^ 63))%Q) by (rewrite <- Zle_Qle; lia).
  destruct (rnd64_error (Z.abs (Z.rem n d * 1000000)) (d * 1)) as (a & b & -> & Ha & Hb & He); try lia.
  { pose proof two_1000. lra. }
  apply Qabs_bounds in He. destruct He as [_ He].
  assert (Hab : a < 1000001 * b).
  { apply (proj1 (frac_lt 1000001 a b Hb)). rewrite two_53 in He. pose proof two_1075.
    change (inject_Z 1000000) with (1000000 # 1)%Q in H. change (inject_Z 1000001) with (1000001 # 1)%Q. lra. }
  cbn [opt_res bind].
  assert (Hf : Z.abs (round_half_even_signed (if Z.rem n d * 1000000 <? 0 then - a else a, b)) <= 1000002).
  { apply (rhe_signed_bound _ _ 1000001); auto. destruct (_ <? _); lia. }
  set (f := round_half_even_signed _) in *. unfold first_datetime_us, min_datetime_us, max_datetime_us.
  replace ((_ <=? _) && (_ <=? _)) with false; [destruct (time_t_ok _); discriminate|].
  symmetry. apply andb_false_iff. rewrite !Z.leb_gt. change (2 ^ 51) with 2251799813685248 in Hq.
  destruct aware; lia.
Qed.

Lemma seconds_canonical aware z us : Z.abs z < 2 ^ 900 -> time_of_int ResS aware z = Ok us ->
  us = z * 1000000 /\ first_datetime_us aware <= us <= max_datetime_us.
Proof.
  intros Hz. destruct (Z_lt_le_dec (Z.abs z) (2 ^ 53)) as [Hs|Hs].
  - unfold time_of_int.
    destruct (rnd64_exact z 1 z ltac:(lia) ltac:(lia) Hs) as (b & -> & Hb). cbn [opt_res bind].
    unfold py_fromtimestamp. rewrite Z.quot_mul, Z.rem_mul by lia. unfold rmul. cbn [fst snd].
    rewrite Z.mul_0_l.
    destruct (rnd64_exact 0 (b * 1) 0 ltac:(lia) ltac:(lia) ltac:(lia)) as (b' & -> & Hb').
    cbn [opt_res bind]. unfold round_half_even_signed. replace (0 * b' <? 0) with false by lia.
    assert (Hr : round_half_even (0 * b') b' = 0).
    { apply rhe_exact; auto. apply frac_eq; lia. }
    rewrite Hr, Z.add_0_r.
    destruct (_ && _) eqn:Hc; [|destruct (time_t_ok _); discriminate]. intros [= <-]. split; auto.
    rewrite andb_true_iff, !Z.leb_le in Hc. auto.
  - intros H. exfalso. unfold time_of_int in H. rewrite rnd64_signed in H.
    assert (Hup : (frac (Z.abs z) 1 < two 1000)%Q).
    { rewrite frac_1. assert (H9 : (two 900 <= two 1000)%Q) by (apply two_le; lia).
      rewrite (two_Z 900) in H9 by lia. eapply Qlt_le_trans; [|exact H9]. rewrite <- Zlt_Qlt. auto. }
    destruct (rnd64_error (Z.abs z) 1 ltac:(lia) ltac:(lia) Hup) as (a & b & Hr & Ha & Hb & He).
    rewrite Hr in H. cbn [opt_res bind] in H.
    apply (fromtimestamp_far _ _ _ _ Hb) in H; auto.
    apply Qabs_bounds in He. destruct He as [He _]. rewrite two_53, frac_1 in He. pose proof two_1075.
    assert (Hle : (inject_Z (2 ^ 53) <= inject_Z (Z.abs z))%Q) by (rewrite <- Zle_Qle; auto).
    assert (Hfin : 2 ^ 51 * b <= a).
    { apply (proj1 (frac_le (2 ^ 51) a b Hb)).
      change (inject_Z (2 ^ 51)) with (2251799813685248 # 1)%Q.
      change (inject_Z (2 ^ 53)) with (9007199254740992 # 1)%Q in Hle. lra. }
    destruct (_ <? _); lia.
Qed.

(** ** Floats *)
Lemma lor_below a b n : 0 < n -> 0 <= a < 2 ^ n -> 0 <= b < 2 ^ n -> 0 <= Z.lor a b < 2 ^ n.
Proof.
  intros Hn Ha Hb. split; [apply Z.lor_nonneg; lia|].
  destruct (Z.eq_dec (Z.lor a b) 0) as [->|Hnz]; [lia|].
  assert (0 <= Z.lor a b) by (apply Z.lor_nonneg; lia).
  apply Z.log2_lt_pow2; [lia|]. rewrite Z.log2_lor by lia.
  assert (Hl : forall x, 0 <= x < 2 ^ n -> Z.log2 x < n).
  { intros x Hx. destruct (Z.eq_dec x 0) as [->|]; [cbn; lia|]. apply Z.log2_lt_pow2; lia. }
  pose proof (Hl a Ha). pose proof (Hl b Hb). lia.
Qed.

Lemma convert_nan i x y : ieee_ok i -> wider (fmt_of i) binary64 -> is_nan i x ->
  convert (fmt_of i) binary64 x = Some y -> is_nan double y.
Proof.
  intros Hi Hw Hn. unfold convert. rewrite (proj1 (classify_nan i x Hi) Hn).
  assert (Hp : ff_prec (fmt_of i) <= 53) by apply Hw.
  replace (0 <=? ff_prec binary64 - ff_prec (fmt_of i)) with true by (cbn [binary64 ff_prec]; lia).
  set (q := magnitude (fmt_of i) x mod 2 ^ (ff_prec (fmt_of i) - 1)).
  assert (Hpl : 0 <= q * 2 ^ (ff_prec binary64 - ff_prec (fmt_of i)) < 2 ^ 52).
  { destruct Hi as [H1 H2]. cbn [fmt_of ff_prec binary64] in *.
    assert (Hq : 0 <= q < 2 ^ i_t i).
    { unfold q. replace (i_t i + 1 - 1) with (i_t i) by lia. apply Z.mod_pos_bound. apply Z.pow_pos_nonneg; lia. }
    replace 52 with (i_t i + (53 - (i_t i + 1))) by lia. rewrite Z.pow_add_r by lia.
    assert (0 < 2 ^ (53 - (i_t i + 1))) by (apply Z.pow_pos_nonneg; lia). nia. }
  set (pl := q * _) in *. clearbody pl.
  pose proof (lor_below (2 ^ 51) pl 52 ltac:(lia) ltac:(lia) Hpl) as Hl.
  assert (Hnz : Z.lor (2 ^ 51) pl <> 0) by (intros H0; apply Z.lor_eq_0_iff in H0; lia).
  intros H. apply Some_inj in H. subst y. apply (classify_nan double _ double_ok). rewrite fmt_double.
  set (t := Z.lor _ pl) in *. change (2 ^ (ff_prec binary64 - 2)) with (2 ^ 51) in t.
  assert (Hm : magnitude binary64 (with_sign binary64 (sign_of (fmt_of i) x) (ff_inf binary64 + t))
               = ff_inf binary64 + t).
  { unfold magnitude, with_sign. change (ff_signbit binary64) with (2 ^ 63).
    change (ff_inf binary64) with (2047 * 2 ^ 52).
    destruct (sign_of _ _); [symmetry; apply (Z.mod_unique _ _ 1); lia|apply Z.mod_small; lia]. }
  unfold classify. rewrite Hm. replace (_ <? _) with false by lia. replace (_ =? _) with false by lia. auto.
Qed.

(** ** Leaf fields *)
Definition leaf_value (v : value) : Prop :=
  match v with
  | VInt _ | VFloat _ | VTime _ _ | VBytes _ | VStr _ | VUUID _ => True
  | _ => False
  end.

Lemma read_int_canonical n sg e s s1 z : 0 <= n -> bytes_ok (rest s) -> read_int n sg e s = (s1, Ok z) ->
  exists bs, rest s = bs ++ rest s1 /\ s1 = advance s (length bs) /\ zlen bs = n /\ bytes_ok bs
    /\ write_int z n sg e = (bs, Ok tt).
Proof.
  intros Hn Hb H. unfold read_int in H. destruct (read s n) as [data s2] eqn:Hr.
  destruct (zlen data <? n) eqn:Hl; try discriminate. injection H as <- <-.
  destruct (read_full _ _ _ _ Hn Hr Hl) as (Hz & suf & Hs & ->).
  rewrite Hs in Hb. apply bytes_ok_app in Hb. destruct Hb as [Hb _].
  exists data. rewrite (rest_advance_app _ _ _ Hs). repeat (split; auto).
  unfold write_int. rewrite <- Hz, py_to_from_bytes by auto. reflexivity.
Qed.

Lemma read_exact_canonical c n s s1 data : 0 <= n -> bytes_ok (rest s) ->
  read_exact_size c (Ok n) s = (s1, Ok data) ->
  rest s = data ++ rest s1 /\ s1 = advance s (length data) /\ zlen data = n /\ bytes_ok data.
Proof.
  intros Hn Hb H. unfold read_exact_size in H. destruct (read s n) as [data' s2] eqn:Hr.
  destruct (zlen data' <? n) eqn:Hl; try discriminate. injection H as <- <-.
  destruct (read_full _ _ _ _ Hn Hr Hl) as (Hz & suf & Hs & ->).
  rewrite Hs in Hb. apply bytes_ok_app in Hb. rewrite (rest_advance_app _ _ _ Hs). tauto.
Qed.

Lemma int_value_bound sg n z : 0 <= n <= 100 -> fits sg n z = true -> Z.abs z < 2 ^ 900.
Proof.
  intros Hn H. unfold fits in H.
  assert (Hp : 2 ^ (8 * n) <= 2 ^ 800) by (apply Z.pow_le_mono_r; lia).
  assert (Hp' : 2 ^ (8 * n - 1) <= 2 ^ 800) by (apply Z.pow_le_mono_r; lia).
  assert (2 ^ 800 < 2 ^ 900) by reflexivity. assert (0 < 2 ^ (8 * n)) by (apply Z.pow_pos_nonneg; lia).
  destruct sg; lia.
Qed.

Lemma uuid_canonical fmt raw u : fmt = BINARY_VARIANT_1 \/ fmt = BINARY_VARIANT_2 -> bytes_ok raw ->
  zlen raw = 16 -> uuid_parse fmt raw = Ok u -> uuid_dump fmt u = raw.
Proof.
  intros Hf Hb Hl. assert (Hn : length raw = 16%nat) by (unfold zlen in Hl; lia).
  destruct Hf as [-> | ->]; cbn [uuid_parse uuid_dump]; intros [= <-]; unfold uuid_bytes.
  - rewrite <- Hn, <- (rev_length raw), le_bytes_le_value by (apply Forall_rev; auto).
    apply rev_involutive.
  - pose proof (swap_le_length raw Hn) as Hs.
    assert (Hsb : bytes_ok (swap_le raw)).
    { unfold swap_le. unfold bytes_ok in *. repeat (apply Forall_app; split); try apply Forall_rev;
        repeat (apply Forall_firstn' || apply Forall_skipn'); exact Hb. }
    rewrite <- Hs at 1. rewrite <- (rev_length (swap_le raw)), le_bytes_le_value by (apply Forall_rev; auto).
    rewrite rev_involutive. apply swap_le_involutive. auto.
Qed.

Lemma leaf_redump nats c k g g0 s s1 v : canonical_leaf nats c k -> bytes_ok (rest s) ->
  (natural_size nats c -> exists n, g = Ok n /\ 0 <= n) ->
  (forall n, c_size c = SInt n -> g = Ok n /\ g0 = Ok n) ->
  leaf_load c k g g0 s = (s1, Ok v) -> nan_free v ->
  exists bs, rest s = bs ++ rest s1 /\ s1 = advance s (length bs)
    /\ leaf_dump c k g v = (bs, Ok tt) /\ leaf_value v
    /\ (c_size c = SNone \/ g = Ok (zlen bs)).
Proof.
  intros Hk Hb Hnat Hint H Hnan.
  destruct Hk as [sg e n Hs Hn|i k e Hf Hs|tz sg e n Hs Hn|Hn|cd pad Ho Hn|cd pad Ho Hs|fmt Hf Hs].
  - destruct (Hint _ Hs) as [Hg _]. cbn [leaf_load leaf_dump] in *. rewrite Hs in *. unfold lbind in H.
    destruct (read_int n sg e s) as [s2 [z|ex|]] eqn:Hr; try discriminate. injection H as <- <-.
    destruct (read_int_canonical _ _ _ _ _ _ Hn Hb Hr) as (bs & H1 & H2 & H3 & H4 & H5).
    exists bs. split; [auto|]. split; [auto|]. split; [rewrite H5; auto|]. split; [exact I|]. subst. auto.
  - destruct (Hint _ Hs) as [Hg Hg0]. destruct (float_kind_inv _ _ _ Hf) as (Hi & -> & Hw & Hby & H8 & H0).
    cbn [leaf_load leaf_dump] in *. rewrite Hg0 in H. unfold lbind in H.
    destruct (read_exact_size c (Ok (i_bits i / 8)) s) as [s2 [data|ex|]] eqn:Hr; try discriminate.
    destruct (read_exact_canonical _ _ _ _ _ H0 Hb Hr) as (H1 & H2 & H3 & H4).
    destruct (zlen data =? ff_bytes (fmt_of i)) eqn:Hlen; [|discriminate]. injection H as <- <-.
    exists data. split; [auto|]. split; [auto|]. split; [|split; [exact I|right; rewrite Hg, H3; auto]].
    destruct (load_bits i e data H8 H4 H3) as [Hx Hback].
    assert (Hnn : ~ is_nan i (bits_of e data)).
    { intros Hbad. inversion Hnan as [x Hx0 | v Hv | | |]; [|contradiction].
      apply Hx0. unfold unpack_float. rewrite <- bits_of_order.
      destruct (convert (fmt_of i) binary64 (bits_of e data)) as [y|] eqn:Hc.
      - eapply convert_nan; eauto.
      - unfold convert in Hc. rewrite (proj1 (classify_nan i _ Hi) Hbad) in Hc. discriminate. }
    destruct (convert_widen i double (bits_of e data) Hi double_ok Hw Hx Hnn) as (y & C1 & C2 & C3 & C4 & _).
    rewrite fmt_double in *. unfold unpack_float. rewrite <- bits_of_order, C1. unfold pack_float.
    rewrite C4, Hby, Hback. reflexivity.
  - destruct (Hint _ Hs) as [Hg _]. cbn [leaf_load leaf_dump] in *. rewrite Hg in *. unfold lbind, llift in H.
    cbn [fst snd] in H. unfold lret in H.
    destruct (read_int n sg e s) as [s2 [z|ex|]] eqn:Hr; try discriminate.
    destruct (time_of_int ResS tz z) as [us|ex|] eqn:Ht; try discriminate. injection H as <- <-.
    destruct (read_int_canonical _ _ _ _ _ _ (proj1 Hn) Hb Hr) as (bs & H1 & H2 & H3 & H4 & H5).
    assert (Hz : Z.abs z < 2 ^ 900).
    { unfold write_int in H5. destruct (py_to_bytes z n e sg) as [bs'|ex|] eqn:Hpb; try discriminate.
      apply (int_value_bound sg n); auto. unfold py_to_bytes in Hpb. destruct (fits sg n z); auto. 
      destruct (n <? 0); discriminate. }
    destruct (seconds_canonical _ _ _ Hz Ht) as [-> Hrange].
    exists bs. split; [auto|]. split; [auto|]. split; [|split; [exact I|right; rewrite H3; auto]].
    rewrite to_int_seconds by auto. unfold dbind, dlift. rewrite H5. reflexivity.
  - destruct (Hnat Hn) as (n & Hg & Hp). cbn [leaf_load leaf_dump] in *. rewrite Hg in *. unfold lbind in H.
    destruct (read_exact_size c (Ok n) s) as [s2 [data|ex|]] eqn:Hr; try discriminate. injection H as <- <-.
    destruct (read_exact_canonical _ _ _ _ _ Hp Hb Hr) as (H1 & H2 & H3 & H4).
    exists data. split; [auto|]. split; [auto|]. split; [|split; [exact I|right; rewrite H3; auto]].
    cbn [py_len]. cbn. rewrite H3, Z.eqb_refl. reflexivity.
  - destruct (Hnat Hn) as (n & Hg & Hp). cbn [leaf_load leaf_dump] in *. rewrite Hg in *. unfold lbind, llift in H.
    destruct (read_exact_size c (Ok n) s) as [s2 [data|ex|]] eqn:Hr; try discriminate.
    destruct (decode cd data) as [t|ex|] eqn:Hd; try discriminate. injection H as <- <-.
    destruct (read_exact_canonical _ _ _ _ _ Hp Hb Hr) as (H1 & H2 & H3 & H4).
    exists data. split; [auto|]. split; [auto|]. split; [|split; [exact I|right; rewrite H3; auto]].
    unfold encode_and_resize. rewrite (decode_canonical cd data t Ho H4 Hd).
    cbn [bind app]. rewrite H3, Z.sub_diag. reflexivity.
  - cbn [leaf_load leaf_dump] in *.
    destruct (match g with Ok n => _ | Raise e => _ | OOF => _ end) as [mx|ex|]; try discriminate.
    destruct (stringz_canonical cd _ Ho _ _ _ [] [] _ _ _ (bom cd) Hb ltac:(constructor)
      ltac:(unfold encode; cbn; rewrite app_nil_r; reflexivity) H)
      as (bs & suf & t & H1 & -> & -> & H4).
    replace (bom cd) with (@nil Z) in H4 by (destruct cd; auto; contradiction).
    exists bs. rewrite (rest_advance_app _ _ _ H1), H4. repeat (split; auto).
  - destruct (Hint _ Hs) as [Hg _]. cbn [leaf_load leaf_dump] in *. rewrite Hs in H.
    destruct (read s 16) as [raw s2] eqn:Hr. destruct (zlen raw <? 16) eqn:Hl; [discriminate|].
    destruct (read_full s 16 raw s2 ltac:(lia) Hr Hl) as (Hz & suf & Hrest & ->).
    rewrite Hrest in Hb. apply bytes_ok_app in Hb. destruct Hb as [Hb _].
    destruct (match fmt with BINARY_VARIANT_1 | BINARY_VARIANT_2 => _ | _ => false end); [discriminate|].
    destruct (uuid_parse fmt raw) as [u|ex|] eqn:Hu; try discriminate. injection H as <- <-.
    exists raw. rewrite (rest_advance_app _ _ _ Hrest), (uuid_canonical _ _ _ Hf Hb Hz Hu). rewrite Hz.
    repeat (split; auto).
Qed.

Lemma canonical_leaf_is nats c k : canonical_leaf nats c k -> leaf_kind k = true.
Proof. intros []; auto. destruct H; auto. Qed.

(** Only StringZ has no size, and it does not use it. *)
Lemma leaf_dump_size nats c k g g' v : canonical_leaf nats c k -> (c_size c = SNone \/ g = g') ->
  leaf_dump c k g v = leaf_dump c k g' v.
Proof.
  intros Hk [Hs|<-]; auto.
  destruct Hk as [sg e n H|i k e Hf H|tz sg e n H|Hn|cd pad Ho Hn|cd pad Ho H|fmt Hf H]; try congruence; auto.
  - destruct Hn as [(n & H & _)|(nm & H & _)]; congruence.
  - destruct Hn as [(n & H & _)|(nm & H & _)]; congruence.
Qed.

Lemma leaf_load_strict c k g g0 s s1 v : strict_leaf k -> leaf_load c k g g0 s = (s1, Ok v) ->
  leaf_value v /\ match v with VFloat _ => False | _ => True end.
Proof.
  intros Hk H. destruct k as [sg e|fmt mx|fmt e|r tz sg e| |cd pad|cd pad|fmt|comp cnt halt|cid|choices ld dmp];
    try contradiction; cbn [leaf_load] in H; unfold lbind, llift, lret, lraise in H.
  - destruct (c_size c); try discriminate. destruct (read_int n sg e s) as [s2 [z|ex|]]; try discriminate.
    injection H as _ <-. split; exact I.
  - destruct (vli_decode fmt s) as [s2 [z|ex|]]; try discriminate. injection H as _ <-. split; exact I.
  - destruct g as [n|ex|]; try discriminate. destruct (read_int n sg e s) as [s2 [z|ex|]]; try discriminate.
    destruct (time_of_int r tz z); try discriminate. injection H as _ <-. split; exact I.
  - destruct (read_exact_size c g s) as [s2 [z|ex|]]; try discriminate. injection H as _ <-. split; exact I.
  - destruct (read_exact_size c g s) as [s2 [z|ex|]]; try discriminate.
    destruct (decode cd z); try discriminate. injection H as _ <-. split; exact I.
  - destruct (match g with Ok n => _ | Raise e => _ | OOF => _ end) as [mx|ex|]; try discriminate.
    assert (Hz : forall fuel cd nm nr buf acc s s1 v,
              stringz_loop fuel nm cd mx nr buf acc s = (s1, Ok v) -> exists t, v = VStr t).
    { clear. induction fuel as [|fuel IH]; intros cd nm nr buf acc s s1 v H; [discriminate|].
      cbn [stringz_loop] in H. destruct (iter_next mx nr s) as [[b s2]|]; [|destruct (forgiven cd buf); discriminate].
      destruct (dec_step cd (buf ++ [b])); try discriminate; eauto.
      destruct (cp =? 0); eauto. injection H as _ <-. eauto. }
    apply Hz in H. destruct H as [t ->]. split; exact I.
  - destruct (c_size c); try discriminate. destruct (read s n) as [raw s2].
    destruct (zlen raw <? n); try discriminate.
    destruct (match fmt with BINARY_VARIANT_1 | BINARY_VARIANT_2 => _ | _ => false end); try discriminate.
    destruct (uuid_parse fmt raw); try discriminate. injection H as _ <-. split; exact I.
Qed.

Lemma py_eq_strict E n v c : leaf_value v -> match v with VFloat _ => False | _ => True end ->
  plain_const c -> py_eq E n v c = Ok true -> v = c.
Proof.
  intros Hv Hf Hc H. destruct n; [discriminate|].
  destruct v; try contradiction; destruct c; try contradiction; cbn [py_eq] in H; try discriminate;
    injection H as H.
  - apply Z.eqb_eq in H. congruence.
  - apply bytes_eqb_iff in H. congruence.
  - apply bytes_eqb_iff in H. congruence.
  - apply Z.eqb_eq in H. congruence.
  - apply andb_true_iff in H. destruct H as [H1 H2]. apply Z.eqb_eq in H2. apply Bool.eqb_prop in H1. congruence.
Qed.
