(** Encodings with a byte order mark. *)
From Verif Require Export SpecBom.
From Verif Require Import Tac PyIntProofs StreamProofs VarintsMore CodecsProofs FieldProofs LeafProofs LeafMore LoadProofs
  LocalProofs.
Open Scope Z_scope.

Lemma unmarked_base cd : unmarked cd = base cd.
Proof. destruct cd; reflexivity. Qed.

Lemma marked_marks cd mark plain : marked_as cd mark plain -> marks cd mark plain.
Proof.
  intros [|e|e|e|e]; [apply marks_5|apply marks_1|apply marks_2|apply marks_3|apply marks_4].
Qed.

Lemma marked_strip cd mark plain bs : marked_as cd mark plain -> strip_bom cd (mark ++ bs) = (plain, bs).
Proof. intros [|e|e|e|e]; reflexivity. Qed.

Lemma marked_plain cd mark plain : marked_as cd mark plain -> base plain = plain /\ bom plain = [].
Proof. intros [|e|e|e|e]; split; reflexivity. Qed.

(** ** Writing *)
Lemma encode_marked cd mark plain : marked_as cd mark plain -> exists mark',
  marked_as cd mark' (unmarked cd)
  /\ forall t, encode cd t = do bs <- encode (unmarked cd) t; Ok (mark' ++ bs).
Proof.
  intros H. exists (bom cd). split.
  - destruct H as [|[]|[]|[]|[]]; constructor.
  - intros t. unfold encode.
    assert (E : encode_chars (unmarked cd) t = encode_chars cd t /\ bom (unmarked cd) = []).
    { split; [|destruct H as [|e|e|e|e]; reflexivity].
      induction t as [|cp t IH]; [reflexivity|]. cbn [encode_chars]. rewrite IH.
      destruct H as [|e|e|e|e]; reflexivity. }
    destruct E as [-> ->]. destruct (encode_chars cd t); reflexivity.
Qed.

Lemma marked_string_dump E n c cd mark plain pad t bs ctx d : marked_as cd mark plain ->
  plain = unmarked cd -> encode plain t = Ok bs ->
  declared_size c d (zlen mark + zlen bs) -> accepts c (VStr t) ->
  field_to_stream E n (Field c (KString cd pad)) (VStr t) ctx d = (mark ++ bs, Ok tt).
Proof.
  intros Hm -> He Hs Ha. destruct (encode_marked _ _ _ Hm) as (mark' & Hm' & Hx).
  assert (mark' = mark) as -> by (inversion Hm; subst; inversion Hm'; subst; auto; discriminate).
  rewrite (string_to_stream E n c cd pad _ t ctx d Hs Ha). unfold encode_and_resize.
  rewrite Hx, He. cbn [bind]. rewrite zlen_app, Z.sub_diag. reflexivity.
Qed.

Lemma marked_stringz_dump E n c cd mark plain pad t bs ctx d : marked_as cd mark plain ->
  plain = unmarked cd -> encode plain (t ++ [0]) = Ok bs -> c_size c = SNone -> accepts c (VStr t) ->
  field_to_stream E n (Field c (KStringZ cd pad)) (VStr t) ctx d = (mark ++ bs, Ok tt).
Proof.
  intros Hm -> He Hs Ha. destruct (encode_marked _ _ _ Hm) as (mark' & Hm' & Hx).
  assert (mark' = mark) as -> by (inversion Hm; subst; inversion Hm'; subst; auto; discriminate).
  rewrite stringz_to_stream by auto. rewrite Hx, He. reflexivity.
Qed.

(** ** Reading marked data *)
Lemma marked_string_load E n c cd mark plain pad t bs ctx d pre suf : marked_as cd mark plain ->
  encode plain t = Ok bs -> declared_size c d (zlen mark + zlen bs) -> takes c (VStr t) ->
  field_from_stream E n (Field c (KString cd pad)) ctx d (at_data pre (mark ++ bs) suf)
  = (after_data pre (mark ++ bs) suf, Ok (VStr t)).
Proof.
  intros Hm He Hs Ht. apply takes_load; auto. rewrite do_load_leaf by auto.
  rewrite (ges_declared _ _ _ _ _ Hs), <- advance_at, <- zlen_app.
  apply (string_load_eq c cd pad _ _ suf); [apply rest_at|].
  unfold decode. rewrite (marked_strip _ _ _ _ Hm). destruct (marked_plain _ _ _ Hm) as [Hb _].
  pose proof (decode_encode plain t bs He) as Hd. rewrite <- Hb, decode_base in Hd. rewrite Hb in Hd. auto.
Qed.

Lemma marked_stringz_text name cd mark plain t bs max s suf fuel : marked_as cd mark plain ->
  Forall (fun cp => cp <> 0) t -> encode plain (t ++ [0]) = Ok bs -> rest s = (mark ++ bs) ++ suf ->
  match max with Some m => zlen (mark ++ bs) <= m | None => True end ->
  (length (mark ++ bs) <= fuel)%nat ->
  stringz_loop fuel name cd max 0 [] [] s = (advance s (length (mark ++ bs)), Ok (VStr t)).
Proof.
  intros Hm Ht He Hr Hmax Hf. destruct (marked_plain _ _ _ Hm) as [Hb Hn].
  apply encode_inv in He. destruct He as (b & He & ->). rewrite Hn in *. cbn [app] in *.
  rewrite app_length in *. rewrite zlen_app in Hmax. rewrite <- app_assoc in Hr. pose proof (zlen_nonneg b).
  replace fuel with (length mark + (fuel - length mark))%nat by lia.
  rewrite (stringz_mark name cd _ _ (marked_marks _ _ _ Hm) mark [] max 0 [] s (b ++ suf));
    auto; [|destruct Hm; discriminate|destruct max; lia].
  rewrite <- Hb, (stringz_chars name plain t b max _ [] _ suf); auto.
  - rewrite advance_advance. reflexivity.
  - apply rest_advance_app. auto.
  - destruct max; lia.
Qed.

Lemma marked_stringz_load E n c cd mark plain pad t bs ctx d pre suf : marked_as cd mark plain ->
  Forall (fun cp => cp <> 0) t -> encode plain (t ++ [0]) = Ok bs ->
  unlimited c d \/ (exists m, declared_size c d m /\ zlen mark + zlen bs <= m) -> takes c (VStr t) ->
  field_from_stream E n (Field c (KStringZ cd pad)) ctx d (at_data pre (mark ++ bs) suf)
  = (after_data pre (mark ++ bs) suf, Ok (VStr t)).
Proof.
  intros Hm Hz He Hs Ht. apply takes_load; auto. rewrite do_load_leaf by auto. cbn [leaf_load].
  set (s := at_data pre (mark ++ bs) suf).
  assert (Hr : rest s = (mark ++ bs) ++ suf) by apply rest_at.
  assert (Hl : (length (mark ++ bs) <= S (length (rest s)))%nat) by (rewrite Hr, (app_length (mark ++ bs)); lia).
  rewrite <- advance_at. fold s.
  destruct Hs as [(Hs & Hf & Hd & Ho)|(m & Hs & Hle)].
  - rewrite ges_unsized by auto. cbn [is_UndefinedSizeError].
    apply (marked_stringz_text _ _ _ plain _ _ _ _ suf); auto.
  - rewrite (ges_declared _ _ _ _ _ Hs). rewrite <- zlen_app in Hle.
    apply (marked_stringz_text _ _ _ plain _ _ _ _ suf); auto.
Qed.

(** ** Data without a mark *)
Definition whole (cd : codec) (mark : list Z) : Prop :=
  dec_step cd mark <> DMore
  /\ forall p q, mark = p ++ q -> p <> [] -> q <> [] -> dec_step cd p = DMore.

Lemma same_start {A} (a : list A) : forall b x y, a ++ x = b ++ y ->
  a = b \/ (exists q, q <> [] /\ a = b ++ q) \/ (exists q, q <> [] /\ b = a ++ q).
Proof.
  induction a as [|h a IH]; intros [|k b] x y H; auto.
  - right; right. exists (k :: b). split; [discriminate|auto].
  - right; left. exists (h :: a). split; [discriminate|auto].
  - injection H as -> H. destruct (IH _ _ _ H) as [->|[(q & Hq & ->)|(q & Hq & ->)]]; eauto 6.
Qed.

Lemma whole_first cd mark b cp x y : whole cd mark -> mark <> [] -> decodes_to cd b cp ->
  mark ++ x = b ++ y -> b = mark.
Proof.
  intros [Hw Hp] Hne (Hb & Hd & Hpb) H. destruct (same_start _ _ _ _ H) as [->|[(q & Hq & ->)|(q & Hq & ->)]]; auto.
  - rewrite (Hp b q) in Hd by auto. discriminate.
  - destruct Hw. apply (Hpb _ q); auto.
Qed.

(** What a mark is when it is read as text. *)
Lemma mark_whole cd mark plain : marked_as cd mark plain ->
  whole (unmarked cd) mark
  /\ forall cp, dec_step (unmarked cd) mark = DChar cp -> cp = 65279 \/ cp = 65534.
Proof.
  intros H. split; [split|].
  - destruct H as [|[]|[]|[]|[]]; discriminate.
  - intros p q E Hp Hq. destruct H as [|e|e|e|e]; cbn [unmarked].
    + apply prefix3 in E; auto. destruct E as [-> | ->]; reflexivity.
    + apply prefix2 in E; auto. subst p. reflexivity.
    + apply prefix2 in E; auto. subst p. reflexivity.
    + apply prefix4 in E; auto. destruct E as [-> | [-> | ->]]; reflexivity.
    + apply prefix4 in E; auto. destruct E as [-> | [-> | ->]]; reflexivity.
  - intros cp Hd. destruct H as [|[]|[]|[]|[]]; cbn in Hd; try discriminate;
      injection Hd as <-; auto.
Qed.

Lemma no_mark cd mark plain t bs x : marked_as cd mark plain -> no_mark_first t ->
  encode_chars (unmarked cd) t = Ok bs -> t <> [] -> mark ++ x <> bs.
Proof.
  intros Hm [H1 H2] He Ht E. destruct t as [|cp t]; [congruence|].
  apply encode_cons in He. destruct He as (b & r & Hc & _ & ->).
  apply encode_char_decodes in Hc. destruct Hc as [_ Hc].
  replace (base (unmarked cd)) with (unmarked cd) in Hc by (destruct cd; reflexivity).
  destruct (mark_whole _ _ _ Hm) as [Hw Hcp].
  assert (b = mark) as -> by (eapply whole_first; eauto; destruct Hm; discriminate).
  destruct Hc as (_ & Hd & _). destruct (Hcp _ Hd) as [-> | ->]; cbn in *; congruence.
Qed.

Lemma starts_spec mark bs : Codecs.starts_with mark bs = true -> exists x, mark ++ x = bs.
Proof.
  unfold Codecs.starts_with. intros H. apply bytes_eqb_eq in H. exists (skipn (length mark) bs).
  rewrite <- H at 1. apply firstn_skipn.
Qed.

Lemma no_mark_strip cd mark plain t bs : marked_as cd mark plain -> no_mark_first t ->
  encode_chars (unmarked cd) t = Ok bs -> strip_bom cd bs = (unmarked cd, bs).
Proof.
  intros Hm Hf He.
  assert (Hno : forall mark plain, marked_as cd mark plain -> Codecs.starts_with mark bs = false).
  { intros mark' plain' Hm'. destruct (Codecs.starts_with mark' bs) eqn:Hs; auto. exfalso.
    destruct (starts_spec _ _ Hs) as [x Hx].
    destruct t as [|cp t]; [|eapply (no_mark cd mark' plain' (cp :: t) bs x); eauto; discriminate].
    injection He as <-. destruct Hm'; discriminate. }
  destruct Hm as [|e|e|e|e]; cbn [strip_bom unmarked].
  - rewrite (Hno _ _ marked_utf8). auto.
  - rewrite (Hno _ _ (marked_utf16_le e)), (Hno _ _ (marked_utf16_be e)). auto.
  - rewrite (Hno _ _ (marked_utf16_le e)), (Hno _ _ (marked_utf16_be e)). auto.
  - rewrite (Hno _ _ (marked_utf32_le e)), (Hno _ _ (marked_utf32_be e)). auto.
  - rewrite (Hno _ _ (marked_utf32_le e)), (Hno _ _ (marked_utf32_be e)). auto.
Qed.

Lemma unmarked_chars cd mark plain t bs : marked_as cd mark plain -> encode (unmarked cd) t = Ok bs ->
  encode_chars (unmarked cd) t = Ok bs.
Proof.
  intros Hm He. apply encode_inv in He. destruct He as (b & He & ->).
  destruct Hm; exact He.
Qed.

Lemma unmarked_string_load E n c cd mark plain pad t bs ctx d pre suf : marked_as cd mark plain ->
  no_mark_first t -> encode (unmarked cd) t = Ok bs -> declared_size c d (zlen bs) -> takes c (VStr t) ->
  field_from_stream E n (Field c (KString cd pad)) ctx d (at_data pre bs suf)
  = (after_data pre bs suf, Ok (VStr t))
  /\ forall n' ctx', field_to_stream E n' (Field c (KString cd pad)) (VStr t) ctx' d
       = ([], Raise (EValueSize (c_name c))).
Proof.
  intros Hm Hf He Hs Ht. split.
  - apply takes_load; auto. rewrite do_load_leaf by auto.
    rewrite (ges_declared _ _ _ _ _ Hs), <- advance_at.
    apply (string_load_eq c cd pad _ _ suf); [apply rest_at|].
    unfold decode. rewrite (no_mark_strip _ _ _ _ _ Hm Hf (unmarked_chars _ _ _ _ _ Hm He)).
    pose proof (decode_encode (unmarked cd) t bs He) as Hd. rewrite unmarked_base in *.
    rewrite decode_base in Hd. auto.
  - intros n' ctx'. destruct (encode_marked _ _ _ Hm) as (mark' & Hm' & Hx).
    rewrite (string_to_stream E n' c cd pad _ t ctx' d Hs (proj2 (proj2 (proj2 Ht)))).
    unfold encode_and_resize. rewrite Hx, He. cbn [bind]. rewrite zlen_app.
    replace (0 <? zlen mark' + zlen bs - zlen bs) with true; auto.
    symmetry. apply Z.ltb_lt. destruct Hm'; unfold zlen; cbn [length]; lia.
Qed.

(** A null-terminated utf-16 or utf-32 text is not loaded without a mark. *)
Lemma stringz_marked fuel : forall nm cd mx nr buf acc s s' v, two_orders cd ->
  stringz_loop fuel nm cd mx nr buf acc s = (s', Ok v) ->
  exists mark plain more, marked_as cd mark plain /\ buf ++ rest s = mark ++ more.
Proof.
  induction fuel as [|fuel IH]; intros nm cd mx nr buf acc s s' v Ho H; [discriminate|].
  cbn [stringz_loop] in H. destruct (iter_next mx nr s) as [[b s2]|] eqn:Hi; [|destruct (forgiven cd buf); discriminate].
  destruct (iter_next_ok _ _ _ _ _ Hi) as (suf & Hr & -> & _).
  destruct (dec_step cd (buf ++ [b])) as [cp| | |cd'|] eqn:Hd; try discriminate.
  - exfalso. destruct cd; try contradiction; cbn [dec_step] in Hd;
      repeat (destruct (bytes_eqb _ _); [discriminate|]).
    + destruct (dec_utf16 native (buf ++ [b])); discriminate.
    + destruct (dec_utf32 native (buf ++ [b])); discriminate.
  - destruct (IH _ _ _ _ _ _ _ _ _ Ho H) as (mark & plain & more & Hm & E).
    exists mark, plain, more. split; auto. rewrite <- E, Hr, (rest_one _ _ _ Hr), <- app_assoc. reflexivity.
  - assert (Hm : marked_as cd (buf ++ [b]) cd').
    { destruct cd; try contradiction; cbn [dec_step] in Hd.
      - destruct (bytes_eqb _ [255; 254]) eqn:H1.
        { apply bytes_eqb_eq in H1. rewrite H1. injection Hd as <-. constructor. }
        destruct (bytes_eqb _ [254; 255]) eqn:H2.
        { apply bytes_eqb_eq in H2. rewrite H2. injection Hd as <-. constructor. }
        pose proof (dec_utf16_marks native (buf ++ [b])).
        destruct (dec_utf16 native (buf ++ [b])); try discriminate. contradiction.
      - destruct (bytes_eqb _ [255; 254; 0; 0]) eqn:H1.
        { apply bytes_eqb_eq in H1. rewrite H1. injection Hd as <-. constructor. }
        destruct (bytes_eqb _ [0; 0; 254; 255]) eqn:H2.
        { apply bytes_eqb_eq in H2. rewrite H2. injection Hd as <-. constructor. }
        pose proof (dec_utf32_marks native (buf ++ [b])).
        destruct (dec_utf32 native (buf ++ [b])); try discriminate. contradiction. }
    exists (buf ++ [b]), cd', suf. split; auto. rewrite Hr, <- app_assoc. reflexivity.
Qed.

Lemma stringz_needs_mark E n c cd pad ctx d s s' v : two_orders cd -> always_present c ->
  c_null c = VUndefined ->
  field_from_stream E n (Field c (KStringZ cd pad)) ctx d s = (s', Ok v) ->
  exists mark plain more, marked_as cd mark plain /\ rest s = mark ++ more.
Proof.
  intros Ho Hp Hn H. unfold field_from_stream, field_from_stream_with in H.
  rewrite from_stream_present in H by (cbn; auto). unfold checked in H.
  destruct (do_load E n (Field c (KStringZ cd pad)) ctx d s) as [s1 [w|e|]] eqn:Hl; try discriminate.
  rewrite do_load_leaf in Hl by auto. cbn [leaf_load] in Hl.
  destruct (match get_expected_size_with _ _ _ _ with Ok n => _ | Raise e => _ | OOF => _ end) as [mx|e|];
    try discriminate.
  apply (stringz_marked _ _ _ _ _ _ _ _ _ _ Ho) in Hl. exact Hl.
Qed.

(** In the machine's own byte order it is a UnicodeError. *)
Lemma two_orders_step cd buf : two_orders cd ->
  (forall mark plain, marked_as cd mark plain -> buf <> mark) ->
  dec_step cd buf = need_bom (dec_step (unmarked cd) buf).
Proof.
  intros Ho Hno. destruct cd as [| | |e|e|t| |e|e]; try contradiction; cbn [dec_step unmarked].
  - pose proof (Hno _ _ (marked_utf16_le e)) as H1. pose proof (Hno _ _ (marked_utf16_be e)) as H2.
    rewrite <- bytes_eqb_eq in H1, H2. destruct (bytes_eqb _ _); [congruence|].
    destruct (bytes_eqb _ _); [congruence|]. auto.
  - pose proof (Hno _ _ (marked_utf32_le e)) as H1. pose proof (Hno _ _ (marked_utf32_be e)) as H2.
    rewrite <- bytes_eqb_eq in H1, H2. destruct (bytes_eqb _ _); [congruence|].
    destruct (bytes_eqb _ _); [congruence|]. auto.
Qed.

Lemma stringz_unmarked name cd b cp : two_orders cd -> decodes_to (unmarked cd) b cp ->
  (forall mark plain x y, marked_as cd mark plain -> mark ++ x <> b ++ y) ->
  forall q p max n acc s suf fuel, b = p ++ q -> q <> [] -> rest s = q ++ suf ->
  match max with Some m => n + zlen q <= m | None => True end ->
  stringz_loop (length q + fuel) name cd max n p acc s = (advance s (length q), Raise EUnicodeErr).
Proof.
  intros Ho (Hne & Hfull & Hpre) Hno q. induction q as [|h q IH]; intros p max n acc s suf fuel E Hq Hr Hm; [congruence|].
  assert (Hzl : zlen (h :: q) = 1 + zlen q) by (unfold zlen; cbn [length]; lia).
  pose proof (zlen_nonneg q) as Hnn.
  cbn [length Nat.add stringz_loop].
  rewrite (iter_next_some max n s h (q ++ suf)) by (auto; destruct max; lia).
  rewrite two_orders_step; auto.
  2:{ intros mark plain Hk Heq. apply (Hno mark plain q [] Hk). rewrite E, app_nil_r, <- Heq, <- app_assoc. auto. }
  destruct q as [|b' q].
  - rewrite <- E, Hfull. reflexivity.
  - rewrite (Hpre (p ++ [h]) (b' :: q)).
    + cbn [need_bom]. rewrite (IH (p ++ [h]) max (n + 1) acc (advance s 1) suf fuel).
      * rewrite advance_advance. reflexivity.
      * rewrite <- app_assoc. exact E.
      * discriminate.
      * rewrite rest_advance, Hr. reflexivity.
      * destruct max; lia.
    + rewrite <- app_assoc. exact E.
    + intros H. apply app_eq_nil in H. destruct H; discriminate.
    + discriminate.
Qed.

Lemma two_orders_marked cd : two_orders cd -> exists mark plain, marked_as cd mark plain.
Proof. destruct cd; try contradiction; intros _; repeat eexists; constructor. Qed.

Lemma unmarked_stringz_raises E n c cd pad t bs ctx d pre suf : two_orders cd ->
  no_mark_first t -> encode (unmarked cd) (t ++ [0]) = Ok bs ->
  unlimited c d \/ (exists m, declared_size c d m /\ zlen bs <= m) -> always_present c -> c_null c = VUndefined ->
  exists s', field_from_stream E n (Field c (KStringZ cd pad)) ctx d (at_data pre bs suf) = (s', Raise EUnicodeErr).
Proof.
  intros Ho Hf He Hs Hp Hn. unfold field_from_stream, field_from_stream_with.
  rewrite from_stream_present by (cbn; auto). unfold checked.
  rewrite do_load_leaf by auto. cbn [leaf_load].
  set (s := at_data pre bs suf). assert (Hr : rest s = bs ++ suf) by apply rest_at.
  destruct (two_orders_marked _ Ho) as (mark & plain & Hm).
  apply (unmarked_chars _ _ _ _ _ Hm) in He.
  assert (Hf' : no_mark_first (t ++ [0])).
  { destruct t; [split; discriminate|exact Hf]. }
  destruct (t ++ [0]) as [|cp u] eqn:Hu; [destruct t; discriminate|].
  pose proof He as He0. apply encode_cons in He. destruct He as (b & r & Hc & Hr' & ->).
  apply encode_char_decodes in Hc. destruct Hc as [_ Hc].
  replace (base (unmarked cd)) with (unmarked cd) in Hc by (destruct cd; reflexivity).
  assert (Hno : forall mark plain x y, marked_as cd mark plain -> mark ++ x <> b ++ y).
  { intros mk pl x y Hk Heq. destruct (mark_whole _ _ _ Hk) as [Hw Hcp].
    assert (b = mk) as -> by (eapply whole_first; eauto; destruct Hk; discriminate).
    destruct Hc as (_ & Hd & _). destruct Hf' as [F1 F2]. destruct (Hcp _ Hd) as [-> | ->]; cbn in *; congruence. }
  assert (Hrun : forall mx, match mx with Some m => zlen (b ++ r) <= m | None => True end ->
    stringz_loop (S (length (rest s))) (c_name c) cd mx 0 [] [] s = (advance s (length b), Raise EUnicodeErr)).
  { intros mx Hmx. rewrite <- app_assoc in Hr. pose proof (zlen_nonneg r). rewrite zlen_app in Hmx.
    replace (S (length (rest s))) with (length b + (S (length (rest s)) - length b))%nat
      by (rewrite Hr, !app_length; lia).
    apply (stringz_unmarked (c_name c) cd b cp Ho Hc Hno b [] mx 0 [] s (r ++ suf)); auto.
    - apply Hc.
    - destruct mx; lia. }
  exists (advance s (length b)). cbn [conf].
  destruct Hs as [(Hs & Hfa & Hd & Hg)|(m & Hs & Hle)].
  - rewrite ges_unsized by auto. cbn [is_UndefinedSizeError]. rewrite Hrun by auto. reflexivity.
  - rewrite (ges_declared _ _ _ _ _ Hs). rewrite Hrun by auto. reflexivity.
Qed.

(** "utf-8-sig" reads null-terminated text with and without its mark. *)
Lemma stringz_sig name b cp : decodes_to Utf8 b cp -> cp <> 65279 ->
  forall q p max n acc s suf fuel, b = p ++ q -> q <> [] -> rest s = q ++ suf ->
  match max with Some m => n + zlen q <= m | None => True end ->
  stringz_loop (length q + fuel) name Utf8Sig max n p acc s
  = if cp =? 0 then (advance s (length q), Ok (VStr (rev acc)))
    else stringz_loop fuel name Utf8 max (n + zlen q) [] (cp :: acc) (advance s (length q)).
Proof.
  intros Hc Hcp. assert (Hstep : forall p q, b = p ++ q -> dec_step Utf8Sig p = dec_step Utf8 p).
  { intros p q ->. cbn [dec_step]. destruct (bytes_eqb p [239; 187; 191]) eqn:Hb; auto. exfalso.
    apply bytes_eqb_eq in Hb. subst p.
    destruct (mark_whole _ _ _ marked_utf8) as [Hw _].
    pose proof (whole_first Utf8 _ _ _ q [] Hw ltac:(discriminate) Hc ltac:(rewrite app_nil_r; auto)) as Hb.
    rewrite Hb in Hc. destruct Hc as (_ & Hd & _). cbn in Hd. injection Hd as Hd. congruence. }
  destruct Hc as (Hne & Hfull & Hpre). intros q.
  induction q as [|h q IH]; intros p max n acc s suf fuel E Hq Hr Hm; [congruence|].
  assert (Hzl : zlen (h :: q) = 1 + zlen q) by (unfold zlen; cbn [length]; lia).
  pose proof (zlen_nonneg q) as Hnn.
  cbn [length Nat.add stringz_loop].
  rewrite (iter_next_some max n s h (q ++ suf)) by (auto; destruct max; lia).
  rewrite (Hstep (p ++ [h]) q) by (rewrite <- app_assoc; exact E).
  destruct q as [|b' q].
  - rewrite <- E, Hfull. cbn [length Nat.add started]. reflexivity.
  - rewrite (Hpre (p ++ [h]) (b' :: q)).
    + rewrite (IH (p ++ [h]) max (n + 1) acc (advance s 1) suf fuel).
      * rewrite advance_advance. cbn [length Nat.add].
        replace (n + 1 + zlen (b' :: q)) with (n + zlen (h :: b' :: q)) by lia. reflexivity.
      * rewrite <- app_assoc. exact E.
      * discriminate.
      * rewrite rest_advance, Hr. reflexivity.
      * destruct max; lia.
    + rewrite <- app_assoc. exact E.
    + intros H. apply app_eq_nil in H. destruct H; discriminate.
    + discriminate.
Qed.

Lemma sig_stringz_text name t bs max s suf fuel : hd_error t <> Some 65279 ->
  Forall (fun cp => cp <> 0) t -> encode Utf8 (t ++ [0]) = Ok bs -> rest s = bs ++ suf ->
  match max with Some m => zlen bs <= m | None => True end ->
  (length bs <= fuel)%nat ->
  stringz_loop fuel name Utf8Sig max 0 [] [] s = (advance s (length bs), Ok (VStr t)).
Proof.
  intros Hh Ht He Hr Hmax Hf. apply encode_inv in He. destruct He as (bb & He & ->). cbn [bom app] in *.
  destruct t as [|cp t]; cbn [app] in He; apply encode_cons in He; destruct He as (b & r & Hc & Hr' & ->);
    apply encode_char_decodes in Hc; destruct Hc as [_ Hc]; cbn [base] in Hc.
  - injection Hr' as <-. rewrite app_nil_r in *.
    replace fuel with (length b + (fuel - length b))%nat by lia.
    rewrite (stringz_sig name b 0 Hc ltac:(discriminate) b [] max 0 [] s suf) by (auto; apply Hc). reflexivity.
  - inversion Ht as [|? ? H0 Ht']; subst. rewrite app_length in *. rewrite zlen_app in Hmax.
    rewrite <- app_assoc in Hr. pose proof (zlen_nonneg r).
    replace fuel with (length b + (fuel - length b))%nat by lia.
    rewrite (stringz_sig name b cp Hc ltac:(cbn in Hh; congruence) b [] max 0 [] s (r ++ suf));
      auto; [|apply Hc|destruct max; lia].
    replace (cp =? 0) with false by lia.
    change Utf8 with (base Utf8). rewrite (stringz_chars name Utf8 t r max _ [cp] _ suf); auto.
    + rewrite advance_advance. reflexivity.
    + apply rest_advance_app. auto.
    + destruct max; lia.
Qed.

Lemma sig_stringz_load E n c pad t bs ctx d pre suf : hd_error t <> Some 65279 ->
  Forall (fun cp => cp <> 0) t -> encode Utf8 (t ++ [0]) = Ok bs ->
  unlimited c d \/ (exists m, declared_size c d m /\ zlen bs <= m) -> takes c (VStr t) ->
  field_from_stream E n (Field c (KStringZ Utf8Sig pad)) ctx d (at_data pre bs suf)
  = (after_data pre bs suf, Ok (VStr t)).
Proof.
  intros Hh Hz He Hs Ht. apply takes_load; auto. rewrite do_load_leaf by auto. cbn [leaf_load].
  set (s := at_data pre bs suf). assert (Hr : rest s = bs ++ suf) by apply rest_at.
  assert (Hl : (length bs <= S (length (rest s)))%nat) by (rewrite Hr, app_length; lia).
  rewrite <- advance_at. fold s.
  destruct Hs as [(Hs & Hf & Hd & Ho)|(m & Hs & Hle)].
  - rewrite ges_unsized by auto. cbn [is_UndefinedSizeError]. apply (sig_stringz_text _ _ _ _ _ suf); auto.
  - rewrite (ges_declared _ _ _ _ _ Hs). apply (sig_stringz_text _ _ _ _ _ suf); auto.
Qed.

(** ** Data of the other byte order is rewritten *)
Lemma utf16_orders e e' cp b : utf16_char e cp = Some b -> exists b', utf16_char e' cp = Some b' /\ length b' = length b.
Proof.
  unfold utf16_char. destruct (negb (is_scalar cp)); [discriminate|].
  destruct (cp <? 65536); cbv zeta; intros H; apply Some_inj in H; subst b; eexists;
    (split; [reflexivity|]); rewrite ?app_length, !order_length; auto.
Qed.

Lemma utf32_orders e e' cp b : utf32_char e cp = Some b -> exists b', utf32_char e' cp = Some b' /\ length b' = length b.
Proof.
  unfold utf32_char. destruct (negb (is_scalar cp)); [discriminate|]. intros H. apply Some_inj in H. subst b.
  eexists. split; [reflexivity|]. rewrite !order_length. auto.
Qed.

Lemma char_orders cd mark plain cp b : marked_as cd mark plain -> encode_char plain cp = Some b ->
  exists b', encode_char (unmarked cd) cp = Some b' /\ length b' = length b.
Proof.
  intros [|e|e|e|e]; cbn [encode_char unmarked]; eauto using utf16_orders, utf32_orders.
Qed.

Lemma text_orders cd mark plain t : marked_as cd mark plain -> forall bs, encode_chars plain t = Ok bs ->
  exists bs', encode_chars (unmarked cd) t = Ok bs' /\ length bs' = length bs.
Proof.
  intros Hm. induction t as [|cp t IH]; intros bs He; [injection He as <-; exists []; auto|].
  apply encode_cons in He. destruct He as (b & r & Hc & Hr & ->).
  destruct (char_orders _ _ _ _ _ Hm Hc) as (b' & Hb' & Hl). destruct (IH _ Hr) as (r' & Hr' & Hl').
  exists (b' ++ r'). cbn [encode_chars]. rewrite Hb', Hr'. split; auto. rewrite !app_length. congruence.
Qed.

Lemma marks_differ cd mark plain mark' plain' x y : marked_as cd mark plain -> marked_as cd mark' plain' ->
  mark ++ x = mark' ++ y -> plain = plain'.
Proof. intros [|e|e|e|e] H; inversion H; subst; auto; discriminate. Qed.

Lemma marked_redump cd mark plain t bs : marked_as cd mark plain -> encode plain t = Ok bs ->
  exists out, encode cd t = Ok out /\ length out = length (mark ++ bs)
    /\ (out = mark ++ bs <-> plain = unmarked cd).
Proof.
  intros Hm He. destruct (marked_plain _ _ _ Hm) as [_ Hn].
  apply encode_inv in He. destruct He as (b & He & ->). rewrite Hn. cbn [app].
  destruct (text_orders _ _ _ _ Hm _ He) as (b' & Hb' & Hl).
  destruct (encode_marked _ _ _ Hm) as (mark' & Hm' & Hx).
  assert (Hu : encode (unmarked cd) t = Ok b').
  { unfold encode. rewrite Hb'. destruct Hm; reflexivity. }
  exists (mark' ++ b'). rewrite Hx, Hu. split; [auto|]. split.
  - rewrite !app_length, Hl. f_equal. destruct Hm; inversion Hm'; reflexivity.
  - split; [intros E; symmetry; eapply marks_differ; eauto|].
    intros ->. assert (mark' = mark) as -> by (inversion Hm; subst; inversion Hm'; subst; auto; discriminate).
    congruence.
Qed.

Lemma string_rewritten E n n' c cd mark plain pad t bs ctx ctx' d pre suf : marked_as cd mark plain ->
  encode plain t = Ok bs -> declared_size c d (zlen mark + zlen bs) -> takes c (VStr t) ->
  exists out, field_from_stream E n (Field c (KString cd pad)) ctx d (at_data pre (mark ++ bs) suf)
      = (after_data pre (mark ++ bs) suf, Ok (VStr t))
    /\ field_to_stream E n' (Field c (KString cd pad)) (VStr t) ctx' d = (out, Ok tt)
    /\ length out = length (mark ++ bs) /\ (out = mark ++ bs <-> plain = unmarked cd).
Proof.
  intros Hm He Hs Ht. destruct (marked_redump _ _ _ _ _ Hm He) as (out & Ho & Hl & Hi).
  exists out. split; [apply (marked_string_load E n c cd mark plain); auto|]. split; [|auto].
  rewrite (string_to_stream E n' c cd pad _ t ctx' d Hs (proj2 (proj2 (proj2 Ht)))).
  unfold encode_and_resize. rewrite Ho. cbn [bind].
  replace (zlen out - (zlen mark + zlen bs)) with 0 by (rewrite <- zlen_app; unfold zlen; rewrite Hl; lia).
  reflexivity.
Qed.

(** ** Code pages *)
Lemma assigned_char t b cp : assigned t b cp <-> page_char t b = Some cp.
Proof.
  unfold assigned, page_char. destruct (Z.eqb_spec b 0) as [->|Hb]; cbn [Z.to_nat nth_error].
  { split; [intros [[= <-] _]; auto|intros [= <-]; split; [auto|lia]]. }
  destruct ((1 <=? b) && (b <=? 255)) eqn:Hr.
  - replace (Z.to_nat b) with (S (Z.to_nat (b - 1))) by lia. cbn [nth_error].
    assert (Hn : nth_error (firstn 255 t) (Z.to_nat (b - 1)) = nth_error t (Z.to_nat (b - 1))).
    { assert (Hlt : (Z.to_nat (b - 1) < 255)%nat) by lia. revert Hlt. generalize (Z.to_nat (b - 1)), 255%nat, t.
      clear. intros i n. revert i. induction n as [|n IH]; intros [|i] [|x t] H; auto; try lia; cbn; auto.
      apply IH. lia. }
    rewrite Hn. split.
    + intros [H _]. apply nth_error_nth with (d := None) in H. auto.
    + intros H. split; [|lia]. destruct (nth_error t (Z.to_nat (b - 1))) as [x|] eqn:Hx.
      * apply nth_error_nth with (d := None) in Hx. congruence.
      * apply nth_error_None in Hx. rewrite nth_overflow in H by auto. discriminate.
  - split; [|discriminate]. intros [H Hb0]. exfalso. assert (255 < b) by lia.
    assert (Hn : nth_error (Some 0 :: firstn 255 t) (Z.to_nat b) <> None) by congruence.
    apply nth_error_Some in Hn. cbn [length] in Hn. pose proof (firstn_le_length 255 t). lia.
Qed.

Lemma page_decode t bs cps : decode (Charmap t) bs = Ok cps <-> Forall2 (assigned t) bs cps.
Proof.
  unfold decode. cbn [strip_bom]. revert cps. induction bs as [|b bs IH]; intros cps; cbn [decode_from].
  - split; [intros [= <-]; constructor|intros H; inversion H; auto].
  - cbn [app dec_step]. split.
    + destruct (page_char t b) as [cp|] eqn:Hp; [|discriminate].
      destruct (decode_from (Charmap t) [] bs) as [r| |]; cbn [bind]; try discriminate.
      intros [= <-]. constructor; [apply assigned_char; auto|apply IH; auto].
    + intros H. inversion H as [|? cp ? r Hb Hr]; subst. apply assigned_char in Hb. rewrite Hb.
      apply IH in Hr. rewrite Hr. reflexivity.
Qed.

Lemma page_byte_assigned t cp b : page_byte t cp = Some b -> assigned t b cp.
Proof.
  rewrite assigned_char. unfold page_byte. destruct (Z.eqb_spec cp 0) as [->|Hc]; [intros [= <-]; reflexivity|].
  intros H. apply find_some in H. destruct H as [_ H]. destruct (page_char t b); [|discriminate].
  apply Z.eqb_eq in H. congruence.
Qed.

Lemma page_byte_some t cp b : assigned t b cp -> exists b', page_byte t cp = Some b'.
Proof.
  rewrite assigned_char. intros H. unfold page_byte. destruct (cp =? 0); [eauto|].
  destruct (find _ _) as [b'|] eqn:Hf; [eauto|]. exfalso.
  assert (Hin : In b (map Z.of_nat (rev (seq 0 256)))).
  { assert (0 <= b < 256).
    { clear Hf. unfold page_char in H. destruct (b =? 0) eqn:Hb; [lia|].
      destruct ((1 <=? b) && (b <=? 255)) eqn:Hr; [lia|discriminate]. }
    apply in_map_iff. exists (Z.to_nat b). split; [lia|]. apply -> in_rev. apply in_seq. lia. }
  pose proof (find_none _ _ Hf b Hin) as Hn. cbn beta in Hn. rewrite H, Z.eqb_refl in Hn. discriminate.
Qed.

Lemma page_encode t cps : (exists bs, encode (Charmap t) cps = Ok bs) <-> Forall (fun cp => exists b, assigned t b cp) cps.
Proof.
  unfold encode. induction cps as [|cp cps IH]; cbn [encode_chars].
  - split; [constructor|intros _; eexists; reflexivity].
  - cbn [encode_char]. split.
    + intros [bs H]. destruct (page_byte t cp) as [b|] eqn:Hp; [|discriminate].
      destruct (encode_chars (Charmap t) cps) as [r| |] eqn:Hr; try discriminate.
      constructor; [exists b; apply page_byte_assigned; auto|]. apply IH. eexists. reflexivity.
    + intros H. inversion H as [|? ? [b Hb] Hr]; subst. destruct (page_byte_some _ _ _ Hb) as [b' ->].
      apply IH in Hr. destruct Hr as [bs Hr].
      destruct (encode_chars (Charmap t) cps) as [r| |]; try discriminate. eexists. reflexivity.
Qed.

Lemma page_encode_bytes t cps bs : encode (Charmap t) cps = Ok bs -> Forall2 (assigned t) bs cps.
Proof.
  unfold encode. revert bs. induction cps as [|cp cps IH]; cbn [encode_chars]; intros bs H.
  - injection H as <-. constructor.
  - cbn [encode_char] in H. destruct (page_byte t cp) as [b|] eqn:Hp; [|discriminate].
    destruct (encode_chars (Charmap t) cps) as [r| |] eqn:Hr; try discriminate.
    injection H as <-. cbn [bom app]. constructor; [apply page_byte_assigned; auto|apply IH; reflexivity].
Qed.

Lemma page_string_load E n c t pad bs ctx d pre suf :
  declared_size c d (zlen bs) -> always_present c -> c_null c = VUndefined -> c_const c = VUndefined ->
  (forall cps, Forall2 (assigned t) bs cps -> accepts c (VStr cps) ->
     field_from_stream E n (Field c (KString (Charmap t) pad)) ctx d (at_data pre bs suf)
     = (after_data pre bs suf, Ok (VStr cps)))
  /\ ((~ exists cps, Forall2 (assigned t) bs cps) ->
     field_from_stream E n (Field c (KString (Charmap t) pad)) ctx d (at_data pre bs suf)
     = (after_data pre bs suf, Raise EUnicodeDecode)).
Proof.
  intros Hs Hp Hn Hc. split.
  - intros cps Hd Ha. apply takes_load; [repeat split; auto|]. rewrite do_load_leaf by auto.
    rewrite (ges_declared _ _ _ _ _ Hs), <- advance_at.
    apply (string_load_eq c (Charmap t) pad _ _ suf); [apply rest_at|]. apply page_decode. auto.
  - intros Hno. unfold field_from_stream, field_from_stream_with.
    rewrite from_stream_present by (cbn; auto). unfold checked. rewrite do_load_leaf by auto.
    rewrite (ges_declared _ _ _ _ _ Hs). cbn [leaf_load]. unfold lbind.
    rewrite (read_exact_ok c bs suf _ (rest_at pre bs suf)). unfold llift.
    destruct (decode (Charmap t) bs) as [cps|e|] eqn:Hd.
    + destruct Hno. exists cps. apply page_decode. auto.
    + rewrite (decode_raise _ _ _ Hd), advance_at. reflexivity.
    + destruct (decode_finishes _ _ Hd).
Qed.

Lemma two_lengths {A B} (R : A -> B -> Prop) l m : Forall2 R l m -> length l = length m.
Proof. induction 1; cbn; congruence. Qed.

Lemma page_string_dump E n c t pad cps ctx d :
  declared_size c d (zlen cps) -> accepts c (VStr cps) ->
  (Forall (fun cp => exists b, assigned t b cp) cps -> exists bs,
     field_to_stream E n (Field c (KString (Charmap t) pad)) (VStr cps) ctx d = (bs, Ok tt)
     /\ Forall2 (assigned t) bs cps)
  /\ (~ Forall (fun cp => exists b, assigned t b cp) cps ->
     field_to_stream E n (Field c (KString (Charmap t) pad)) (VStr cps) ctx d = ([], Raise EUnicodeEncode)).
Proof.
  intros Hs Ha. rewrite (string_to_stream E n c _ pad _ cps ctx d Hs Ha). unfold encode_and_resize. split.
  - intros H. apply page_encode in H. destruct H as [bs He]. pose proof (page_encode_bytes _ _ _ He) as H2.
    exists bs. split; auto. rewrite He. cbn [bind]. unfold zlen. rewrite (two_lengths _ _ _ H2), Z.sub_diag. reflexivity.
  - intros Hno. destruct (encode (Charmap t) cps) as [bs|e|] eqn:He.
    + destruct Hno. apply page_encode. eauto.
    + rewrite (encode_raise _ _ _ He). reflexivity.
    + destruct (encode_no_oof _ _ He).
Qed.

Lemma stringz_halts E n c cd pad ctx d s p r : set_field (c_name c) r = r -> cut_after c d s p -> always_present c -> c_null c = VUndefined ->
  (forall mx fuel, (length p < fuel)%nat ->
     (match mx with Some m => zlen p <= m /\ (rest s = p \/ m = zlen p /\ exists more, rest s = p ++ more) | None => rest s = p end) ->
     stringz_loop fuel (c_name c) cd mx 0 [] [] s = (advance s (length p), Raise r)) ->
  exists s', field_from_stream E n (Field c (KStringZ cd pad)) ctx d s = (s', Raise r).
Proof.
  intros Hsf He Hp Hn H. unfold field_from_stream, field_from_stream_with.
  rewrite from_stream_present by (cbn; auto). unfold checked.
  rewrite do_load_leaf by auto. cbn [leaf_load conf]. exists (advance s (length p)).
  destruct He as [(Hr & Hs & Hfa & Hd & Hg)|[(m & Hs & Hle & Hr)|(Hs & more & Hr)]].
  - rewrite ges_unsized by auto. cbn [is_UndefinedSizeError]. rewrite H; [rewrite Hsf; reflexivity|rewrite Hr; lia|exact Hr].
  - rewrite (ges_declared _ _ _ _ _ Hs). rewrite H; [rewrite Hsf; reflexivity|rewrite Hr; lia|auto].
  - rewrite (ges_declared _ _ _ _ _ Hs). rewrite H; [rewrite Hsf; reflexivity|rewrite Hr, app_length; lia|]. split; [lia|eauto].
Qed.

(** Bytes that are not yet a character, and then the end. *)
Lemma stringz_pending name cd b : (forall p q, b = p ++ q -> p <> [] -> q <> [] -> dec_step cd p = DMore) ->
  forall p2 p1 q mx n acc s fuel, b = p1 ++ p2 ++ q -> q <> [] -> (length p2 < fuel)%nat ->
  match mx with
  | Some m => n + zlen p2 <= m /\ (rest s = p2 \/ m = n + zlen p2 /\ exists more, rest s = p2 ++ more)
  | None => rest s = p2
  end ->
  stringz_loop fuel name cd mx n p1 acc s
  = (advance s (length p2), if forgiven cd (p1 ++ p2) then Raise (EDeserialization name) else Raise EUnicodeDecode).
Proof.
  intros Hpre. induction p2 as [|h p2 IH]; intros p1 q mx n acc s fuel E Hq Hf Hm.
  - destruct fuel as [|fuel]; [cbn in Hf; lia|]. cbn [stringz_loop]. rewrite app_nil_r.
    replace (iter_next mx n s) with (@None (Z * stream)).
    + unfold advance. cbn [length]. rewrite Nat.add_0_r. destruct s; auto.
    + symmetry. destruct mx as [m|].
      * destruct Hm as [_ [Hr|[-> _]]]; [|apply iter_next_limit; unfold zlen; cbn; lia].
        unfold iter_next. destruct (n <? m); auto. unfold read. rewrite Hr. auto.
      * unfold iter_next, read. rewrite Hm. auto.
  - destruct fuel as [|fuel]; [cbn in Hf; lia|]. cbn [stringz_loop].
    assert (Hzl : zlen (h :: p2) = 1 + zlen p2) by (unfold zlen; cbn [length]; lia).
    pose proof (zlen_nonneg p2) as Hnn.
    assert (Hr : exists r, rest s = h :: r /\ (r = p2 \/ (exists m, mx = Some m /\ m = n + zlen (h :: p2)) /\ exists more, r = p2 ++ more)).
    { destruct mx as [m|]; [destruct Hm as [_ [Hr|[Hm [more Hr]]]]|].
      - exists p2; auto.
      - exists (p2 ++ more). split; [exact Hr|]. right. split; [eauto|eauto].
      - exists p2; auto. }
    destruct Hr as (r & Hr & Hrr).
    rewrite (iter_next_some mx n s h r) by (auto; destruct mx; lia).
    rewrite (Hpre (p1 ++ [h]) (p2 ++ q)).
    + rewrite (IH (p1 ++ [h]) q mx (n + 1) acc (advance s 1) fuel).
      * rewrite advance_advance, <- app_assoc. reflexivity.
      * rewrite E, <- app_assoc. reflexivity.
      * exact Hq.
      * cbn [length] in Hf. lia.
      * assert (Hr1 : rest (advance s 1) = r) by (rewrite rest_advance, Hr; reflexivity).
        rewrite Hr1. destruct mx as [m|].
        -- split; [lia|]. destruct Hrr as [->|[(m' & [= <-] & ->) Hmore]]; [auto|]. right. split; [lia|auto].
        -- destruct Hrr as [->|[(m' & ? & _) _]]; [auto|discriminate].
    + rewrite E, <- app_assoc. reflexivity.
    + intros H. apply app_eq_nil in H. destruct H; discriminate.
    + intros H. apply app_eq_nil in H. destruct H; contradiction.
Qed.

Lemma cut_mark E n c cd mark plain pad ctx d s p q : marked_as cd mark plain -> mark = p ++ q -> q <> [] ->
  cut_after c d s p -> always_present c -> c_null c = VUndefined ->
  exists s', field_from_stream E n (Field c (KStringZ cd pad)) ctx d s
    = (s', if forgiven cd p then Raise (EDeserialization (c_name c)) else Raise EUnicodeDecode).
Proof.
  intros Hm E' Hq He Hp Hn. apply marked_marks in Hm. destruct Hm as [_ Hpre].
  assert (Hrun : forall mx fuel, (length p < fuel)%nat ->
     (match mx with Some m => zlen p <= m /\ (rest s = p \/ m = zlen p /\ exists more, rest s = p ++ more) | None => rest s = p end) ->
     stringz_loop fuel (c_name c) cd mx 0 [] [] s
     = (advance s (length p), if forgiven cd p then Raise (EDeserialization (c_name c)) else Raise EUnicodeDecode)).
  { intros mx fuel Hf Hx. apply (stringz_pending (c_name c) cd mark Hpre p [] q); auto. }
  destruct (forgiven cd p); eapply stringz_halts; eauto; reflexivity.
Qed.

Lemma cut_mark_forgiven E n c cd mark plain pad ctx d s p q : marked_as cd mark plain -> mark = p ++ q -> q <> [] ->
  p = [] \/ cd = Utf8Sig -> cut_after c d s p -> always_present c -> c_null c = VUndefined ->
  exists s', field_from_stream E n (Field c (KStringZ cd pad)) ctx d s = (s', Raise (EDeserialization (c_name c))).
Proof.
  intros Hm E' Hq Hw He Hp Hn. destruct (cut_mark E n c cd mark plain pad ctx d s p q) as [s' H]; auto.
  exists s'. rewrite H. replace (forgiven cd p) with true; auto. symmetry.
  destruct Hw as [-> | ->]; [reflexivity|]. assert (Hmk : mark = [239; 187; 191]) by (inversion Hm; auto). rewrite Hmk in E'.
  destruct p as [|x [|y [|z p]]]; try reflexivity.
  - injection E' as <- _. reflexivity.
  - injection E' as <- <- _. reflexivity.
  - injection E' as _ _ _ E'. destruct p; [cbn in E'; congruence|discriminate].
Qed.

Lemma cut_mark_bad E n c cd mark plain pad ctx d s p q : marked_as cd mark plain -> mark = p ++ q -> q <> [] ->
  p <> [] -> two_orders cd -> cut_after c d s p -> always_present c -> c_null c = VUndefined ->
  exists s', field_from_stream E n (Field c (KStringZ cd pad)) ctx d s = (s', Raise EUnicodeDecode).
Proof.
  intros Hm E' Hq Hw Ho He Hp Hn. destruct (cut_mark E n c cd mark plain pad ctx d s p q) as [s' H]; auto.
  exists s'. rewrite H. replace (forgiven cd p) with false; auto. symmetry.
  destruct p; [contradiction|]. destruct cd; try contradiction; reflexivity.
Qed.

(** Data that end within a character, or between two. *)
Lemma encode_chars_app cd t u bs : encode_chars cd (t ++ u) = Ok bs ->
  exists b1 b2, encode_chars cd t = Ok b1 /\ encode_chars cd u = Ok b2 /\ bs = b1 ++ b2.
Proof.
  revert bs. induction t as [|cp t IH]; intros bs H; [exists [], bs; auto|].
  cbn [app] in H. apply encode_cons in H. destruct H as (b & r & Hc & Hr & ->).
  apply IH in Hr. destruct Hr as (b1 & b2 & H1 & H2 & ->).
  exists (b ++ b1), b2. cbn [encode_chars]. rewrite Hc, H1. cbn [bind]. rewrite app_assoc. auto.
Qed.

Lemma base_forgiven cd p : forgiven (base cd) p = match p with [] => true | _ => false end.
Proof. destruct p; auto. destruct cd; auto. Qed.

Lemma stringz_cut name cd cp p q : encode_char cd cp = Some (p ++ q) -> q <> [] ->
  forall t bs mx n acc s fuel, Forall (fun x => x <> 0) t -> encode_chars cd t = Ok bs ->
  (length (bs ++ p) < fuel)%nat ->
  match mx with
  | Some m => n + zlen (bs ++ p) <= m /\ (rest s = bs ++ p \/ m = n + zlen (bs ++ p) /\ exists more, rest s = (bs ++ p) ++ more)
  | None => rest s = bs ++ p
  end ->
  stringz_loop fuel name (base cd) mx n [] acc s
  = (advance s (length (bs ++ p)), match p with [] => Raise (EDeserialization name) | _ => Raise EUnicodeDecode end).
Proof.
  intros Hcp Hq. pose proof (encode_char_decodes _ _ _ Hcp) as [_ (_ & _ & Hpre)].
  induction t as [|x t IH]; intros bs mx n acc s fuel Ht He Hf Hm.
  - cbn [encode_chars] in He. injection He as <-. cbn [app] in *.
    rewrite (stringz_pending name (base cd) (p ++ q) Hpre p [] q mx n acc s fuel); auto.
    cbn [app]. rewrite base_forgiven. destruct p; auto.
  - inversion Ht as [|? ? H0 Ht']; subst.
    apply encode_cons in He. destruct He as (b & r & Hc & Hr' & ->).
    apply encode_char_decodes in Hc. destruct Hc as [_ Hc].
    rewrite <- app_assoc in *. rewrite app_length in Hf. rewrite zlen_app in Hm.
    pose proof (zlen_nonneg (r ++ p)).
    assert (Hr : exists suf, rest s = b ++ suf /\ match mx with
      | Some m => n + zlen b + zlen (r ++ p) <= m /\ (suf = r ++ p \/ m = n + zlen b + zlen (r ++ p) /\ exists more, suf = (r ++ p) ++ more)
      | None => suf = r ++ p end).
    { destruct mx as [m|]; [destruct Hm as [Hle [Hr|[-> [more Hr]]]]|].
      - exists (r ++ p). repeat split; auto; try lia.
      - exists ((r ++ p) ++ more). split; [rewrite Hr, <- app_assoc; auto|]. split; [lia|]. right. split; [lia|eauto].
      - exists (r ++ p). auto. }
    destruct Hr as (suf & Hr & Hsuf).
    replace fuel with (length b + (fuel - length b))%nat by lia.
    rewrite (stringz_char name (base cd) b x (started_base cd) Hc b [] mx n acc s suf)
      by (auto; try apply Hc; destruct mx; lia).
    replace (x =? 0) with false by lia.
    rewrite (IH r mx (n + zlen b) (x :: acc) (advance s (length b))); auto; [|lia|].
    + rewrite advance_advance, (app_length b). reflexivity.
    + rewrite (rest_advance_app s b suf) by auto. exact Hsuf.
Qed.

Lemma cut_stringz E n c cd pad t cp bs p q ctx d s : Forall (fun x => x <> 0) t ->
  encode cd t = Ok bs -> encode cd (t ++ [cp]) = Ok (bs ++ p ++ q) -> q <> [] ->
  cut_after c d s (bs ++ p) -> always_present c -> c_null c = VUndefined ->
  exists s', field_from_stream E n (Field c (KStringZ cd pad)) ctx d s
    = (s', Raise (match p with [] => EDeserialization (c_name c) | _ => EUnicodeDecode end)).
Proof.
  intros Ht He He' Hq Hs Hp Hn. unfold encode in He, He'.
  destruct (encode_chars cd t) as [b1| |] eqn:H1; try discriminate. injection He as <-.
  destruct (encode_chars cd (t ++ [cp])) as [b'| |] eqn:H2; try discriminate. injection He' as He'.
  apply encode_chars_app in H2. destruct H2 as (b1' & b2 & H1' & H2 & ->).
  rewrite H1 in H1'. injection H1' as <-. rewrite <- app_assoc in He'.
  apply app_inv_head in He'. apply app_inv_head in He'. subst b2.
  apply encode_cons in H2. destruct H2 as (b & r & Hc & Hr & Heq). cbn [encode_chars] in Hr. injection Hr as <-.
  rewrite app_nil_r in Heq. subst b.
  apply (stringz_halts _ _ _ _ _ _ _ _ ((bom cd ++ b1) ++ p)); auto; [destruct p; cbn; auto|].
  intros mx fuel Hf Hm.
  replace (Raise (match p with [] => EDeserialization (c_name c) | _ => EUnicodeDecode end))
    with (match p with [] => @Raise value (EDeserialization (c_name c)) | _ => Raise EUnicodeDecode end) by (destruct p; auto).
  destruct (bom_marks cd) as [[Hb Hbase]|[Hb Hmk]].
  - rewrite Hb in *. cbn [app] in *. rewrite <- Hbase at 1. apply (stringz_cut _ _ _ _ _ Hc Hq t); auto.
  - rewrite <- app_assoc in *. rewrite app_length in Hf. rewrite zlen_app in Hm.
    pose proof (zlen_nonneg (b1 ++ p)).
    assert (Hr : exists suf, rest s = bom cd ++ suf /\ match mx with
      | Some m => zlen (bom cd) + zlen (b1 ++ p) <= m /\ (suf = b1 ++ p \/ m = zlen (bom cd) + zlen (b1 ++ p) /\ exists more, suf = (b1 ++ p) ++ more)
      | None => suf = b1 ++ p end).
    { destruct mx as [m|]; [destruct Hm as [Hle [Hr|[-> [more Hr]]]]|].
      - exists (b1 ++ p). repeat split; auto; try lia.
      - exists ((b1 ++ p) ++ more). split; [rewrite Hr, <- app_assoc; auto|]. split; [lia|]. right. split; [lia|eauto].
      - exists (b1 ++ p). auto. }
    destruct Hr as (suf & Hr & Hsuf).
    replace fuel with (length (bom cd) + (fuel - length (bom cd)))%nat by lia.
    rewrite (stringz_mark _ _ _ _ Hmk (bom cd) [] mx 0 [] s suf) by (auto; destruct mx; lia).
    rewrite (stringz_cut _ _ _ _ _ Hc Hq t b1 mx); auto; [|lia|].
    + rewrite advance_advance, (app_length (bom cd)). reflexivity.
    + rewrite (rest_advance_app s (bom cd) suf) by auto. exact Hsuf.
Qed.
