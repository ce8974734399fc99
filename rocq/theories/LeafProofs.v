(** Leaf fields: dump/load facts at the level of [_do_dump] / [_do_load], then at the level
    of the public API. *)
From Verif Require Import Tac PyIntProofs StreamProofs VarintsProofs VarintsMore.
From Verif Require Import CodecsProofs UuidProofs.
From Verif Require Export FieldProofs.

(** ** Integers *)
Lemma fits_range sg n v : fits sg n v = true <-> int_range sg n v.
Proof. unfold fits, int_range. destruct sg; lia. Qed.

Lemma int_dump_ok c sg e g n z bs : c_size c = SInt n ->
  leaf_dump c (KInt sg e) g (VInt z) = (bs, Ok tt) ->
  py_to_bytes z n e sg = Ok bs.
Proof.
  intros Hs. cbn [leaf_dump]. rewrite Hs. unfold write_int, dlift, dwrite, dbind.
  destruct (py_to_bytes z n e sg) as [b|x|]; cbn [catch_value_error app].
  - intros [= <-]. reflexivity.
  - destruct (is_ValueError_or_OverflowError x); discriminate.
  - discriminate.
Qed.

Lemma int_dump_eq c sg e g n z : c_size c = SInt n ->
  leaf_dump c (KInt sg e) g (VInt z)
  = match py_to_bytes z n e sg with
    | Ok bs => (bs, Ok tt)
    | _ => ([], Raise (EUnserializable (c_name c)))
    end.
Proof.
  intros Hs. cbn [leaf_dump]. rewrite Hs. unfold write_int, dlift, dwrite, dbind, py_to_bytes.
  destruct (n <? 0); [reflexivity|]. destruct (fits sg n z); [|reflexivity].
  cbn [app catch_value_error]. reflexivity.
Qed.

Lemma int_load_eq c sg e g g0 bs suf s : c_size c = SInt (zlen bs) ->
  rest s = bs ++ suf ->
  leaf_load c (KInt sg e) g g0 s = (advance s (length bs), Ok (VInt (py_from_bytes bs e sg))).
Proof.
  intros Hs Hr. cbn [leaf_load]. rewrite Hs. unfold lbind.
  rewrite (read_int_ok s bs suf) by auto. reflexivity.
Qed.

Lemma int_leaf_rt c sg e n g g1 g0 z bs suf s : c_size c = SInt n ->
  leaf_dump c (KInt sg e) g (VInt z) = (bs, Ok tt) -> rest s = bs ++ suf ->
  leaf_load c (KInt sg e) g1 g0 s = (advance s (length bs), Ok (VInt z)).
Proof.
  intros Hs Hd Hr. apply (int_dump_ok _ _ _ _ _ _ _ Hs) in Hd.
  destruct (py_to_bytes_ok _ _ _ _ _ Hd) as (_ & _ & Hl & _). subst n.
  rewrite (int_load_eq c sg e g1 g0 bs suf s Hs Hr).
  rewrite (py_from_to_bytes _ _ _ _ _ Hd). reflexivity.
Qed.

Lemma int_to_stream E fuel c sg e n z ctx d : c_size c = SInt n -> accepts c (VInt z) ->
  field_to_stream E fuel (Field c (KInt sg e)) (VInt z) ctx d
  = match py_to_bytes z n e sg with
    | Ok bs => (bs, Ok tt)
    | _ => ([], Raise (EUnserializable (c_name c)))
    end.
Proof.
  intros Hs Ha. rewrite field_to_stream_leaf by auto. rewrite (int_dump_eq _ _ _ _ n) by auto.
  destruct (py_to_bytes z n e sg) as [bs| |] eqn:Hb; try reflexivity.
  apply sized_write_exact.
  - intros m Hm. rewrite Hs in Hm. injection Hm as <-.
    apply (py_to_bytes_ok _ _ _ _ _ Hb).
  - intros nm Hm. congruence.
Qed.

(** ** Variable-length integers *)
Lemma vli_dump_eq c fmt mx g z :
  leaf_dump c (KVli fmt mx) g (VInt z)
  = match vli_encode fmt z with
    | Ok bs =>
      if match mx with Some m => m <? zlen bs | None => false end
      then ([], Raise (EValueSize (c_name c))) else (bs, Ok tt)
    | Raise e => if is_ValueError_or_OverflowError e
                 then ([], Raise (EUnserializable (c_name c))) else ([], Raise e)
    | OOF => ([], OOF)
    end.
Proof.
  cbn [leaf_dump vli_encode_value]. unfold dlift, dbind. destruct (vli_encode fmt z) as [bs|e|];
    cbn [catch_value_error]; try reflexivity.
  - destruct (match mx with Some m => m <? zlen bs | None => false end); reflexivity.
  - destruct (is_ValueError_or_OverflowError e); reflexivity.
Qed.

Lemma vli_encode_cases fmt z :
  (exists bs, vli_encode fmt z = Ok bs) \/ vli_encode fmt z = Raise EValueErr.
Proof.
  destruct fmt.
  - left. apply varint_signed_total; auto.
  - left. apply varint_signed_total; auto.
  - destruct (varint_reject ULEB128 z) as [H1 H2]; auto.
    destruct (Z_lt_le_dec z 0); auto.
  - destruct (varint_reject VLQ z) as [H1 H2]; auto.
    destruct (Z_lt_le_dec z 0); auto.
Qed.

Lemma vli_leaf_rt c fmt mx g g1 g0 z bs suf s :
  leaf_dump c (KVli fmt mx) g (VInt z) = (bs, Ok tt) -> rest s = bs ++ suf ->
  leaf_load c (KVli fmt mx) g1 g0 s = (advance s (length bs), Ok (VInt z)).
Proof.
  rewrite vli_dump_eq. intros Hd Hr.
  destruct (vli_encode fmt z) as [b|e|] eqn:He; [|destruct (is_ValueError_or_OverflowError e); discriminate|discriminate].
  destruct (match mx with Some m => m <? zlen b | None => false end); [discriminate|].
  injection Hd as <-. cbn [leaf_load]. unfold lbind.
  rewrite (encode_decode fmt z b s suf He Hr). reflexivity.
Qed.

(** ** Bytes *)
Lemma bytes_dump_eq c g n bs : g = Ok n ->
  leaf_dump c KBytes g (VBytes bs)
  = if zlen bs =? n then (bs, Ok tt) else ([], Raise (EValueSize (c_name c))).
Proof.
  intros ->. cbn [leaf_dump]. rewrite dbind_ok. cbn [py_len].
  destruct (zlen bs =? n); reflexivity.
Qed.

Lemma read_exact_ok c bs suf s : rest s = bs ++ suf ->
  read_exact_size c (Ok (zlen bs)) s = (advance s (length bs), Ok bs).
Proof.
  intros Hr. unfold read_exact_size. rewrite (read_app s bs suf Hr).
  replace (zlen bs <? zlen bs) with false by lia. reflexivity.
Qed.

Lemma bytes_load_eq c g0 bs suf s : rest s = bs ++ suf ->
  leaf_load c KBytes (Ok (zlen bs)) g0 s = (advance s (length bs), Ok (VBytes bs)).
Proof. intros Hr. cbn [leaf_load]. unfold lbind. rewrite (read_exact_ok c bs suf s Hr). reflexivity. Qed.

(** ** String *)
Lemma string_load_eq c cd pad g0 bs suf s t : rest s = bs ++ suf -> decode cd bs = Ok t ->
  leaf_load c (KString cd pad) (Ok (zlen bs)) g0 s = (advance s (length bs), Ok (VStr t)).
Proof.
  intros Hr Hd. cbn [leaf_load]. unfold lbind. rewrite (read_exact_ok c bs suf s Hr).
  unfold llift. rewrite Hd. reflexivity.
Qed.

(** The bytes a String of size [n] writes: the encoded text, then padding. *)
Lemma encode_and_resize_ok c cd pad n t out :
  encode_and_resize c cd pad (Ok n) t = Ok out ->
  exists bs k, encode cd t = Ok bs /\ zlen out = n /\
    ((out = bs /\ k = O) \/ exists b, pad = Some b /\ out = bs ++ repeat b k /\ (0 < k)%nat).
Proof.
  unfold encode_and_resize. destruct (encode cd t) as [bs| |]; cbn [bind]; try discriminate.
  destruct (0 <? zlen bs - n) eqn:H1; [discriminate|].
  destruct (zlen bs - n <? 0) eqn:H2.
  - destruct pad as [b|]; [|discriminate]. intros [= <-].
    exists bs, (Z.to_nat (- (zlen bs - n))). split; auto. split.
    + unfold zlen in *. rewrite app_length, repeat_length. lia.
    + right. exists b. repeat split; auto. lia.
  - intros [= <-]. exists bs, O. split; auto. split; [lia|auto].
Qed.

(** ** StringZ *)
Lemma iter_next_some max n s b r : rest s = b :: r ->
  match max with Some m => n < m | None => True end ->
  iter_next max n s = Some (b, advance s 1).
Proof.
  intros Hr Hm. unfold iter_next.
  replace (match max with None => true | Some m => n <? m end) with true
    by (destruct max; lia).
  rewrite read_enough by (rewrite Hr; unfold zlen; cbn [length]; lia). rewrite Hr. reflexivity.
Qed.

Lemma iter_next_limit m n s : m <= n -> iter_next (Some m) n s = None.
Proof. intros H. unfold iter_next. replace (n <? m) with false by lia. reflexivity. Qed.

Lemma stringz_char name cd bs cp : started cd = cd -> decodes_to cd bs cp ->
  forall q p max n acc s suf fuel, bs = p ++ q -> q <> [] -> rest s = q ++ suf ->
  match max with Some m => n + zlen q <= m | None => True end ->
  stringz_loop (length q + fuel) name cd max n p acc s
  = if cp =? 0 then (advance s (length q), Ok (VStr (rev acc)))
    else stringz_loop fuel name cd max (n + zlen q) [] (cp :: acc) (advance s (length q)).
Proof.
  intros Hst (Hne & Hfull & Hpre) q. induction q as [|b q IH]; intros p max n acc s suf fuel E Hq Hr Hm; [congruence|].
  assert (Hzl : zlen (b :: q) = 1 + zlen q) by (unfold zlen; cbn [length]; lia).
  pose proof (zlen_nonneg q) as Hnn.
  cbn [length Nat.add stringz_loop].
  rewrite (iter_next_some max n s b (q ++ suf)) by (auto; destruct max; lia).
  destruct q as [|b' q].
  - rewrite <- E, Hfull, Hst. cbn [length Nat.add]. reflexivity.
  - rewrite (Hpre (p ++ [b]) (b' :: q)).
    + rewrite (IH (p ++ [b]) max (n + 1) acc (advance s 1) suf fuel).
      * rewrite advance_advance. cbn [length Nat.add].
        replace (n + 1 + zlen (b' :: q)) with (n + zlen (b :: b' :: q)) by lia. reflexivity.
      * rewrite <- app_assoc. exact E.
      * discriminate.
      * rewrite rest_advance, Hr. reflexivity.
      * destruct max; lia.
    + rewrite <- app_assoc. exact E.
    + intros H. apply app_eq_nil in H. destruct H; discriminate.
    + discriminate.
Qed.

Lemma encode_cons c cp s bs : encode_chars c (cp :: s) = Ok bs ->
  exists b r, encode_char c cp = Some b /\ encode_chars c s = Ok r /\ bs = b ++ r.
Proof.
  cbn [encode_chars]. destruct (encode_char c cp) as [b|]; [|discriminate].
  destruct (encode_chars c s) as [r| |]; cbn [bind]; try discriminate. intros [= <-]. eauto 6.
Qed.

Lemma stringz_chars name cd t : forall bs max n acc s suf fuel,
  Forall (fun cp => cp <> 0) t -> encode_chars cd (t ++ [0]) = Ok bs -> rest s = bs ++ suf ->
  match max with Some m => n + zlen bs <= m | None => True end ->
  (length bs <= fuel)%nat ->
  stringz_loop fuel name (base cd) max n [] acc s
  = (advance s (length bs), Ok (VStr (rev acc ++ t))).
Proof.
  induction t as [|cp t IH]; intros bs max n acc s suf fuel Ht He Hr Hm Hf.
  - cbn [app] in He. apply encode_cons in He. destruct He as (b & r & Hc & Hr' & ->).
    cbn [encode_chars] in Hr'. injection Hr' as <-. rewrite app_nil_r in *.
    apply encode_char_decodes in Hc. destruct Hc as [_ Hc].
    replace fuel with (length b + (fuel - length b))%nat by lia.
    rewrite (stringz_char name (base cd) b 0 (started_base cd) Hc b [] max n acc s suf) by (auto; apply Hc).
    rewrite app_nil_r. reflexivity.
  - inversion Ht as [|? ? H0 Ht']; subst.
    cbn [app] in He. apply encode_cons in He. destruct He as (b & r & Hc & Hr' & ->).
    apply encode_char_decodes in Hc. destruct Hc as [_ Hc].
    rewrite app_length in Hf. rewrite zlen_app in Hm.
    replace fuel with (length b + (fuel - length b))%nat by lia.
    rewrite <- app_assoc in Hr. pose proof (zlen_nonneg r).
    rewrite (stringz_char name (base cd) b cp (started_base cd) Hc b [] max n acc s (r ++ suf))
      by (auto; try apply Hc; destruct max; lia).
    replace (cp =? 0) with false by lia.
    rewrite (IH r max (n + zlen b) (cp :: acc) (advance s (length b)) suf); auto.
    + rewrite advance_advance, app_length. cbn [rev]. rewrite <- app_assoc. reflexivity.
    + rewrite (rest_advance_app s b (r ++ suf)) by auto. reflexivity.
    + destruct max; lia.
    + lia.
Qed.

Lemma stringz_mark name cd bs cd' : marks cd bs cd' ->
  forall q p max n acc s suf fuel, bs = p ++ q -> q <> [] -> rest s = q ++ suf ->
  match max with Some m => n + zlen q <= m | None => True end ->
  stringz_loop (length q + fuel) name cd max n p acc s
  = stringz_loop fuel name cd' max (n + zlen q) [] acc (advance s (length q)).
Proof.
  intros (Hfull & Hpre) q. induction q as [|b q IH]; intros p max n acc s suf fuel E Hq Hr Hm; [congruence|].
  assert (Hzl : zlen (b :: q) = 1 + zlen q) by (unfold zlen; cbn [length]; lia).
  pose proof (zlen_nonneg q) as Hnn.
  cbn [length Nat.add stringz_loop].
  rewrite (iter_next_some max n s b (q ++ suf)) by (auto; destruct max; lia).
  destruct q as [|b' q].
  - rewrite <- E, Hfull. cbn [length Nat.add]. reflexivity.
  - rewrite (Hpre (p ++ [b]) (b' :: q)).
    + rewrite (IH (p ++ [b]) max (n + 1) acc (advance s 1) suf fuel).
      * rewrite advance_advance. cbn [length Nat.add].
        replace (n + 1 + zlen (b' :: q)) with (n + zlen (b :: b' :: q)) by lia. reflexivity.
      * rewrite <- app_assoc. exact E.
      * discriminate.
      * rewrite rest_advance, Hr. reflexivity.
      * destruct max; lia.
    + rewrite <- app_assoc. exact E.
    + intros H. apply app_eq_nil in H. destruct H; discriminate.
    + discriminate.
Qed.

Lemma stringz_text name cd t bs max n acc s suf fuel :
  Forall (fun cp => cp <> 0) t -> encode cd (t ++ [0]) = Ok bs -> rest s = bs ++ suf ->
  match max with Some m => n + zlen bs <= m | None => True end ->
  (length bs <= fuel)%nat ->
  stringz_loop fuel name cd max n [] acc s
  = (advance s (length bs), Ok (VStr (rev acc ++ t))).
Proof.
  intros Ht He Hr Hm Hf. apply encode_inv in He. destruct He as (b & He & ->).
  destruct (bom_marks cd) as [[Hb Hc]|[Hb Hk]].
  - rewrite Hb in *. cbn [app] in *. rewrite <- Hc. eapply stringz_chars; eauto.
  - rewrite app_length in *. rewrite zlen_app in Hm. rewrite <- app_assoc in Hr. pose proof (zlen_nonneg b).
    replace fuel with (length (bom cd) + (fuel - length (bom cd)))%nat by lia.
    rewrite (stringz_mark name cd _ _ Hk (bom cd) [] max n acc s (b ++ suf)) by (auto; destruct max; lia).
    rewrite (stringz_chars name cd t b max _ acc _ suf); auto.
    + rewrite advance_advance. reflexivity.
    + apply rest_advance_app. auto.
    + destruct max; lia.
    + lia.
Qed.

Lemma stringz_load_ok c cd pad g g0 t bs suf s :
  Forall (fun cp => cp <> 0) t -> encode cd (t ++ [0]) = Ok bs -> rest s = bs ++ suf ->
  (exists x, g = Raise (EUndefinedSize x)) \/ (exists m, g = Ok m /\ zlen bs <= m) ->
  leaf_load c (KStringZ cd pad) g g0 s = (advance s (length bs), Ok (VStr t)).
Proof.
  intros Ht He Hr Hg. cbn [leaf_load].
  assert (Hl : (length bs <= S (length (rest s)))%nat) by (rewrite Hr, app_length; lia).
  destruct Hg as [[x ->] | (m & -> & Hm)]; cbn [is_UndefinedSizeError].
  - rewrite (stringz_text _ cd t bs None 0 [] s suf); auto.
  - rewrite (stringz_text _ cd t bs (Some m) 0 [] s suf); auto.
Qed.

(** When the limit cuts the text or its terminator, the load fails. *)
Definition stringz_error (name : fname) (e : exn) : Prop :=
  e = EDeserialization name \/ e = EUnicodeDecode.

Lemma stringz_char_cut name cd bs :
  (forall p q, bs = p ++ q -> p <> [] -> q <> [] -> dec_step cd p = DMore) ->
  forall q p m n acc s suf fuel, bs = p ++ q -> q <> [] -> rest s = q ++ suf ->
  m < n + zlen q -> (length q < fuel)%nat ->
  exists s' e, stringz_loop fuel name cd (Some m) n p acc s = (s', Raise e)
               /\ stringz_error name e.
Proof.
  intros Hpre q. induction q as [|b q IH]; intros p m n acc s suf fuel E Hq Hr Hm Hf; [congruence|].
  destruct fuel as [|fuel]; [lia|]. cbn [stringz_loop].
  destruct (Z_lt_le_dec n m) as [Hnm|Hnm].
  - rewrite (iter_next_some (Some m) n s b (q ++ suf)) by (auto; lia).
    assert (Hzl : zlen (b :: q) = 1 + zlen q) by (unfold zlen; cbn [length]; lia).
    destruct q as [|b' q]; [change (zlen (@nil Z)) with 0 in Hzl; lia|].
    rewrite (Hpre (p ++ [b]) (b' :: q)).
    + apply (IH (p ++ [b]) m (n + 1) acc (advance s 1) suf fuel).
      * rewrite <- app_assoc. exact E.
      * discriminate.
      * rewrite rest_advance, Hr. reflexivity.
      * lia.
      * cbn [length] in *. lia.
    + rewrite <- app_assoc. exact E.
    + intros H. apply app_eq_nil in H. destruct H; discriminate.
    + discriminate.
  - rewrite iter_next_limit by auto. destruct (forgiven cd p); eexists; eexists; (split; [reflexivity|]);
      unfold stringz_error; auto.
Qed.

Lemma stringz_chars_cut name cd t : forall bs m n acc s suf fuel,
  Forall (fun cp => cp <> 0) t -> encode_chars cd (t ++ [0]) = Ok bs -> rest s = bs ++ suf ->
  m < n + zlen bs -> (length bs < fuel)%nat ->
  exists s' e, stringz_loop fuel name (base cd) (Some m) n [] acc s = (s', Raise e)
               /\ stringz_error name e.
Proof.
  induction t as [|cp t IH]; intros bs m n acc s suf fuel Ht He Hr Hm Hf.
  - cbn [app] in He. apply encode_cons in He. destruct He as (b & r & Hc & Hr' & ->).
    cbn [encode_chars] in Hr'. injection Hr' as <-. rewrite app_nil_r in *.
    apply encode_char_decodes in Hc. destruct Hc as [_ Hc].
    eapply (stringz_char_cut name (base cd) b (proj2 (proj2 Hc)) b []); eauto. apply Hc.
  - inversion Ht as [|? ? H0 Ht']; subst.
    cbn [app] in He. apply encode_cons in He. destruct He as (b & r & Hc & Hr' & ->).
    apply encode_char_decodes in Hc. destruct Hc as [_ Hc].
    rewrite app_length in Hf. rewrite zlen_app in Hm. rewrite <- app_assoc in Hr.
    destruct (Z_lt_le_dec m (n + zlen b)) as [Hcut|Hfit].
    + eapply (stringz_char_cut name (base cd) b (proj2 (proj2 Hc)) b [] m n acc s (r ++ suf)); eauto; try apply Hc. lia.
    + replace fuel with (length b + (fuel - length b))%nat by lia.
      rewrite (stringz_char name (base cd) b cp (started_base cd) Hc b [] (Some m) n acc s (r ++ suf)) by (auto; apply Hc).
      replace (cp =? 0) with false by lia.
      apply (IH r m (n + zlen b) (cp :: acc) (advance s (length b)) suf); auto.
      * rewrite (rest_advance_app s b (r ++ suf)) by auto. reflexivity.
      * lia.
      * lia.
Qed.

Lemma stringz_text_cut name cd t bs m n acc s suf fuel :
  Forall (fun cp => cp <> 0) t -> encode cd (t ++ [0]) = Ok bs -> rest s = bs ++ suf ->
  m < n + zlen bs -> (length bs < fuel)%nat ->
  exists s' e, stringz_loop fuel name cd (Some m) n [] acc s = (s', Raise e)
               /\ stringz_error name e.
Proof.
  intros Ht He Hr Hm Hf. apply encode_inv in He. destruct He as (b & He & ->).
  destruct (bom_marks cd) as [[Hb Hc]|[Hb Hk]].
  - rewrite Hb in *. cbn [app] in *. rewrite <- Hc. eapply stringz_chars_cut; eauto.
  - rewrite app_length in *. rewrite zlen_app in Hm. rewrite <- app_assoc in Hr.
    destruct (Z_lt_le_dec m (n + zlen (bom cd))) as [Hcut|Hfit].
    + eapply (stringz_char_cut name cd (bom cd) (proj2 Hk) (bom cd) [] m n acc s (b ++ suf)); eauto. lia.
    + replace fuel with (length (bom cd) + (fuel - length (bom cd)))%nat by lia.
      rewrite (stringz_mark name cd _ _ Hk (bom cd) [] (Some m) n acc s (b ++ suf)) by auto.
      eapply (stringz_chars_cut name cd t b m _ acc _ suf); eauto.
      * apply rest_advance_app. auto.
      * lia.
      * lia.
Qed.

(** ** UUID *)
Lemma uuid_load_eq c fmt g g0 bs suf s u : c_size c = SInt (uuid_size fmt) ->
  0 <= u < 2 ^ 128 -> bs = uuid_dump fmt u -> rest s = bs ++ suf ->
  leaf_load c (KUuid fmt) g g0 s = (advance s (length bs), Ok (VUUID u)).
Proof.
  intros Hs Hu -> Hr. cbn [leaf_load]. rewrite Hs, <- (uuid_dump_length fmt u).
  rewrite (read_app s _ suf Hr).
  replace (zlen (uuid_dump fmt u) <? zlen (uuid_dump fmt u)) with false by lia.
  assert (H16 : match fmt with
                | BINARY_VARIANT_1 | BINARY_VARIANT_2 => negb (zlen (uuid_dump fmt u) =? 16)
                | _ => false
                end = false).
  { rewrite uuid_dump_length. destruct fmt; reflexivity. }
  rewrite H16, uuid_parse_dump by auto. reflexivity.
Qed.
