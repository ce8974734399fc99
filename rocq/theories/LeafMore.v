(** Leaf fields at the level of the public API ([to_stream] / [from_stream]). *)
From Verif Require Import Tac PyIntProofs StreamProofs VarintsProofs VarintsMore.
From Verif Require Import CodecsProofs UuidProofs.
From Verif Require Export LeafProofs.

Lemma takes_load E n c k ctx d s s' v : takes c v ->
  do_load E n (Field c k) ctx d s = (s', Ok v) ->
  field_from_stream E n (Field c k) ctx d s = (s', Ok v).
Proof.
  intros (Hp & Hn & Hc & Ha) H. unfold field_from_stream, field_from_stream_with.
  rewrite from_stream_present by (cbn; auto). unfold checked. cbn [conf].
  rewrite H, Hc. cbn [is_undefined negb bind]. rewrite (accepts_run _ _ Ha). reflexivity.
Qed.

Lemma load_fails E n c k ctx d s s' e : always_present c -> c_null c = VUndefined ->
  do_load E n (Field c k) ctx d s = (s', Raise e) ->
  field_from_stream E n (Field c k) ctx d s = (s', Raise (set_field (c_name c) e)).
Proof.
  intros Hp Hn H. unfold field_from_stream, field_from_stream_with.
  rewrite from_stream_present by (cbn; auto). unfold checked. cbn [conf].
  rewrite H. reflexivity.
Qed.

Lemma takes_accepts c v : takes c v -> accepts c v.
Proof. intros H; apply H. Qed.

(** ** Integer (C06-C08) *)
Lemma integer_roundtrip E E' fuel fuel' c sg e n v ctx ctx' d d' bs pre suf :
  c_size c = SInt n -> takes c (VInt v) ->
  field_to_stream E fuel (Field c (KInt sg e)) (VInt v) ctx d = (bs, Ok tt) ->
  zlen bs = n
  /\ field_from_stream E' fuel' (Field c (KInt sg e)) ctx' d' (at_data pre bs suf)
     = (after_data pre bs suf, Ok (VInt v)).
Proof.
  intros Hs Ht Hd. rewrite (int_to_stream _ _ _ _ _ n) in Hd by (auto; apply Ht).
  destruct (py_to_bytes v n e sg) as [b| |] eqn:Hb; try discriminate.
  injection Hd as ->. pose proof (py_to_bytes_ok _ _ _ _ _ Hb) as (H0 & _ & Hl & _).
  split; auto. apply takes_load; auto. rewrite do_load_leaf by auto.
  subst n. rewrite (int_load_eq c sg e _ _ bs suf) by (auto; apply rest_at).
  rewrite advance_at, (py_from_to_bytes _ _ _ _ _ Hb). reflexivity.
Qed.

Lemma mod_pow256 v n i : 0 <= i < n -> (v mod 2 ^ (8 * n) / 256 ^ i) mod 256 = (v / 256 ^ i) mod 256.
Proof.
  intros Hi.
  replace (2 ^ (8 * n)) with (256 ^ i * 256 ^ (n - i)).
  2:{ rewrite <- Z.pow_add_r by lia. replace 256 with (2 ^ 8) by reflexivity.
      rewrite <- Z.pow_mul_r by lia. f_equal. lia. }
  rewrite Z.rem_mul_r by (try apply Z.pow_nonzero; try (apply Z.pow_pos_nonneg); lia).
  rewrite (Z.mul_comm (256 ^ i)), Z.div_add by (apply Z.pow_nonzero; lia).
  rewrite (Z.div_small (v mod 256 ^ i)) by (apply Z.mod_pos_bound, Z.pow_pos_nonneg; lia).
  rewrite Z.add_0_l.
  replace (256 ^ (n - i)) with (256 * 256 ^ (n - i - 1)).
  2:{ rewrite <- Z.pow_succ_r by lia. f_equal. lia. }
  rewrite Z.rem_mul_r by (try lia; apply Z.pow_pos_nonneg; lia).
  rewrite Z.mul_comm, Z.mod_add by lia. apply Z.mod_mod. lia.
Qed.

Lemma integer_layout E fuel c sg n v ctx d bs i :
  c_size c = SInt n -> accepts c (VInt v) ->
  field_to_stream E fuel (Field c (KInt sg Little)) (VInt v) ctx d = (bs, Ok tt) ->
  0 <= i < n -> nth_error bs (Z.to_nat i) = Some ((v / 256 ^ i) mod 256).
Proof.
  intros Hs Ha Hd Hi. rewrite (int_to_stream _ _ _ _ _ n) in Hd by auto.
  unfold py_to_bytes in Hd. destruct (n <? 0) eqn:Hn; [discriminate|].
  destruct (fits sg n v); [|discriminate].
  assert (Hbs : bs = le_bytes (Z.to_nat n) (v mod 2 ^ (8 * n)))
    by (symmetry; exact (f_equal fst Hd)).
  rewrite Hbs, le_bytes_nth by lia. rewrite Z2Nat.id by lia. rewrite mod_pow256 by lia. reflexivity.
Qed.

Lemma integer_big E fuel c sg n v ctx d :
  c_size c = SInt n -> accepts c (VInt v) ->
  field_to_stream E fuel (Field c (KInt sg Big)) (VInt v) ctx d
  = (rev (fst (field_to_stream E fuel (Field c (KInt sg Little)) (VInt v) ctx d)),
     snd (field_to_stream E fuel (Field c (KInt sg Little)) (VInt v) ctx d)).
Proof.
  intros Hs Ha. rewrite !(int_to_stream _ _ _ _ _ n) by auto.
  unfold py_to_bytes. destruct (n <? 0); [reflexivity|]. destruct (fits sg n v); reflexivity.
Qed.

Lemma integer_in_range E fuel c sg e n v ctx d :
  c_size c = SInt n -> 0 <= n -> accepts c (VInt v) -> int_range sg n v ->
  exists bs, field_to_stream E fuel (Field c (KInt sg e)) (VInt v) ctx d = (bs, Ok tt)
             /\ zlen bs = n.
Proof.
  intros Hs Hn Ha Hr. rewrite (int_to_stream _ _ _ _ _ n) by auto.
  apply fits_range in Hr.
  destruct (py_to_bytes v n e sg) as [b| |] eqn:Hb.
  - exists b. split; auto. apply (py_to_bytes_ok _ _ _ _ _ Hb).
  - unfold py_to_bytes in Hb. replace (n <? 0) with false in Hb by lia.
    rewrite Hr in Hb. discriminate.
  - unfold py_to_bytes in Hb. destruct (n <? 0); [discriminate|]. rewrite Hr in Hb. discriminate.
Qed.

Lemma integer_out_of_range E fuel c sg e n v ctx d :
  c_size c = SInt n -> 0 <= n -> accepts c (VInt v) -> ~ int_range sg n v ->
  field_to_stream E fuel (Field c (KInt sg e)) (VInt v) ctx d
  = ([], Raise (EUnserializable (c_name c))).
Proof.
  intros Hs Hn Ha Hr. rewrite (int_to_stream _ _ _ _ _ n) by auto.
  unfold py_to_bytes. replace (n <? 0) with false by lia.
  destruct (fits sg n v) eqn:Hf; [|reflexivity]. apply fits_range in Hf. contradiction.
Qed.

Lemma integer_bijection E fuel c sg e ctx d bs pre suf :
  c_size c = SInt (zlen bs) -> plain c -> bytes_ok bs ->
  exists v, int_range sg (zlen bs) v
    /\ field_from_stream E fuel (Field c (KInt sg e)) ctx d (at_data pre bs suf)
       = (after_data pre bs suf, Ok (VInt v))
    /\ field_to_stream E fuel (Field c (KInt sg e)) (VInt v) ctx d = (bs, Ok tt).
Proof.
  intros Hs Hp Hb. exists (py_from_bytes bs e sg).
  pose proof (plain_accepts c (VInt (py_from_bytes bs e sg)) Hp) as Ha.
  split; [|split].
  - apply fits_range. apply py_from_bytes_fits; auto.
  - apply takes_load.
    + destruct Hp as (? & ? & ? & ?). repeat split; auto.
    + rewrite do_load_leaf by auto. rewrite (int_load_eq c sg e _ _ bs suf) by (auto; apply rest_at).
      rewrite advance_at. reflexivity.
  - rewrite (int_to_stream _ _ _ _ _ (zlen bs)) by auto.
    rewrite py_to_from_bytes by auto. reflexivity.
Qed.

(** ** Short input (C09) *)
Lemma read_exact_short c n s : zlen (rest s) < n ->
  read_exact_size c (Ok n) s
  = (advance s (length (rest s)), Raise (EUnexpectedEOF (c_name c) n (tell s))).
Proof.
  intros H. unfold read_exact_size. rewrite read_short by auto.
  replace (zlen (rest s) <? n) with true by lia. reflexivity.
Qed.

Definition fixed_kind (k : fkind) : Prop :=
  match k with
  | KInt _ _ | KBytes | KString _ _ | KFloat _ _ | KTime _ _ _ _ => True
  | _ => False
  end.

Lemma short_input E n c k size ctx d s :
  fixed_kind k -> c_size c = SInt size -> always_present c -> c_null c = VUndefined ->
  zlen (rest s) < size ->
  field_from_stream E n (Field c k) ctx d s
  = (advance s (length (rest s)), Raise (EUnexpectedEOF (c_name c) size (tell s))).
Proof.
  intros Hk Hs Hp Hn Hl.
  assert (H : exists nm, do_load E n (Field c k) ctx d s
              = (advance s (length (rest s)), Raise (EUnexpectedEOF nm size (tell s)))).
  { rewrite do_load_leaf by (destruct k; try contradiction; reflexivity).
    rewrite !(ges_int _ _ _ _ size) by auto.
    destruct k; try contradiction; cbn [leaf_load]; unfold lbind; rewrite ?Hs;
      try (rewrite read_exact_short by auto); unfold llift;
      try (rewrite read_int_short by auto); eauto. }
  destruct H as [nm H]. rewrite (load_fails _ _ _ _ _ _ _ _ _ Hp Hn H). reflexivity.
Qed.

Lemma short_input_ref E n c k size ctx d s :
  match k with KBytes | KString _ _ | KTime _ _ _ _ => True | _ => False end ->
  declared_size c d size -> always_present c -> c_null c = VUndefined ->
  zlen (rest s) < size ->
  field_from_stream E n (Field c k) ctx d s
  = (advance s (length (rest s)), Raise (EUnexpectedEOF (c_name c) size (tell s))).
Proof.
  intros Hk Hs Hp Hn Hl.
  assert (H : exists nm, do_load E n (Field c k) ctx d s
              = (advance s (length (rest s)), Raise (EUnexpectedEOF nm size (tell s)))).
  { rewrite do_load_leaf by (destruct k; try contradiction; reflexivity).
    destruct k; try contradiction; cbn [leaf_load]; unfold lbind;
      rewrite (ges_declared _ _ _ _ size) by auto;
      try (rewrite read_exact_short by auto); unfold llift;
      try (rewrite read_int_short by auto); eauto. }
  destruct H as [nm H]. rewrite (load_fails _ _ _ _ _ _ _ _ _ Hp Hn H). reflexivity.
Qed.

Lemma short_input_uuid E n c fmt size ctx d s :
  c_size c = SInt size -> always_present c -> c_null c = VUndefined ->
  zlen (rest s) < size ->
  field_from_stream E n (Field c (KUuid fmt)) ctx d s
  = (advance s (length (rest s)),
     Raise (EUnexpectedEOF (c_name c) size (tell s + zlen (rest s)))).
Proof.
  intros Hs Hp Hn Hl.
  assert (H : do_load E n (Field c (KUuid fmt)) ctx d s
              = (advance s (length (rest s)), Raise (EUnexpectedEOF (c_name c) size (tell s + zlen (rest s))))).
  { rewrite do_load_leaf by reflexivity. cbn [leaf_load]. rewrite Hs, read_short by auto.
    replace (zlen (rest s) <? size) with true by lia. rewrite tell_advance. reflexivity. }
  rewrite (load_fails _ _ _ _ _ _ _ _ _ Hp Hn H). reflexivity.
Qed.

(** ** Variable-length integers (C03, C10) *)
Lemma vli_to_stream E n c fmt mx z ctx d : c_size c = SNone -> accepts c (VInt z) ->
  field_to_stream E n (Field c (KVli fmt mx)) (VInt z) ctx d
  = match vli_encode fmt z with
    | Ok bs =>
      if match mx with Some m => m <? zlen bs | None => false end
      then ([], Raise (EValueSize (c_name c))) else (bs, Ok tt)
    | _ => ([], Raise (EUnserializable (c_name c)))
    end.
Proof.
  intros Hs Ha. rewrite field_to_stream_leaf by auto. rewrite vli_dump_eq.
  destruct (vli_encode_cases fmt z) as [[bs He]|He]; rewrite He; [|reflexivity].
  destruct (match mx with Some m => m <? zlen bs | None => false end); [reflexivity|].
  apply sized_write_exact; intros; congruence.
Qed.

Lemma vli_field_rejects E n c fmt mx z ctx d :
  fmt = VLQ \/ fmt = ULEB128 -> z < 0 -> accepts c (VInt z) ->
  field_to_stream E n (Field c (KVli fmt mx)) (VInt z) ctx d
  = ([], Raise (EUnserializable (c_name c))).
Proof.
  intros Hf Hz Ha. rewrite field_to_stream_leaf by auto. rewrite vli_dump_eq.
  destruct (varint_reject fmt z Hf) as [H _]. rewrite (H Hz). reflexivity.
Qed.

Lemma vli_dump_inv E n c fmt mx z ctx d bs : accepts c (VInt z) ->
  field_to_stream E n (Field c (KVli fmt mx)) (VInt z) ctx d = (bs, Ok tt) ->
  vli_encode fmt z = Ok bs /\ match mx with Some m => m <? zlen bs | None => false end = false.
Proof.
  intros Ha Hd. rewrite field_to_stream_leaf in Hd by auto. rewrite vli_dump_eq in Hd.
  destruct (vli_encode_cases fmt z) as [[b He]|He]; rewrite He in *; [|discriminate].
  destruct (match mx with Some m => m <? zlen b | None => false end) eqn:Hm; [discriminate|].
  unfold sized_write in Hd.
  destruct (match c_size c with SInt n => Ok n | SNone => Ok (zlen b) | SRef _ => _ end) as [x| |];
    [rewrite dbind_ok in Hd|discriminate|discriminate].
  destruct (0 <? zlen b - x); [discriminate|].
  destruct (zlen b - x <? 0); [discriminate|]. injection Hd as <-. auto.
Qed.

Lemma vli_field_roundtrip E E' n n' c fmt mx z ctx ctx' d d' bs pre suf :
  takes c (VInt z) ->
  field_to_stream E n (Field c (KVli fmt mx)) (VInt z) ctx d = (bs, Ok tt) ->
  field_from_stream E' n' (Field c (KVli fmt mx)) ctx' d' (at_data pre bs suf)
  = (after_data pre bs suf, Ok (VInt z)).
Proof.
  intros Ht Hd. apply vli_dump_inv in Hd as (He & Hm); [|apply Ht].
  apply takes_load; auto. rewrite do_load_leaf by auto. rewrite <- advance_at.
  apply (vli_leaf_rt c fmt mx (Ok 0) _ _ z bs suf).
  - rewrite vli_dump_eq, He, Hm. reflexivity.
  - apply rest_at.
Qed.

Lemma vli_max_bytes E n c fmt m z ctx d bs :
  accepts c (VInt z) ->
  field_to_stream E n (Field c (KVli fmt (Some m))) (VInt z) ctx d = (bs, Ok tt) ->
  vli_encode fmt z = Ok bs /\ zlen bs <= m.
Proof.
  intros Ha Hd. rewrite field_to_stream_leaf in Hd by auto. rewrite vli_dump_eq in Hd.
  destruct (vli_encode_cases fmt z) as [[b He]|He]; rewrite He in *; [|discriminate].
  destruct (m <? zlen b) eqn:Hm; [discriminate|].
  unfold sized_write in Hd.
  destruct (match c_size c with SInt n => Ok n | SNone => Ok (zlen b) | SRef _ => _ end) as [x| |];
    [rewrite dbind_ok in Hd|discriminate|discriminate].
  destruct (0 <? zlen b - x); [discriminate|].
  destruct (zlen b - x <? 0); [discriminate|]. injection Hd as <-. split; [auto|lia].
Qed.

Lemma vli_max_bytes_reject E n c fmt m z ctx d bs :
  accepts c (VInt z) -> vli_encode fmt z = Ok bs -> m < zlen bs ->
  field_to_stream E n (Field c (KVli fmt (Some m))) (VInt z) ctx d
  = ([], Raise (EValueSize (c_name c))).
Proof.
  intros Ha He Hm. rewrite field_to_stream_leaf by auto. rewrite vli_dump_eq, He.
  replace (m <? zlen bs) with true by lia. reflexivity.
Qed.

Lemma vli_max_bytes_load E n c fmt m ctx d s :
  always_present c -> c_null c = VUndefined ->
  field_from_stream E n (Field c (KVli fmt (Some m))) ctx d s
  = field_from_stream E n (Field c (KVli fmt None)) ctx d s.
Proof.
  intros Hp Hn. unfold field_from_stream, field_from_stream_with.
  rewrite !from_stream_present by (cbn; auto).
  unfold checked. rewrite !do_load_leaf by auto. reflexivity.
Qed.

(** ** Bytes (C11) *)
Lemma bytes_to_stream E n c size bs ctx d : declared_size c d size -> accepts c (VBytes bs) ->
  field_to_stream E n (Field c KBytes) (VBytes bs) ctx d
  = if zlen bs =? size then (bs, Ok tt) else ([], Raise (EValueSize (c_name c))).
Proof.
  intros Hs Ha. rewrite field_to_stream_leaf by auto.
  rewrite (bytes_dump_eq c _ size) by (apply ges_declared; auto).
  destruct (zlen bs =? size) eqn:He; [|reflexivity].
  assert (zlen bs = size) by lia. subst size.
  apply sized_write_exact.
  - intros m Hm. destruct Hs as [Hs|(nm & Hs & _)]; congruence.
  - intros nm Hm. unfold get_expected_size, ges. cbn [conf kind]. rewrite (ges_declared _ _ _ _ _ Hs). reflexivity.
Qed.

Lemma bytes_from_stream E n c ctx d bs pre suf :
  declared_size c d (zlen bs) -> takes c (VBytes bs) ->
  field_from_stream E n (Field c KBytes) ctx d (at_data pre bs suf)
  = (after_data pre bs suf, Ok (VBytes bs)).
Proof.
  intros Hs Ht. apply takes_load; auto. rewrite do_load_leaf by auto.
  rewrite (ges_declared _ _ _ _ _ Hs), <- advance_at. 
  apply (bytes_load_eq c _ bs suf). apply rest_at.
Qed.

Lemma bytes_negative_load E n c size ctx d pre bs :
  declared_size c d size -> size < 0 -> takes c (VBytes bs) ->
  field_from_stream E n (Field c KBytes) ctx d (at_data pre bs [])
  = (after_data pre bs [], Ok (VBytes bs)).
Proof.
  intros Hs Hn Ht. apply takes_load; auto. rewrite do_load_leaf by auto.
  rewrite (ges_declared _ _ _ _ _ Hs), <- advance_at. 
  cbn [leaf_load]. unfold lbind, read_exact_size. rewrite read_neg by auto.
  rewrite rest_at, app_nil_r. pose proof (zlen_nonneg bs).
  replace (zlen bs <? size) with false by lia. reflexivity.
Qed.

(** ** String (C12, C13) *)
Lemma string_to_stream E n c cd pad size t ctx d :
  declared_size c d size -> accepts c (VStr t) ->
  field_to_stream E n (Field c (KString cd pad)) (VStr t) ctx d
  = match encode_and_resize c cd pad (Ok size) t with
    | Ok out => (out, Ok tt)
    | Raise e => ([], Raise e)
    | OOF => ([], OOF)
    end.
Proof.
  intros Hs Ha. rewrite field_to_stream_leaf by auto. cbn [leaf_dump].
  rewrite (ges_declared _ _ _ _ _ Hs).
  destruct (encode_and_resize c cd pad (Ok size) t) as [out| |] eqn:Hr; try reflexivity.
  rewrite dbind_ok. unfold dwrite.
  destruct (encode_and_resize_ok _ _ _ _ _ _ Hr) as (bs & k & _ & Hz & _).
  apply sized_write_exact.
  - intros m Hm. destruct Hs as [Hs|(nm & Hs & _)]; congruence.
  - intros nm Hm. unfold get_expected_size, ges. cbn [conf kind].
    rewrite (ges_declared _ _ _ _ _ Hs). congruence.
Qed.

Lemma string_dump_total E n c cd pad size t ctx d :
  declared_size c d size -> accepts c (VStr t) ->
  (exists bs k, encode cd t = Ok bs
     /\ let out := bs ++ match pad with Some b => repeat b k | None => [] end in
        zlen out = size
        /\ field_to_stream E n (Field c (KString cd pad)) (VStr t) ctx d = (out, Ok tt))
  \/ (exists bs, encode cd t = Ok bs /\ (size < zlen bs \/ (zlen bs < size /\ pad = None))
        /\ field_to_stream E n (Field c (KString cd pad)) (VStr t) ctx d
           = ([], Raise (EValueSize (c_name c))))
  \/ (encode cd t = Raise EUnicodeEncode
      /\ field_to_stream E n (Field c (KString cd pad)) (VStr t) ctx d
         = ([], Raise EUnicodeEncode)).
Proof.
  intros Hs Ha. rewrite (string_to_stream E n c cd pad size t ctx d Hs Ha).
  unfold encode_and_resize. destruct (encode cd t) as [bs|e|] eqn:He; cbn [bind].
  - destruct (0 <? zlen bs - size) eqn:H1; [right; left; exists bs; repeat split; auto; lia|].
    destruct (zlen bs - size <? 0) eqn:H2.
    + destruct pad as [b|].
      * left. exists bs, (Z.to_nat (- (zlen bs - size))). split; auto. cbn zeta. split; auto.
        unfold zlen in *. rewrite app_length, repeat_length. lia.
      * right; left. exists bs. repeat split; auto. right; split; auto; lia.
    + left. exists bs, O. split; auto. cbn zeta.
      replace (match pad with Some b => repeat b 0 | None => [] end) with (@nil Z) by (destruct pad; auto).
      rewrite app_nil_r. split; auto. lia.
  - right; right. rewrite (encode_raise _ _ _ He). auto.
  - destruct (encode_no_oof _ _ He).
Qed.

Lemma string_load E n c cd pad ctx d t bs padding p pre suf :
  encode cd t = Ok bs -> decode (base cd) padding = Ok p ->
  declared_size c d (zlen (bs ++ padding)) -> takes c (VStr (t ++ p)) ->
  field_from_stream E n (Field c (KString cd pad)) ctx d (at_data pre (bs ++ padding) suf)
  = (after_data pre (bs ++ padding) suf, Ok (VStr (t ++ p))).
Proof.
  intros He Hp Hs Ht. apply takes_load; auto. rewrite do_load_leaf by auto.
  rewrite (ges_declared _ _ _ _ _ Hs), <- advance_at.
  apply (string_load_eq c cd pad _ _ suf); [apply rest_at|].
  rewrite (decode_encode_app _ _ _ _ He), Hp. reflexivity.
Qed.

Lemma string_roundtrip E E' n n' c cd pad t bs ctx ctx' d d' pre suf :
  encode cd t = Ok bs -> declared_size c d (zlen bs) -> declared_size c d' (zlen bs) ->
  takes c (VStr t) ->
  field_to_stream E n (Field c (KString cd pad)) (VStr t) ctx d = (bs, Ok tt)
  /\ field_from_stream E' n' (Field c (KString cd pad)) ctx' d' (at_data pre bs suf)
     = (after_data pre bs suf, Ok (VStr t)).
Proof.
  intros He Hs Hs' Ht. split.
  - rewrite (string_to_stream _ _ _ _ _ (zlen bs)) by (auto; apply Ht).
    unfold encode_and_resize. rewrite He. cbn [bind].
    rewrite Z.sub_diag. reflexivity.
  - pose proof (string_load E' n' c cd pad ctx' d' t bs [] [] pre suf He) as H.
    rewrite !app_nil_r in H. apply H; auto. destruct cd; reflexivity.
Qed.

(** ** StringZ (C14, C15) *)
Lemma stringz_to_stream E n c cd pad t ctx d : c_size c = SNone -> accepts c (VStr t) ->
  field_to_stream E n (Field c (KStringZ cd pad)) (VStr t) ctx d
  = match encode cd (t ++ [0]) with
    | Ok bs => (bs, Ok tt)
    | Raise e => ([], Raise e)
    | OOF => ([], OOF)
    end.
Proof.
  intros Hs Ha. rewrite field_to_stream_leaf by auto. cbn [leaf_dump].
  destruct (encode cd (t ++ [0])) as [bs| |] eqn:He; try reflexivity.
  rewrite dbind_ok. apply sized_write_exact; intros; congruence.
Qed.

Lemma ges_unsized dd c k d : c_size c = SNone -> c_factory c = None ->
  c_default c = VUndefined -> oget d (c_name c) = None ->
  get_expected_size_with dd c k d = Raise (EUndefinedSize (c_name c)).
Proof.
  intros Hs Hf Hd Ho. unfold get_expected_size_with, expected_unsized, default_of.
  rewrite Hs, Ho, Hf, Hd. reflexivity.
Qed.

Lemma stringz_load_prefix E n c cd pad t bs ctx d pre suf :
  c_size c = SNone -> c_factory c = None -> c_default c = VUndefined ->
  oget d (c_name c) = None -> takes c (VStr t) ->
  Forall (fun cp => cp <> 0) t -> encode cd (t ++ [0]) = Ok bs ->
  field_from_stream E n (Field c (KStringZ cd pad)) ctx d (at_data pre bs suf)
  = (after_data pre bs suf, Ok (VStr t)).
Proof.
  intros Hs Hf Hd Ho Ht Hz He. apply takes_load; auto. rewrite do_load_leaf by auto.
  rewrite <- advance_at. apply (stringz_load_ok c cd pad _ _ t bs suf); auto.
  - apply rest_at.
  - left. exists (c_name c). apply ges_unsized; auto.
Qed.

Lemma stringz_roundtrip E E' n n' c cd pad t ctx ctx' d d' bs pre suf :
  c_size c = SNone -> c_factory c = None -> c_default c = VUndefined ->
  oget d' (c_name c) = None -> takes c (VStr t) ->
  Forall (fun cp => cp <> 0) t ->
  field_to_stream E n (Field c (KStringZ cd pad)) (VStr t) ctx d = (bs, Ok tt) ->
  (exists text, encode cd t = Ok text /\ bs = text ++ repeat 0 (unit_width cd))
  /\ field_from_stream E' n' (Field c (KStringZ cd pad)) ctx' d' (at_data pre bs suf)
     = (after_data pre bs suf, Ok (VStr t)).
Proof.
  intros Hs Hf Hd Ho Ht Hz Hdump. rewrite stringz_to_stream in Hdump by (auto; apply Ht).
  destruct (encode cd (t ++ [0])) as [b| |] eqn:He; try discriminate. injection Hdump as ->.
  split.
  - apply encode_app_inv in He. destruct He as (b1 & b2 & H1 & H2 & ->).
    rewrite encode_nul in H2. injection H2 as <-. eauto.
  - apply stringz_load_prefix; auto.
Qed.

Lemma stringz_embedded_nul E E' n n' c cd pad t u ctx ctx' d d' bs pre :
  c_size c = SNone -> c_factory c = None -> c_default c = VUndefined ->
  oget d' (c_name c) = None -> takes c (VStr t) -> accepts c (VStr (t ++ 0 :: u)) ->
  Forall (fun cp => cp <> 0) t ->
  field_to_stream E n (Field c (KStringZ cd pad)) (VStr (t ++ 0 :: u)) ctx d = (bs, Ok tt) ->
  exists first others, bs = first ++ others /\ others <> []
    /\ encode cd (t ++ [0]) = Ok first
    /\ field_from_stream E' n' (Field c (KStringZ cd pad)) ctx' d' (at_data pre first others)
       = (after_data pre first others, Ok (VStr t)).
Proof.
  intros Hs Hf Hd Ho Ht Ha Hz Hdump. rewrite stringz_to_stream in Hdump by auto.
  destruct (encode cd ((t ++ 0 :: u) ++ [0])) as [b| |] eqn:He; try discriminate.
  injection Hdump as ->.
  replace ((t ++ 0 :: u) ++ [0]) with ((t ++ [0]) ++ (u ++ [0])) in He
    by (rewrite <- !app_assoc; reflexivity).
  apply encode_app_inv in He. destruct He as (b1 & b2 & H1 & H2 & ->).
  exists b1, b2. split; [auto|]. split; [|split; [auto|]].
  - apply chars_app_inv in H2. destruct H2 as (x & y & _ & Hy & ->).
    rewrite encode_nul in Hy. injection Hy as <-. destruct cd, x; discriminate.
  - apply stringz_load_prefix; auto.
Qed.

Lemma ges_default_str dd c cd pad d dflt bs : c_size c = SNone -> c_factory c = None ->
  c_default c = VStr dflt -> oget d (c_name c) = None -> encode cd (dflt ++ [0]) = Ok bs ->
  get_expected_size_with dd c (KStringZ cd pad) d = Ok (zlen bs).
Proof.
  intros Hs Hf Hd Ho He. unfold get_expected_size_with, expected_unsized, default_of.
  rewrite Hs, Ho, Hf, Hd. cbn [bind is_undefined is_none size_for_value]. rewrite He. reflexivity.
Qed.

Lemma stringz_default_limit E n c cd pad t bs dflt dbs ctx d pre suf :
  c_size c = SNone -> c_factory c = None -> c_default c = VStr dflt ->
  oget d (c_name c) = None -> always_present c -> c_null c = VUndefined ->
  Forall (fun cp => cp <> 0) t -> encode cd (t ++ [0]) = Ok bs ->
  encode cd (dflt ++ [0]) = Ok dbs -> zlen dbs < zlen bs ->
  exists s' e, field_from_stream E n (Field c (KStringZ cd pad)) ctx d (at_data pre bs suf)
               = (s', Raise e)
    /\ (e = EDeserialization (c_name c) \/ e = EUnicodeDecode).
Proof.
  intros Hs Hf Hd Ho Hp Hn Hz He Hde Hlt.
  destruct (stringz_text_cut (c_name c) cd t bs (zlen dbs) 0 [] (at_data pre bs suf) suf
              (S (length (rest (at_data pre bs suf))))) as (s' & e & H & Hx); auto.
  - apply rest_at.
  - rewrite rest_at, app_length. lia.
  - exists s', e. split; [|exact Hx].
    assert (Hl : do_load E n (Field c (KStringZ cd pad)) ctx d (at_data pre bs suf) = (s', Raise e)).
    { rewrite do_load_leaf by auto. cbn [leaf_load].
      rewrite (ges_default_str _ _ _ _ _ _ _ Hs Hf Hd Ho Hde). exact H. }
    rewrite (load_fails _ _ _ _ _ _ _ _ _ Hp Hn Hl).
    destruct Hx as [-> | ->]; reflexivity.
Qed.

(** Within the limit the load works as usual. *)
Lemma stringz_default_within E n c cd pad t bs dflt dbs ctx d pre suf :
  c_size c = SNone -> c_factory c = None -> c_default c = VStr dflt ->
  oget d (c_name c) = None -> takes c (VStr t) ->
  Forall (fun cp => cp <> 0) t -> encode cd (t ++ [0]) = Ok bs ->
  encode cd (dflt ++ [0]) = Ok dbs -> zlen bs <= zlen dbs ->
  field_from_stream E n (Field c (KStringZ cd pad)) ctx d (at_data pre bs suf)
  = (after_data pre bs suf, Ok (VStr t)).
Proof.
  intros Hs Hf Hd Ho Ht Hz He Hde Hle. apply takes_load; auto. rewrite do_load_leaf by auto.
  rewrite <- advance_at. apply (stringz_load_ok c cd pad _ _ t bs suf); auto.
  - apply rest_at.
  - right. exists (zlen dbs). split; auto.
    apply (ges_default_str _ _ _ _ _ _ _ Hs Hf Hd Ho Hde).
Qed.

(** Sized StringZ: the text and its terminator are read, the padding is not. *)
Lemma stringz_sized_to_stream E n c cd pad size t bs ctx d :
  declared_size c d size -> accepts c (VStr t) -> encode cd (t ++ [0]) = Ok bs ->
  field_to_stream E n (Field c (KStringZ cd pad)) (VStr t) ctx d
  = if size <? zlen bs then ([], Raise (EValueSize (c_name c)))
    else if zlen bs <? size then
      match pad with
      | Some b => (bs ++ repeat b (Z.to_nat (size - zlen bs)), Ok tt)
      | None => ([], Raise (EValueSize (c_name c)))
      end
    else (bs, Ok tt).
Proof.
  intros Hs Ha He. rewrite field_to_stream_leaf by auto. cbn [leaf_dump].
  rewrite He, dbind_ok. unfold dwrite, sized_write.
  assert (Hg : match c_size c with
           | SInt z => Ok z | SNone => Ok (zlen bs)
           | SRef _ => get_expected_size E n (Field c (KStringZ cd pad)) d end = Ok size).
  { unfold get_expected_size, ges. cbn [conf kind]. rewrite (ges_declared _ _ _ _ _ Hs).
    destruct Hs as [Hs|(nm & Hs & _)]; rewrite Hs; reflexivity. }
  rewrite Hg, dbind_ok.
  replace (0 <? zlen bs - size) with (size <? zlen bs) by lia.
  destruct (size <? zlen bs); [reflexivity|].
  replace (zlen bs - size <? 0) with (zlen bs <? size) by lia.
  destruct (zlen bs <? size); [|reflexivity].
  unfold add_padding. destruct pad; [|reflexivity]. rewrite dbind_ok. reflexivity.
Qed.

Lemma stringz_sized_load E n c cd pad size t bs ctx d pre suf :
  declared_size c d size -> takes c (VStr t) ->
  Forall (fun cp => cp <> 0) t -> encode cd (t ++ [0]) = Ok bs -> zlen bs <= size ->
  field_from_stream E n (Field c (KStringZ cd pad)) ctx d (at_data pre bs suf)
  = (after_data pre bs suf, Ok (VStr t)).
Proof.
  intros Hs Ht Hz He Hle. apply takes_load; auto. rewrite do_load_leaf by auto.
  rewrite <- advance_at. apply (stringz_load_ok c cd pad _ _ t bs suf); auto.
  - apply rest_at.
  - right. exists size. split; auto. apply ges_declared; auto.
Qed.

(** ** UUID (C16) *)
Lemma uuid_to_stream E n c fmt u ctx d : c_size c = SInt (uuid_size fmt) -> accepts c (VUUID u) ->
  field_to_stream E n (Field c (KUuid fmt)) (VUUID u) ctx d = (uuid_dump fmt u, Ok tt).
Proof.
  intros Hs Ha. rewrite field_to_stream_leaf by auto. cbn [leaf_dump]. unfold dwrite.
  apply sized_write_exact.
  - intros m Hm. rewrite Hs in Hm. injection Hm as <-. apply uuid_dump_length.
  - intros; congruence.
Qed.

Lemma uuid_from_stream E n c fmt u ctx d pre suf :
  c_size c = SInt (uuid_size fmt) -> takes c (VUUID u) -> 0 <= u < 2 ^ 128 ->
  field_from_stream E n (Field c (KUuid fmt)) ctx d (at_data pre (uuid_dump fmt u) suf)
  = (after_data pre (uuid_dump fmt u) suf, Ok (VUUID u)).
Proof.
  intros Hs Ht Hu. apply takes_load; auto. rewrite do_load_leaf by auto.
  rewrite <- advance_at. apply (uuid_load_eq c fmt _ _ (uuid_dump fmt u) suf); auto. apply rest_at.
Qed.

(** ** UUID text and byte layouts *)
Lemma hex_digit_spec d : 0 <= d < 16 -> hex_digit d = nth (Z.to_nat d) hex_digits 0.
Proof.
  intros H. assert (Hd : exists k, (k < 16)%nat /\ d = Z.of_nat k) by (exists (Z.to_nat d); lia).
  destruct Hd as (k & Hk & ->). rewrite Nat2Z.id.
  do 16 (destruct k as [|k]; [reflexivity|]). lia.
Qed.

Lemma hex_be_bytes n : forall v, hex_be (2 * n) v = hex_text (rev (le_bytes n v)).
Proof.
  induction n as [|n IH]; intros v; [reflexivity|].
  replace (2 * S n)%nat with (S (S (2 * n)))%nat by lia.
  cbn [hex_be le_bytes rev]. rewrite Z.div_div by lia. change (16 * 16) with 256.
  rewrite IH. unfold hex_text. rewrite flat_map_app. cbn [flat_map]. rewrite app_nil_r.
  rewrite <- app_assoc. f_equal. unfold hex2. cbn [app].
  assert (H1 : (v mod 256) / 16 = (v / 16) mod 16) by (dmlia).
  assert (H2 : (v mod 256) mod 16 = v mod 16) by (dmlia).
  rewrite H1, H2, !hex_digit_spec by (apply Z.mod_pos_bound; lia). reflexivity.
Qed.

Lemma be_value_rev bs : be_value (rev bs) = le_value bs.
Proof.
  unfold be_value.
  induction bs as [|b bs IH]; [reflexivity|].
  cbn [rev le_value]. rewrite fold_left_app. cbn [fold_left]. rewrite IH. lia.
Qed.

Lemma uuid_layout E n c1 c2 c3 c4 u ctx d :
  c_size c1 = SInt 16 -> c_size c2 = SInt 16 -> c_size c3 = SInt 32 -> c_size c4 = SInt 36 ->
  accepts c1 (VUUID u) -> accepts c2 (VUUID u) -> accepts c3 (VUUID u) -> accepts c4 (VUUID u) ->
  0 <= u < 2 ^ 128 ->
  exists b0 b1 b2 b3 b4 b5 b6 b7 tl, length tl = 8%nat /\
    let v1 := [b0; b1; b2; b3; b4; b5; b6; b7] ++ tl in
    bytes_ok v1 /\ be_value v1 = u
    /\ field_to_stream E n (Field c1 (KUuid BINARY_VARIANT_1)) (VUUID u) ctx d = (v1, Ok tt)
    /\ field_to_stream E n (Field c2 (KUuid BINARY_VARIANT_2)) (VUUID u) ctx d
       = ([b3; b2; b1; b0; b5; b4; b7; b6] ++ tl, Ok tt)
    /\ field_to_stream E n (Field c3 (KUuid HEX_STRING)) (VUUID u) ctx d = (hex_text v1, Ok tt)
    /\ field_to_stream E n (Field c4 (KUuid CANONICAL_STRING)) (VUUID u) ctx d
       = (hex_text [b0; b1; b2; b3] ++ [45] ++ hex_text [b4; b5] ++ [45] ++ hex_text [b6; b7]
          ++ [45] ++ hex_text (firstn 2 tl) ++ [45] ++ hex_text (skipn 2 tl), Ok tt).
Proof.
  intros S1 S2 S3 S4 A1 A2 A3 A4 Hu.
  rewrite !uuid_to_stream by auto. cbn [uuid_dump].
  assert (Hlen : length (uuid_bytes u) = 16%nat)
    by (unfold uuid_bytes; rewrite rev_length, le_bytes_length; reflexivity).
  assert (Hok : bytes_ok (uuid_bytes u)) by (apply (uuid_dump_ok BINARY_VARIANT_1)).
  assert (Hv : be_value (uuid_bytes u) = u).
  { unfold uuid_bytes. rewrite be_value_rev, le_value_le_bytes. apply Z.mod_small.
    change (256 ^ Z.of_nat 16) with (2 ^ 128). auto. }
  assert (Hh : uuid_hex u = hex_text (uuid_bytes u)) by (apply (hex_be_bytes 16)).
  unfold uuid_str. rewrite Hh. clear Hh. revert Hlen Hok Hv. generalize (uuid_bytes u) as bs. intros bs Hlen Hok Hv.
  do 16 (destruct bs as [|? bs]; [discriminate|]). destruct bs; [|discriminate].
  do 9 eexists. split; [|cbn zeta; split; [|split; [|split; [|split; [|split]]]]].
  2:{ instantiate (1 := [_; _; _; _; _; _; _; _]). exact Hok. }
  all: try reflexivity. exact Hv.
Qed.

Lemma uuid_roundtrip E n c fmt u ctx d :
  c_size c = SInt (match fmt with CANONICAL_STRING => 36 | HEX_STRING => 32 | _ => 16 end) ->
  takes c (VUUID u) -> 0 <= u < 2 ^ 128 ->
  exists bs,
    field_to_stream E n (Field c (KUuid fmt)) (VUUID u) ctx d = (bs, Ok tt)
    /\ zlen bs = match fmt with CANONICAL_STRING => 36 | HEX_STRING => 32 | _ => 16 end
    /\ forall E' n' ctx' d' pre suf,
         field_from_stream E' n' (Field c (KUuid fmt)) ctx' d' (at_data pre bs suf)
         = (after_data pre bs suf, Ok (VUUID u)).
Proof.
  intros Hs Ht Hu. assert (Hs' : c_size c = SInt (uuid_size fmt)) by (rewrite Hs; destruct fmt; reflexivity).
  exists (uuid_dump fmt u). split; [|split].
  - apply uuid_to_stream; auto. apply Ht.
  - rewrite uuid_dump_length. destruct fmt; reflexivity.
  - intros. apply uuid_from_stream; auto.
Qed.
