(** Values of the wrong Python type (C69). *)
From Verif Require Import Tac PyIntProofs StreamProofs FieldProofs CodecsProofs LeafProofs LeafMore FloatMore.
From Verif Require Export StructModel Spec SpecField.

(** An actual value: not None, DEFAULT or UNDEFINED, which to_stream handles itself. *)
Definition a_value (v : value) : Prop := v <> VNone /\ v <> VDefault /\ v <> VUndefined.
Definition an_int (v : value) : Prop := exists z, v = VInt z.
Definition a_float (v : value) : Prop := exists x, v = VFloat x.
Definition a_text (v : value) : Prop := exists s, v = VStr s.
Definition a_datetime (v : value) : Prop := exists us aware, v = VTime us aware.
Definition a_uuid (v : value) : Prop := exists u, v = VUUID u.
(** Things that have a length but are not bytes. *)
Inductive has_length : value -> Z -> Prop :=
| hl_str s : has_length (VStr s) (zlen s)
| hl_list l : has_length (VList l) (zlen l)
| hl_dict d : has_length (VDict d) (zlen d).
Definition lengthless (v : value) : Prop :=
  match v with VBytes _ | VStr _ | VList _ | VDict _ => False | _ => True end.

(** The exception raised for [v] by a field of kind [k]. *)
Inductive refuses (c : fconf) (d : dict) : fkind -> value -> exn -> Prop :=
| rf_int sg e n v : c_size c = SInt n -> ~ an_int v -> refuses c d (KInt sg e) v EAttrErr
| rf_int_unsized sg e v : (forall n, c_size c <> SInt n) -> refuses c d (KInt sg e) v (EUndefinedSize (c_name c))
| rf_vli fmt mx v : fmt <> LEB128 -> ~ an_int v -> ~ a_float v -> refuses c d (KVli fmt mx) v ETypeErr
| rf_leb mx v : ~ an_int v -> ~ a_float v -> refuses c d (KVli LEB128 mx) v EAttrErr
| rf_float fmt e v : ~ a_float v -> ~ an_int v -> refuses c d (KFloat fmt e) v (ESerialization (c_name c))
| rf_time r tz sg e v : ~ a_datetime v -> refuses c d (KTime r tz sg e) v EAttrErr
| rf_bytes_len n l v : declared_size c d n -> has_length v l -> l <> n -> refuses c d KBytes v (EValueSize (c_name c))
| rf_bytes n v : declared_size c d n -> has_length v n -> refuses c d KBytes v ETypeErr
| rf_bytes_nolen n v : declared_size c d n -> lengthless v -> refuses c d KBytes v ETypeErr
| rf_string cd pad v : ~ a_text v -> refuses c d (KString cd pad) v EAttrErr
| rf_stringz cd pad v : ~ a_text v -> refuses c d (KStringZ cd pad) v ETypeErr
| rf_uuid fmt v : fmt <> CANONICAL_STRING -> ~ a_uuid v -> refuses c d (KUuid fmt) v EAttrErr.

Ltac no_such H := exfalso; apply H; red; solve [eauto].

Lemma declared_ges dd c k d n : declared_size c d n -> get_expected_size_with dd c k d = Ok n.
Proof.
  unfold get_expected_size_with. intros [->|(nm & -> & ->)]; auto.
Qed.

Lemma refused E n c k v ctx d e : refuses c d k v e -> a_value v -> accepts c v ->
  field_to_stream E n (Field c k) v ctx d = ([], Raise e).
Proof.
  intros H (V1 & V2 & V3) Ha.
  assert (Hd : is_data v = true) by (destruct v; auto; congruence).
  destruct H as [sg e n0 v Hs Hv|sg e v Hs|fmt mx v Hf Hi Hx|mx v Hi Hx|fmt e v Hx Hi|r tz sg e v Hv
                |n0 l v Hs Hl Hne|n0 v Hs Hl|n0 v Hs Hl|cd pad v Hv|cd pad v Hv|fmt v Hf Hv];
    rewrite field_to_stream_leaf by auto; cbn [leaf_dump].
  - rewrite Hs. destruct v; auto. no_such Hv.
  - destruct (c_size c) as [|m|nm] eqn:Hc; auto. exfalso. eapply Hs; eauto.
  - destruct v; try no_such Hi; try no_such Hx; destruct fmt; auto; congruence.
  - destruct v; try no_such Hi; try no_such Hx; auto.
  - destruct v; try no_such Hi; try no_such Hx; auto.
  - destruct v; try no_such Hv; auto.
  - rewrite (declared_ges _ c KBytes d n0 Hs), dbind_ok.
    destruct Hl; cbn [py_len]; match goal with |- context [negb (?a =? ?b)] => replace (a =? b) with false by lia end; auto.
  - rewrite (declared_ges _ c KBytes d n0 Hs), dbind_ok.
    destruct Hl; cbn [py_len]; rewrite Z.eqb_refl; auto.
  - rewrite (declared_ges _ c KBytes d n0 Hs), dbind_ok.
    destruct v; try contradiction; auto.
  - destruct v; try no_such Hv; auto.
  - destruct v; try no_such Hv; auto.
  - destruct v; try no_such Hv; destruct fmt; auto; congruence.
Qed.

(** ** Sizes of fields without one, from the value *)
Inductive size_refused : fkind -> value -> exn -> Prop :=
| sr_vli fmt mx v : fmt <> LEB128 -> ~ an_int v -> ~ a_float v -> size_refused (KVli fmt mx) v ETypeErr
| sr_leb mx v : ~ an_int v -> ~ a_float v -> size_refused (KVli LEB128 mx) v EAttrErr
| sr_bytes v : lengthless v -> size_refused KBytes v ETypeErr
| sr_string cd pad v : ~ a_text v -> size_refused (KString cd pad) v EAttrErr
| sr_stringz cd pad v : ~ a_text v -> size_refused (KStringZ cd pad) v ETypeErr.

Lemma size_refused_raises E n c k d name v e : size_refused k v e -> v <> VNone ->
  c_size c = SNone -> c_name c = Some name -> dget d name = Some v ->
  get_expected_size E n (Field c k) d = Raise e.
Proof.
  intros H Hn Hs Hc Hd. unfold get_expected_size, ges, get_expected_size_with. cbn [conf kind]. rewrite Hs.
  unfold expected_unsized. rewrite Hc. cbn [oget]. rewrite Hd. cbn [bind].
  replace (is_none v) with false by (destruct v; auto; congruence).
  destruct H as [fmt mx v Hf Hi Hx|mx v Hi Hx|v Hl|cd pad v Hv|cd pad v Hv]; cbn [size_for_value].
  - destruct v; try no_such Hi; try no_such Hx; destruct fmt; auto; congruence.
  - destruct v; try no_such Hi; try no_such Hx; auto.
  - destruct v; try contradiction; auto.
  - destruct v; try no_such Hv; auto.
  - destruct v; try no_such Hv; auto.
Qed.

(** ** Floats given to variable-length integers *)
Definition is_zero (x : Z) : Prop := exponent_field double x = 0 /\ fraction_field double x = 0.

Lemma zero_magnitude x : (magnitude binary64 x =? 0) = true <-> is_zero x.
Proof.
  rewrite <- fmt_double, (magnitude_fields double x double_ok). unfold is_zero.
  assert (H1 : 0 <= exponent_field double x) by (unfold exponent_field; apply Z.mod_pos_bound; reflexivity).
  assert (H2 : 0 <= fraction_field double x < 2 ^ i_t double) by (unfold fraction_field; apply Z.mod_pos_bound; reflexivity).
  set (a := exponent_field double x) in *. set (b := fraction_field double x) in *.
  assert (0 < 2 ^ i_t double) by reflexivity. rewrite Z.eqb_eq. split; [intros Hx; split; nia|intros [-> ->]; lia].
Qed.

Lemma nan_class x : is_nan double x <-> classify binary64 x = FNan.
Proof.
  rewrite <- fmt_double. unfold classify. rewrite (magnitude_fields double x double_ok). unfold is_nan.
  assert (H1 : 0 <= exponent_field double x < 2048) by (unfold exponent_field; apply Z.mod_pos_bound; reflexivity).
  assert (H2 : 0 <= fraction_field double x < 2 ^ 52) by (unfold fraction_field; apply Z.mod_pos_bound; reflexivity).
  change (ff_inf (fmt_of double)) with (2047 * 2 ^ 52). change (i_t double) with 52. change (2 ^ i_w double - 1) with 2047.
  set (a := exponent_field double x) in *. set (b := fraction_field double x) in *.
  set (p := 2 ^ 52) in *. assert (0 < p) by reflexivity.
  destruct (Z.ltb_spec (a * p + b) (2047 * p)); [|destruct (Z.eqb_spec (a * p + b) (2047 * p))]; split; intros Hx; try discriminate; auto; nia.
Qed.

(** Greater or less than zero, or neither (zero, NaN). *)
Definition below_zero (x : Z) : Prop := sign_bit double x = 1 /\ ~ is_zero x /\ ~ is_nan double x.

Lemma vli_float E n c fmt mx x ctx d : c_size c = SNone -> accepts c (VFloat x) -> pattern double x ->
  (forall m, mx = Some m -> 1 <= m) ->
  let r := field_to_stream E n (Field c (KVli fmt mx)) (VFloat x) ctx d in
  (is_zero x -> r = ([0], Ok tt))
  /\ (~ is_zero x -> fmt = COMPACT_INDICES \/ fmt = LEB128 -> r = ([], Raise EAttrErr))
  /\ (fmt = VLQ \/ fmt = ULEB128 -> below_zero x -> r = ([], Raise (EUnserializable (c_name c))))
  /\ (fmt = VLQ -> ~ is_zero x -> ~ below_zero x -> r = ([], Raise EAttrErr))
  /\ (fmt = ULEB128 -> ~ is_zero x -> ~ below_zero x -> ~ is_nan double x -> r = ([], Raise ETypeErr))
  /\ (fmt = ULEB128 -> is_nan double x -> r = ([], Ok tt)).
Proof.
  intros Hs Ha Hp Hm r. unfold r. rewrite field_to_stream_leaf by auto. cbn [leaf_dump vli_encode_value].
  pose proof (zero_magnitude x) as Hz. pose proof (nan_class x) as Hn.
  pose proof (sign_bit_of double x double_ok Hp) as Hsg. rewrite fmt_double in Hsg.
  assert (Hb : below_zero x <-> (magnitude binary64 x =? 0) = false
                /\ sign_of binary64 x && match classify binary64 x with FNan => false | _ => true end = true).
  { unfold below_zero. rewrite Hsg, <- Hz, Hn. destruct (sign_of binary64 x), (classify binary64 x), (magnitude binary64 x =? 0);
      cbn; intuition (congruence || auto). }
  assert (Hw : forall bs, sized_write (get_expected_size E n (Field c (KVli fmt mx)) d) c (KVli fmt mx) bs = (bs, Ok tt)).
  { intros bs. apply sized_write_exact; intros; congruence. }
  assert (Hnz : is_zero x -> ~ is_nan double x).
  { intros [Z1 Z2] [N1 N2]. contradiction. }
  destruct (magnitude binary64 x =? 0) eqn:Hmag.
  - assert (Hzx : is_zero x) by (apply Hz; auto).
    split; [intros _|split; [tauto|split; [|split; [tauto|split; [tauto|]]]]].
    + unfold catch_value_error, dlift. cbn [dbind].
      replace (match mx with Some m => m <? zlen [0] | None => false end) with false
        by (destruct mx as [m|]; auto; specialize (Hm m eq_refl); change (zlen [0]) with 1; lia).
      unfold dwrite. cbn [app]. apply Hw.
    + intros _ Hx. apply Hb in Hx. destruct Hx; discriminate.
    + intros _ Hx. exfalso. tauto.
  - assert (Hzx : ~ is_zero x) by (rewrite <- Hz; discriminate).
    split; [tauto|]. split; [|split; [|split; [|split]]].
    + intros _ [-> | ->]; auto.
    + intros Hf Hx. apply Hb in Hx as [_ Hx]. destruct Hf as [-> | ->]; rewrite Hx; auto.
    + intros -> _ Hx. rewrite Hb in Hx.
      destruct (sign_of binary64 x && match classify binary64 x with FNan => false | _ => true end); auto.
      exfalso. tauto.
    + intros -> _ Hx Hnan. rewrite Hb in Hx. rewrite Hn in Hnan.
      destruct (sign_of binary64 x && match classify binary64 x with FNan => false | _ => true end).
      * exfalso. tauto.
      * destruct (classify binary64 x); auto. congruence.
    + intros -> Hnan. apply Hn in Hnan. rewrite Hnan, andb_false_r.
      unfold catch_value_error, dlift. cbn [dbind].
      replace (match mx with Some m => m <? zlen (@nil Z) | None => false end) with false
        by (destruct mx as [m|]; auto; specialize (Hm m eq_refl); change (zlen (@nil Z)) with 0; lia).
      unfold dwrite. cbn [app]. apply Hw.
Qed.

(** ** Anything given to a UUID field stored as canonical text *)
Lemma canonical_text E n c s ctx d : c_size c = SInt 36 -> accepts c (VStr s) ->
  field_to_stream E n (Field c (KUuid CANONICAL_STRING)) (VStr s) ctx d
  = match encode Ascii s with
    | Ok bs => if zlen bs =? 36 then (bs, Ok tt) else ([], Raise (EValueSize (c_name c)))
    | Raise e => ([], Raise e)
    | OOF => ([], OOF)
    end.
Proof.
  intros Hs Ha. rewrite field_to_stream_leaf by auto. cbn [leaf_dump].
  destruct (encode Ascii s) as [bs|e|]; auto. unfold dlift. cbn [dbind]. unfold dwrite. cbn [app].
  unfold sized_write. rewrite Hs, dbind_ok. cbv zeta.
  destruct (Z.eqb_spec (zlen bs) 36) as [He|Hne].
  - rewrite He. reflexivity.
  - destruct (Z.ltb_spec 0 (zlen bs - 36)); [reflexivity|].
    destruct (Z.ltb_spec (zlen bs - 36) 0); [reflexivity|lia].
Qed.

Lemma ascii_encode s : Forall (fun ch => 0 <= ch < 128) s -> encode Ascii s = Ok s.
Proof.
  apply ascii_chars.
Qed.

Lemma canonical_any_text E n c s ctx d : c_size c = SInt 36 -> accepts c (VStr s) ->
  Forall (fun ch => 0 <= ch < 128) s ->
  field_to_stream E n (Field c (KUuid CANONICAL_STRING)) (VStr s) ctx d
  = if zlen s =? 36 then (s, Ok tt) else ([], Raise (EValueSize (c_name c))).
Proof. intros Hs Ha H. rewrite canonical_text, (ascii_encode s H) by auto. reflexivity. Qed.
