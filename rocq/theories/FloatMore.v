(** Conversions between formats and the Float fields. *)
From Coq Require Import QArith Qpower Qabs Lqa.
From Verif Require Export FloatProofs SpecNum Spec.
From Verif Require Import Tac PyIntProofs StreamProofs StructModel FieldProofs LeafProofs LeafMore VarintSpec VarintsMore.
Open Scope Z_scope.

Definition fmt_of (i : ieee) : fformat := mkFormat (i_t i + 1) (i_w i).

Lemma fmt_half : fmt_of half = binary16. Proof. reflexivity. Qed.
Lemma fmt_single : fmt_of single = binary32. Proof. reflexivity. Qed.
Lemma fmt_double : fmt_of double = binary64. Proof. reflexivity. Qed.

Definition ieee_ok (i : ieee) : Prop := 1 <= i_t i /\ 2 <= i_w i.

Lemma ieee_format i : ieee_ok i -> format_ok (fmt_of i).
Proof. intros [H1 H2]. split; cbn; lia. Qed.

Lemma magnitude_fields i x : ieee_ok i ->
  magnitude (fmt_of i) x = exponent_field i x * 2 ^ i_t i + fraction_field i x.
Proof.
  intros [H1 H2]. unfold magnitude, ff_signbit, exponent_field, fraction_field. cbn [fmt_of ff_prec ff_ebits].
  replace (i_t i + 1 + i_w i - 1) with (i_t i + i_w i) by lia. rewrite Z.pow_add_r by lia.
  assert (0 < 2 ^ i_t i) by (apply Z.pow_pos_nonneg; lia).
  assert (0 < 2 ^ i_w i) by (apply Z.pow_pos_nonneg; lia).
  rewrite Z.rem_mul_r by lia. lia.
Qed.

Lemma fields_bounds i x : ieee_ok i -> 0 <= exponent_field i x < 2 ^ i_w i /\ 0 <= fraction_field i x < 2 ^ i_t i.
Proof.
  intros [H1 H2]. split; apply Z.mod_pos_bound; apply Z.pow_pos_nonneg; lia.
Qed.

Lemma classify_finite i x : ieee_ok i ->
  (is_finite i x <-> classify (fmt_of i) x = FFinite) /\ (is_finite i x <-> magnitude (fmt_of i) x < ff_inf (fmt_of i)).
Proof.
  intros Hi. unfold classify, is_finite. rewrite magnitude_fields by auto. pose proof (fields_bounds i x Hi) as [B1 B2].
  unfold ff_inf. cbn [fmt_of ff_prec ff_ebits]. replace (i_t i + 1 - 1) with (i_t i) by lia.
  set (ex := exponent_field i x) in *. set (fr := fraction_field i x) in *.
  assert (Hiff : ex < 2 ^ i_w i - 1 <-> ex * 2 ^ i_t i + fr < (2 ^ i_w i - 1) * 2 ^ i_t i) by nia.
  split; [|auto]. rewrite Hiff.
  destruct (Z.ltb_spec (ex * 2 ^ i_t i + fr) ((2 ^ i_w i - 1) * 2 ^ i_t i)); [tauto|].
  destruct (_ =? _); split; try lia; discriminate.
Qed.

Lemma classify_nan i x : ieee_ok i -> (is_nan i x <-> classify (fmt_of i) x = FNan).
Proof.
  intros Hi. unfold classify, is_nan. rewrite magnitude_fields by auto. pose proof (fields_bounds i x Hi) as [B1 B2].
  unfold ff_inf. cbn [fmt_of ff_prec ff_ebits]. replace (i_t i + 1 - 1) with (i_t i) by lia.
  set (ex := exponent_field i x) in *. set (fr := fraction_field i x) in *.
  destruct (Z.ltb_spec (ex * 2 ^ i_t i + fr) ((2 ^ i_w i - 1) * 2 ^ i_t i)).
  - split; [|discriminate]. intros [He Hf]. nia.
  - destruct (Z.eqb_spec (ex * 2 ^ i_t i + fr) ((2 ^ i_w i - 1) * 2 ^ i_t i)).
    + split; [|discriminate]. intros [He Hf]. nia.
    + split; auto. intros _. assert (ex = 2 ^ i_w i - 1) by nia. split; auto. nia.
Qed.

Lemma emin_bias i : ieee_ok i -> ff_emin (fmt_of i) = 1 - bias i - i_t i.
Proof. intros _. unfold ff_emin, bias. cbn [fmt_of ff_prec ff_ebits]. lia. Qed.

Lemma unpack_value i x m e : ieee_ok i -> unpack_mag (fmt_of i) (magnitude (fmt_of i) x) = (m, e) ->
  (abs_value i x == inject_Z m * two e)%Q.
Proof.
  intros Hi. pose proof (emin_bias i Hi) as Hem. pose proof (fields_bounds i x Hi) as [B1 B2].
  unfold unpack_mag. rewrite magnitude_fields by auto. cbn [fmt_of ff_prec] in *.
  replace (i_t i + 1 - 1) with (i_t i) by lia.
  rewrite Z.div_add_l, (Z.div_small (fraction_field i x)), Z.add_0_r by lia.
  rewrite Z.add_comm, Z.mod_add, (Z.mod_small (fraction_field i x)) by lia.
  unfold abs_value. destruct (exponent_field i x =? 0); intros [= <- <-].
  - unfold fmt_of in *. rewrite Hem. reflexivity.
  - unfold fmt_of in *. rewrite Hem. unfold two.
    replace (1 - bias i - i_t i + exponent_field i x - 1) with (exponent_field i x - bias i - i_t i) by lia.
    reflexivity.
Qed.

Lemma sign_magnitude i x : ieee_ok i -> pattern i x ->
  x = with_sign (fmt_of i) (sign_of (fmt_of i) x) (magnitude (fmt_of i) x).
Proof.
  intros [H1 H2] [H3 H4]. unfold with_sign, sign_of, magnitude, ff_signbit, i_bits in *. cbn [fmt_of ff_prec ff_ebits].
  replace (i_t i + 1 + i_w i - 1) with (i_t i + i_w i) by lia.
  replace (1 + i_w i + i_t i) with (Z.succ (i_t i + i_w i)) in H4 by lia. rewrite Z.pow_succ_r in H4 by lia.
  set (b := 2 ^ (i_t i + i_w i)) in *.
  destruct (Z.leb_spec b x).
  - replace (x mod b) with (x - b); [lia|]. apply (Z.mod_unique _ _ 1); lia.
  - rewrite Z.mod_small; lia.
Qed.

Lemma with_sign_split i s mag : ieee_ok i -> 0 <= mag <= ff_inf (fmt_of i) ->
  magnitude (fmt_of i) (with_sign (fmt_of i) s mag) = mag
  /\ sign_of (fmt_of i) (with_sign (fmt_of i) s mag) = s
  /\ pattern i (with_sign (fmt_of i) s mag).
Proof.
  intros [H1 H2] Hm. assert (Hlt : ff_inf (fmt_of i) < ff_signbit (fmt_of i)).
  { unfold ff_inf, ff_signbit. cbn [fmt_of ff_prec ff_ebits].
    replace (i_t i + 1 + i_w i - 1) with (i_w i + i_t i) by lia. rewrite Z.pow_add_r by lia.
    replace (i_t i + 1 - 1) with (i_t i) by lia. assert (0 < 2 ^ i_t i) by (apply Z.pow_pos_nonneg; lia). nia. }
  assert (Hb : 2 ^ i_bits i = 2 * ff_signbit (fmt_of i)).
  { unfold i_bits, ff_signbit. cbn [fmt_of ff_prec ff_ebits]. rewrite <- Z.pow_succ_r by lia. f_equal. lia. }
  unfold magnitude, sign_of, with_sign, pattern. set (b := ff_signbit (fmt_of i)) in *. destruct s.
  - split; [symmetry; apply (Z.mod_unique _ _ 1); lia|]. split; [|lia].
    destruct (Z.leb_spec b (b + mag)); auto; lia.
  - split; [apply Z.mod_small; lia|]. split; [|lia]. destruct (Z.leb_spec b mag); auto; lia.
Qed.

Lemma magnitude_nonneg i x : ieee_ok i -> 0 <= magnitude (fmt_of i) x.
Proof.
  intros [H1 H2]. unfold magnitude, ff_signbit. cbn [fmt_of ff_prec ff_ebits].
  apply Z.mod_pos_bound. apply Z.pow_pos_nonneg; lia.
Qed.

Lemma classify_inf i x : ieee_ok i -> classify (fmt_of i) x = FInf -> magnitude (fmt_of i) x = ff_inf (fmt_of i).
Proof.
  intros _. unfold classify. destruct (_ <? _); [discriminate|].
  destruct (Z.eqb_spec (magnitude (fmt_of i) x) (ff_inf (fmt_of i))); [auto|discriminate].
Qed.

Lemma classify_of_mag i x mag : ieee_ok i -> magnitude (fmt_of i) x = mag ->
  (0 <= mag < ff_inf (fmt_of i) -> classify (fmt_of i) x = FFinite)
  /\ (mag = ff_inf (fmt_of i) -> classify (fmt_of i) x = FInf).
Proof.
  intros Hi Hm. unfold classify. rewrite Hm. split; intros H.
  - destruct (Z.ltb_spec mag (ff_inf (fmt_of i))); auto; lia.
  - subst mag. rewrite H. rewrite Z.ltb_irrefl, Z.eqb_refl. auto.
Qed.

(** Identity conversion. *)
Lemma convert_same i x : ieee_ok i -> pattern i x -> ~ is_nan i x ->
  convert (fmt_of i) (fmt_of i) x = Some x.
Proof.
  intros Hi Hx Hn. unfold convert. destruct (classify (fmt_of i) x) eqn:Hc.
  - exfalso. apply Hn, classify_nan; auto.
  - apply classify_inf in Hc; auto. rewrite (sign_magnitude i x Hi Hx) at 2. rewrite Hc. reflexivity.
  - destruct (classify_finite i x Hi) as [F1 F2]. apply F1 in Hc. apply F2 in Hc.
    destruct (unpack_mag (fmt_of i) (magnitude (fmt_of i) x)) as [m e] eqn:Hu.
    destruct (dyadic m e) as [n d] eqn:Hd. apply dyadic_frac in Hd. destruct Hd as [Hd Hv].
    rewrite (round_canonical (fmt_of i) _ n d m e (ieee_format i Hi)
               (conj (magnitude_nonneg i x Hi) Hc) Hu Hd Hv).
    f_equal. symmetry. apply sign_magnitude; auto.
Qed.

(** Widening, then narrowing again, is the identity. *)
Lemma convert_widen i j x : ieee_ok i -> ieee_ok j -> wider (fmt_of i) (fmt_of j) -> pattern i x ->
  ~ is_nan i x ->
  exists y, convert (fmt_of i) (fmt_of j) x = Some y /\ pattern j y /\ ~ is_nan j y
    /\ convert (fmt_of j) (fmt_of i) y = Some x
    /\ (is_finite i x -> is_finite j y /\ (abs_value j y == abs_value i x)%Q)
    /\ sign_of (fmt_of j) y = sign_of (fmt_of i) x.
Proof.
  intros Hi Hj Hw Hx Hn. unfold convert at 1. destruct (classify (fmt_of i) x) eqn:Hc.
  - exfalso. apply Hn, classify_nan; auto.
  - pose proof (classify_inf i x Hi Hc) as Hm. pose proof (inf_pos (fmt_of j) (ieee_format j Hj)) as Hip.
    destruct (with_sign_split j (sign_of (fmt_of i) x) (ff_inf (fmt_of j)) Hj ltac:(lia)) as (W1 & W2 & W3).
    destruct (classify_of_mag j _ _ Hj W1) as [_ Hcy]. specialize (Hcy eq_refl).
    eexists. split; [reflexivity|]. split; auto. split.
    { intros Hnan. apply classify_nan in Hnan; auto. congruence. }
    split.
    { unfold convert. rewrite Hcy, W2. rewrite (sign_magnitude i x Hi Hx) at 2. rewrite Hm. reflexivity. }
    split; auto. intros Hf. apply (proj1 (classify_finite i x Hi)) in Hf. congruence.
  - destruct (classify_finite i x Hi) as [F1 F2]. pose proof (proj2 F1 Hc) as Hf. pose proof (proj1 F2 Hf) as Hlt.
    destruct (unpack_mag (fmt_of i) (magnitude (fmt_of i) x)) as [m e] eqn:Hu.
    destruct (dyadic m e) as [n d] eqn:Hd. apply dyadic_frac in Hd. destruct Hd as [Hd Hv].
    pose proof (conj (magnitude_nonneg i x Hi) Hlt) as Hmag.
    destruct (round_widen (fmt_of i) (fmt_of j) _ n d m e (ieee_format i Hi) (ieee_format j Hj) Hw
               Hmag Hu Hd Hv) as (mag' & m' & e' & Hr & Hmag' & Hu' & Hval).
    rewrite Hr.
    destruct (with_sign_split j (sign_of (fmt_of i) x) mag' Hj ltac:(lia)) as (W1 & W2 & W3).
    destruct (classify_of_mag j _ _ Hj W1) as [Hcy _]. specialize (Hcy Hmag').
    eexists. split; [reflexivity|]. split; auto. split.
    { intros Hnan. apply classify_nan in Hnan; auto. congruence. }
    split.
    { unfold convert. rewrite Hcy, W1, W2, Hu'. destruct (dyadic m' e') as [n2 d2] eqn:Hd2.
      apply dyadic_frac in Hd2. destruct Hd2 as [Hd2 Hv2].
      rewrite (round_canonical (fmt_of i) _ n2 d2 m e (ieee_format i Hi) Hmag Hu Hd2).
      - f_equal. symmetry. apply sign_magnitude; auto.
      - rewrite Hv2. auto. }
    split; auto. intros _. split; [apply (proj1 (classify_finite j _ Hj)); auto|].
    apply Qeq_trans with (inject_Z m' * two e')%Q; [apply unpack_value; auto; rewrite W1; auto|].
    apply Qeq_trans with (inject_Z m * two e)%Q; auto. apply Qeq_sym, unpack_value; auto.
Qed.

(** Overflow. *)
Lemma convert_overflow i j x : ieee_ok i -> ieee_ok j ->
  (convert (fmt_of i) (fmt_of j) x = None <-> is_finite i x /\ (overflow_bound j <= abs_value i x)%Q).
Proof.
  intros Hi Hj. unfold convert. destruct (classify_finite i x Hi) as [F1 F2].
  destruct (classify (fmt_of i) x) eqn:Hc.
  1,2: split; [discriminate|]; intros [Hf _]; apply F1 in Hf; discriminate.
  destruct (unpack_mag (fmt_of i) (magnitude (fmt_of i) x)) as [m e] eqn:Hu.
  destruct (dyadic m e) as [n d] eqn:Hd.
  assert (Hf : is_finite i x) by (apply F1; auto).
  pose proof (conj (magnitude_nonneg i x Hi) (proj1 F2 Hf)) as Hmag.
  destruct (unpack_bounds _ _ m e (ieee_format i Hi) Hmag Hu) as (Hm & _).
  assert (Hn : 0 <= n) by (apply (dyadic_nonneg m e n d Hd); lia).
  apply dyadic_frac in Hd. destruct Hd as [Hd Hv].
  pose proof (round_overflow (fmt_of j) n d (ieee_format j Hj) Hn Hd) as Ho.
  assert (Hb : (inject_Z (4 * 2 ^ (ff_prec (fmt_of j) - 1) - 1) * two (ff_etop (fmt_of j)) == 2 * overflow_bound j)%Q).
  { unfold overflow_bound, ff_etop. rewrite emin_bias by auto. cbn [fmt_of ff_prec ff_ebits].
    replace (i_t j + 1 - 1) with (i_t j) by lia. destruct Hj as [J1 J2].
    replace (2 ^ (i_t j + 2)) with (4 * 2 ^ i_t j) by (rewrite Z.pow_add_r by lia; lia).
    assert (Hbb : 2 ^ i_w j = 2 * (bias j + 1)).
    { unfold bias. replace (i_w j) with (Z.succ (i_w j - 1)) at 1 by lia. rewrite Z.pow_succ_r; lia. }
    rewrite Hbb. replace (1 - bias j - i_t j + 2 * (bias j + 1) - 3) with (1 + (bias j - i_t j - 1)) by lia.
    rewrite two_add, two_1. unfold two. ring. }
  rewrite Hb in Ho. pose proof (unpack_value i x m e Hi Hu) as Hval. rewrite <- Hv in Hval.
  destruct (round_mag (fmt_of j) n d).
  - split; [discriminate|]. intros [_ Hx]. exfalso.
    assert (Some z = None) by (apply Ho; lra). discriminate.
  - split; auto. intros _. split; auto. destruct Ho as [Ho _]. specialize (Ho eq_refl). lra.
Qed.

(** A successful conversion of a finite number gives a nearest number of the target. *)
Lemma convert_nearest i j x y : ieee_ok i -> ieee_ok j -> is_finite i x ->
  convert (fmt_of i) (fmt_of j) x = Some y ->
  pattern j y /\ is_finite j y /\ sign_of (fmt_of j) y = sign_of (fmt_of i) x
  /\ forall z, is_finite j z ->
       (Qabs (abs_value j y - abs_value i x) <= Qabs (abs_value j z - abs_value i x))%Q.
Proof.
  intros Hi Hj Hf. unfold convert. destruct (classify_finite i x Hi) as [F1 F2].
  rewrite (proj1 F1 Hf). destruct (unpack_mag (fmt_of i) (magnitude (fmt_of i) x)) as [m e] eqn:Hu.
  destruct (dyadic m e) as [n d] eqn:Hd.
  pose proof (conj (magnitude_nonneg i x Hi) (proj1 F2 Hf)) as Hmag.
  destruct (unpack_bounds _ _ m e (ieee_format i Hi) Hmag Hu) as (Hm & _).
  assert (Hn : 0 <= n) by (apply (dyadic_nonneg m e n d Hd); lia).
  apply dyadic_frac in Hd. destruct Hd as [Hd Hv].
  destruct (round_mag (fmt_of j) n d) as [mag|] eqn:Hr; [|discriminate]. intros [= <-].
  pose proof (inf_pos _ (ieee_format j Hj)) as Hinf.
  assert (H0 : exists m0 e0, unpack_mag (fmt_of j) 0 = (m0, e0))
    by (destruct (unpack_mag (fmt_of j) 0) as [m0 e0]; eauto).
  destruct H0 as (m0 & e0 & Hu0).
  destruct (round_nearest _ n d mag 0 m0 e0 (ieee_format j Hj) Hn Hd Hr ltac:(lia) Hu0) as [Hb _].
  destruct (with_sign_split j (sign_of (fmt_of i) x) mag Hj ltac:(lia)) as (W1 & W2 & W3).
  split; auto. split; [apply (proj2 (classify_finite j _ Hj)); rewrite W1; lia|]. split; auto.
  intros z Hz. destruct (unpack_mag (fmt_of j) (magnitude (fmt_of j) z)) as [mz ez] eqn:Huz.
  pose proof (conj (magnitude_nonneg j z Hj) (proj1 (proj2 (classify_finite j z Hj)) Hz)) as Hmz.
  destruct (round_nearest _ n d mag _ mz ez (ieee_format j Hj) Hn Hd Hr Hmz Huz) as (_ & m1 & e1 & Hu1 & Hle).
  pose proof (unpack_value i x m e Hi Hu) as V1. pose proof (unpack_value j z mz ez Hj Huz) as V2.
  assert (V3 : (abs_value j (with_sign (fmt_of j) (sign_of (fmt_of i) x) mag) == inject_Z m1 * two e1)%Q)
    by (apply unpack_value; auto; rewrite W1; auto).
  rewrite V1, V2, V3. rewrite <- Hv. exact Hle.
Qed.

(** ** Fields *)
Lemma half_ok : ieee_ok half. Proof. split; cbn; lia. Qed.
Lemma single_ok : ieee_ok single. Proof. split; cbn; lia. Qed.
Lemma double_ok : ieee_ok double. Proof. split; cbn; lia. Qed.

Lemma float_kind_inv i k e : float_kind i k e ->
  ieee_ok i /\ k = KFloat (fmt_of i) e /\ wider (fmt_of i) binary64 /\ ff_bytes (fmt_of i) = i_bits i / 8
  /\ 8 * (i_bits i / 8) = i_bits i /\ 0 <= i_bits i / 8.
Proof.
  intros []; (split; [split; cbn; lia|]); (split; [reflexivity|]); (split; [|vm_compute; intuition discriminate]);
    repeat split; vm_compute; intuition discriminate.
Qed.

Lemma bits_of_order e bs : bits_of e bs = le_value (order e bs).
Proof.
  destruct e; cbn; [rewrite <- be_value_rev, rev_involutive; auto|]. apply be_value_rev.
Qed.

Lemma pow256 n : 0 <= n -> 256 ^ n = 2 ^ (8 * n).
Proof. intros H. rewrite Z.pow_mul_r by lia. reflexivity. Qed.

Lemma store_bits i e x : 8 * (i_bits i / 8) = i_bits i -> 0 <= i_bits i / 8 -> pattern i x ->
  let bs := order e (le_bytes (Z.to_nat (i_bits i / 8)) x) in
  zlen bs = i_bits i / 8 /\ bytes_ok bs /\ bits_of e bs = x.
Proof.
  intros H8 H0 Hx bs. split; [|split].
  - unfold bs, zlen. rewrite order_length, le_bytes_length. lia.
  - apply order_ok, le_bytes_ok.
  - rewrite bits_of_order. unfold bs. rewrite order_involutive, le_value_le_bytes.
    rewrite Z2Nat.id by lia. rewrite pow256, H8 by lia. apply Z.mod_small. auto.
Qed.

Lemma load_bits i e bs : 8 * (i_bits i / 8) = i_bits i -> bytes_ok bs -> zlen bs = i_bits i / 8 ->
  pattern i (bits_of e bs) /\ order e (le_bytes (Z.to_nat (i_bits i / 8)) (bits_of e bs)) = bs.
Proof.
  intros H8 Hb Hl. rewrite bits_of_order. assert (Ho : bytes_ok (order e bs)) by (apply order_ok; auto).
  assert (Hlen : zlen (order e bs) = zlen bs) by (unfold zlen; rewrite order_length; auto). split.
  - unfold pattern. rewrite <- H8, <- pow256, <- Hl, <- Hlen by (rewrite <- Hl; unfold zlen; lia).
    apply le_value_bound; auto.
  - rewrite <- Hl, <- Hlen. unfold zlen. rewrite Nat2Z.id, le_bytes_le_value by auto.
    apply order_involutive.
Qed.

Lemma float_to_stream E n c i k e x ctx d : float_kind i k e -> c_size c = SInt (i_bits i / 8) ->
  accepts c (VFloat x) ->
  field_to_stream E n (Field c k) (VFloat x) ctx d
  = match convert binary64 (fmt_of i) x with
    | Some y => (order e (le_bytes (Z.to_nat (i_bits i / 8)) y), Ok tt)
    | None => ([], Raise EOverflow)
    end.
Proof.
  intros Hk Hs Ha. destruct (float_kind_inv i k e Hk) as (Hi & -> & Hw & Hbytes & H8 & H0).
  rewrite field_to_stream_leaf by auto. cbn [leaf_dump]. unfold pack_float. rewrite Hbytes.
  destruct (convert binary64 (fmt_of i) x) as [y|]; cbn [dlift dbind dwrite app]; auto.
  apply sized_write_exact; [|intros; congruence].
  intros m Hm. rewrite Hs in Hm. injection Hm as <-. unfold zlen. rewrite order_length, le_bytes_length. lia.
Qed.

Lemma float_from_stream E n c i k e x y bs ctx d pre suf : float_kind i k e -> c_size c = SInt (i_bits i / 8) ->
  takes c (VFloat y) -> zlen bs = i_bits i / 8 -> bits_of e bs = x ->
  convert (fmt_of i) binary64 x = Some y ->
  field_from_stream E n (Field c k) ctx d (at_data pre bs suf) = (after_data pre bs suf, Ok (VFloat y)).
Proof.
  intros Hk Hs Ht Hl Hx Hc. destruct (float_kind_inv i k e Hk) as (Hi & -> & Hw & Hbytes & H8 & H0).
  apply takes_load; auto. rewrite do_load_leaf by auto. cbn [leaf_load].
  unfold get_expected_size_with. rewrite Hs. rewrite <- Hl. unfold lbind.
  rewrite (read_exact_ok c bs suf) by apply rest_at. rewrite Hbytes, <- Hl, Z.eqb_refl.
  unfold lret. rewrite <- advance_at. unfold unpack_float. rewrite <- bits_of_order, Hx, Hc. reflexivity.
Qed.

Lemma double_roundtrip E n c k e x ctx d : float_kind double k e -> c_size c = SInt 8 -> takes c (VFloat x) ->
  pattern double x -> ~ is_nan double x ->
  exists bs, field_to_stream E n (Field c k) (VFloat x) ctx d = (bs, Ok tt)
    /\ zlen bs = 8 /\ bytes_ok bs /\ bits_of e bs = x
    /\ forall E' n' ctx' d' pre suf,
         field_from_stream E' n' (Field c k) ctx' d' (at_data pre bs suf)
         = (after_data pre bs suf, Ok (VFloat x)).
Proof.
  intros Hk Hs Ht Hx Hn. destruct (float_kind_inv double k e Hk) as (Hi & _ & Hw & Hbytes & H8 & H0).
  pose proof (convert_same double x Hi Hx Hn) as Hc. rewrite fmt_double in Hc.
  destruct (store_bits double e x H8 H0 Hx) as (S1 & S2 & S3).
  exists (order e (le_bytes (Z.to_nat (i_bits double / 8)) x)). split.
  - rewrite (float_to_stream E n c double k e x ctx d Hk Hs) by apply Ht. rewrite fmt_double, Hc. reflexivity.
  - split; auto. split; auto. split; auto. intros E' n' ctx' d' pre suf.
    apply (float_from_stream E' n' c double k e x x); auto.
Qed.

Lemma sign_bit_of j z : ieee_ok j -> pattern j z -> sign_bit j z = if sign_of (fmt_of j) z then 1 else 0.
Proof.
  intros [J1 J2] [Z1 Z2]. unfold sign_bit, sign_of, ff_signbit, i_bits in *. cbn [fmt_of ff_prec ff_ebits].
  replace (i_t j + 1 + i_w j - 1) with (i_w j + i_t j) by lia.
  replace (1 + i_w j + i_t j) with (Z.succ (i_w j + i_t j)) in Z2 by lia. rewrite Z.pow_succ_r in Z2 by lia.
  assert (0 < 2 ^ (i_w j + i_t j)) by (apply Z.pow_pos_nonneg; lia).
  destruct (Z.leb_spec (2 ^ (i_w j + i_t j)) z).
  - symmetry. apply (Z.div_unique _ _ _ (z - 2 ^ (i_w j + i_t j))); lia.
  - apply Z.div_small; lia.
Qed.

Lemma small_roundtrip E n c i k e bs ctx d pre suf : float_kind i k e -> c_size c = SInt (i_bits i / 8) ->
  bytes_ok bs -> zlen bs = i_bits i / 8 -> ~ is_nan i (bits_of e bs) ->
  (forall y, takes c (VFloat y)) ->
  exists y, field_from_stream E n (Field c k) ctx d (at_data pre bs suf)
            = (after_data pre bs suf, Ok (VFloat y))
    /\ pattern double y /\ ~ is_nan double y /\ sign_bit double y = sign_bit i (bits_of e bs)
    /\ (is_finite i (bits_of e bs) -> is_finite double y
          /\ (abs_value double y == abs_value i (bits_of e bs))%Q)
    /\ forall E' n' ctx' d', field_to_stream E' n' (Field c k) (VFloat y) ctx' d' = (bs, Ok tt).
Proof.
  intros Hk Hs Hb Hl Hn Ht. destruct (float_kind_inv i k e Hk) as (Hi & _ & Hw & Hbytes & H8 & H0).
  destruct (load_bits i e bs H8 Hb Hl) as [Hx Hback].
  destruct (convert_widen i double (bits_of e bs) Hi double_ok Hw Hx Hn) as (y & C1 & C2 & C3 & C4 & C5 & C6).
  rewrite fmt_double in *. exists y. split.
  - apply (float_from_stream E n c i k e (bits_of e bs) y); auto.
  - split; auto. split; auto. split.
    + rewrite (sign_bit_of double y double_ok C2), (sign_bit_of i _ Hi Hx), fmt_double, C6. reflexivity.
    + split; auto. intros E' n' ctx' d'.
      rewrite (float_to_stream E' n' c i k e y ctx' d' Hk Hs) by apply Ht. rewrite C4, Hback. reflexivity.
Qed.

Lemma float_overflow E n c i k e x ctx d : float_kind i k e -> c_size c = SInt (i_bits i / 8) ->
  accepts c (VFloat x) ->
  (field_to_stream E n (Field c k) (VFloat x) ctx d = ([], Raise EOverflow)
   <-> is_finite double x /\ (overflow_bound i <= abs_value double x)%Q)
  /\ (~ (is_finite double x /\ (overflow_bound i <= abs_value double x)%Q) ->
      exists bs, field_to_stream E n (Field c k) (VFloat x) ctx d = (bs, Ok tt) /\ zlen bs = i_bits i / 8).
Proof.
  intros Hk Hs Ha. destruct (float_kind_inv i k e Hk) as (Hi & _ & Hw & Hbytes & H8 & H0).
  rewrite (float_to_stream E n c i k e x ctx d Hk Hs Ha).
  pose proof (convert_overflow double i x double_ok Hi) as Ho. rewrite fmt_double in Ho.
  destruct (convert binary64 (fmt_of i) x) as [y|].
  - split; [split; [discriminate|intros H; apply Ho in H; discriminate]|].
    intros _. eexists. split; [reflexivity|]. unfold zlen. rewrite order_length, le_bytes_length. lia.
  - split; [split; [intros _; apply Ho; auto|auto]|]. intros H. exfalso. apply H, Ho. auto.
Qed.

Lemma float_nearest E n c i k e x bs ctx d : float_kind i k e -> c_size c = SInt (i_bits i / 8) ->
  accepts c (VFloat x) -> pattern double x -> is_finite double x ->
  field_to_stream E n (Field c k) (VFloat x) ctx d = (bs, Ok tt) ->
  is_finite i (bits_of e bs) /\ sign_bit i (bits_of e bs) = sign_bit double x
  /\ forall z, is_finite i z ->
       (Qabs (abs_value i (bits_of e bs) - abs_value double x) <= Qabs (abs_value i z - abs_value double x))%Q.
Proof.
  intros Hk Hs Ha Hx Hf H. destruct (float_kind_inv i k e Hk) as (Hi & _ & Hw & Hbytes & H8 & H0).
  rewrite (float_to_stream E n c i k e x ctx d Hk Hs Ha) in H.
  destruct (convert binary64 (fmt_of i) x) as [y|] eqn:Hc; [|discriminate]. injection H as <-.
  destruct (convert_nearest double i x y double_ok Hi Hf Hc) as (N1 & N2 & N3 & N4).
  destruct (store_bits i e y H8 H0 N1) as (_ & _ & ->). split; auto.
  split; auto. rewrite (sign_bit_of i y Hi N1), (sign_bit_of double x double_ok Hx), N3, fmt_double. reflexivity.
Qed.
