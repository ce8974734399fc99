(** Numbers a narrow Float field stores exactly, and whole seconds in Timestamps of finer
    resolution (C27, C50, C51). *)
From Coq Require Import QArith Qabs Lqa.
From Verif Require Import Tac PyIntProofs StreamProofs FieldProofs LeafProofs LeafMore FloatMore FloatTies TimeProofs.
From Verif Require Import SpecRound.
Open Scope Z_scope.

(** Finite numbers with the same absolute value have the same magnitude. *)
Lemma abs_magnitude i x y : ieee_ok i -> is_finite i x -> is_finite i y ->
  (abs_value i x == abs_value i y)%Q -> magnitude (fmt_of i) x = magnitude (fmt_of i) y.
Proof.
  intros Hi Hx Hy He.
  destruct (finite_unpack i x Hi Hx) as (m & e & Hu & Hm & Hm0 & Hv).
  destruct (finite_unpack i y Hi Hy) as (m' & e' & Hu' & Hm' & _ & Hv').
  destruct (dyadic m e) as [n d] eqn:Hd. apply dyadic_frac in Hd. destruct Hd as [Hd Hq].
  pose proof (round_canonical _ _ n d m e (ieee_format i Hi) Hm Hu Hd Hq) as R1.
  assert (Hq' : (frac n d == inject_Z m' * two e')%Q).
  { rewrite Hq, <- Hv, He. exact Hv'. }
  pose proof (round_canonical _ _ n d m' e' (ieee_format i Hi) Hm' Hu' Hd Hq') as R2.
  congruence.
Qed.

Lemma number_unique x y : pattern double x -> pattern double y -> ~ is_nan double x -> ~ is_nan double y ->
  sign_bit double x = sign_bit double y ->
  is_finite double x /\ is_finite double y /\ (abs_value double x == abs_value double y)%Q
  \/ ~ is_finite double x /\ ~ is_finite double y -> x = y.
Proof.
  intros Px Py Nx Ny Hs H. rewrite (sign_magnitude double x double_ok Px), (sign_magnitude double y double_ok Py).
  rewrite !sign_bit_of in Hs by (auto; apply double_ok).
  assert (Hsg : sign_of (fmt_of double) x = sign_of (fmt_of double) y).
  { destruct (sign_of (fmt_of double) x), (sign_of (fmt_of double) y); auto; discriminate. }
  rewrite Hsg. f_equal. destruct H as [(Fx & Fy & He)|[Fx Fy]].
  - apply abs_magnitude; auto. apply double_ok.
  - assert (Hinf : forall z, ~ is_nan double z -> ~ is_finite double z ->
       magnitude (fmt_of double) z = ff_inf (fmt_of double)).
    { intros z Hn Hf. apply classify_inf; [apply double_ok|].
      destruct (classify (fmt_of double) z) eqn:Hc; auto.
      - destruct Hn. apply classify_nan; auto. apply double_ok.
      - destruct Hf. apply (proj1 (classify_finite double z double_ok)). auto. }
    rewrite !Hinf by auto. reflexivity.
Qed.

(** A double some pattern of the format stands for is converted to this pattern, and back. *)
Lemma narrow_convert i k e x y : float_kind i k e -> same_number i y x ->
  convert binary64 (fmt_of i) x = Some y /\ convert (fmt_of i) binary64 y = Some x.
Proof.
  intros Hk (Py & Px & Ny & Nx & Hsg & Hv).
  destruct (float_kind_inv i k e Hk) as (Hi & _ & Hw & Hbytes & H8 & H0).
  destruct (convert_widen i double y Hi double_ok Hw Py Ny) as (z & C1 & C2 & C3 & C4 & C5 & C6).
  assert (Hf : ~ is_finite i y -> ~ is_finite double z).
  { intros Hy. unfold convert in C1. destruct (classify (fmt_of i) y) eqn:Hc.
    - destruct Ny. apply classify_nan; auto.
    - injection C1 as <-. pose proof (inf_pos _ (ieee_format double double_ok)) as Hip.
      destruct (with_sign_split double (sign_of (fmt_of i) y) (ff_inf (fmt_of double)) double_ok ltac:(lia)) as (W1 & _).
      destruct (classify_of_mag double _ _ double_ok W1) as [_ Hcy]. specialize (Hcy eq_refl).
      intros F. apply (proj1 (classify_finite double _ double_ok)) in F. congruence.
    - destruct Hy. apply (proj1 (classify_finite i y Hi)). auto. }
  assert (x = z).
  { apply number_unique; auto.
    - rewrite Hsg, (sign_bit_of i y Hi Py), (sign_bit_of double z double_ok C2), C6. reflexivity.
    - destruct Hv as [(F1 & F2 & He)|[F1 F2]]; [left|right; auto].
      destruct (C5 F1) as [Fz Hz]. split; auto. split; auto. rewrite He, Hz. reflexivity. }
  subst z. rewrite fmt_double in *. auto.
Qed.

(** It is stored as this pattern and loads back. *)
Lemma narrow_roundtrip E n c i k e x y ctx d : float_kind i k e -> c_size c = SInt (i_bits i / 8) ->
  accepts c (VFloat x) -> same_number i y x ->
  exists bs, field_to_stream E n (Field c k) (VFloat x) ctx d = (bs, Ok tt)
    /\ zlen bs = i_bits i / 8 /\ bytes_ok bs /\ bits_of e bs = y
    /\ forall E' n' ctx' d' pre suf, takes c (VFloat x) ->
         field_from_stream E' n' (Field c k) ctx' d' (at_data pre bs suf)
         = (after_data pre bs suf, Ok (VFloat x)).
Proof.
  intros Hk Hs Ha Hn. destruct (narrow_convert i k e x y Hk Hn) as [C4 C1]. destruct Hn as (Py & _).
  destruct (float_kind_inv i k e Hk) as (Hi & _ & Hw & Hbytes & H8 & H0).
  destruct (store_bits i e y H8 H0 Py) as (S1 & S2 & S3).
  exists (order e (le_bytes (Z.to_nat (i_bits i / 8)) y)). split.
  - rewrite (float_to_stream E n c i k e x ctx d Hk Hs) by auto. rewrite C4. reflexivity.
  - split; auto. split; auto. split; auto. intros E' n' ctx' d' pre suf Ht.
    apply (float_from_stream E' n' c i k e y x); auto.
Qed.

(** A double operation whose exact result is 64 times an integer below 2^53 is exact. *)
Lemma rnd64_exact_64 n d k : 0 < d -> n = k * 64 * d -> Z.abs k < 2 ^ 53 ->
  exists b, rnd64 (n, d) = Some (k * 64 * b, b) /\ 0 < b.
Proof.
  intros Hd Hn Hk. unfold rnd64.
  assert (Habs : Z.abs n = Z.abs k * 64 * d) by (subst n; rewrite !Z.abs_mul; lia).
  destruct (Z.eq_dec k 0) as [->|Hnz].
  { replace n with 0 by lia. cbn [Z.abs]. unfold round_mag. rewrite Z.eqb_refl.
    exists (2 ^ 1074). split; [vm_compute; reflexivity|apply Z.pow_pos_nonneg; lia]. }
  assert (Hv : (frac (Z.abs n) d == inject_Z (Z.abs k) * two 6)%Q).
  { replace (two 6) with (inject_Z 64) by reflexivity. rewrite <- inject_Z_mult. apply frac_eq; auto. }
  destruct (round_exact binary64 (Z.abs n) d (Z.abs k) 6 ok64 Hd ltac:(cbn [binary64 ff_prec]; lia)
              ltac:(vm_compute; discriminate) Hv) as (H1 & H2 & H3).
  set (e' := Z.max (ff_emin binary64) (Z.log2 (Z.abs k) + 6 - (ff_prec binary64 - 1))) in *.
  set (bits := (e' - ff_emin binary64) * 2 ^ (ff_prec binary64 - 1) + Z.abs k * 2 ^ (6 - e')) in *.
  assert (Hlog : Z.log2 (Z.abs k) < 53) by (apply Z.log2_lt_pow2; lia).
  assert (Hlog0 : 0 <= Z.log2 (Z.abs k)) by apply Z.log2_nonneg.
  assert (Hemin : ff_emin binary64 = -1074) by reflexivity.
  assert (He' : e' = Z.log2 (Z.abs k) - 46) by (unfold e'; rewrite Hemin; cbn [binary64 ff_prec]; lia).
  destruct (Z.log2_spec (Z.abs k)) as [L1 L2]; [lia|].
  assert (Hup : Z.abs k * 2 ^ (6 - e') < 2 ^ 53).
  { apply Z.lt_le_trans with (2 ^ Z.succ (Z.log2 (Z.abs k)) * 2 ^ (6 - e')).
    - assert (0 < 2 ^ (6 - e')) by (apply Z.pow_pos_nonneg; lia). nia.
    - rewrite <- Z.pow_add_r by lia. apply Z.pow_le_mono_r; lia. }
  assert (Hb : bits < ff_inf binary64).
  { unfold bits. rewrite Hemin. cbn [binary64 ff_prec] in *. change (53 - 1) with 52.
    change (ff_inf binary64) with (2047 * 2 ^ 52).
    assert ((e' - -1074) * 2 ^ 52 <= 1080 * 2 ^ 52) by nia. lia. }
  rewrite H2. destruct (Z.ltb_spec bits (ff_inf binary64)); [|lia]. rewrite H3.
  assert (Hpow : 2 ^ (6 - e') * 2 ^ e' = 64 \/ e' < 0).
  { assert (0 <= e' \/ e' < 0) as [He|He] by lia; auto. left. rewrite <- Z.pow_add_r by lia.
    replace (6 - e' + e') with 6 by lia. reflexivity. }
  unfold dyadic. destruct (Z.leb_spec 0 e') as [He|He].
  - exists 1. split; [|lia]. destruct Hpow as [Hpow|]; [|lia].
    rewrite <- Z.mul_assoc, Hpow, !Z.mul_1_r. destruct (Z.ltb_spec n 0).
    + f_equal. f_equal. assert (k < 0) by nia. lia.
    + f_equal. f_equal. assert (0 <= k) by nia. lia.
  - assert (Hp : 0 < 2 ^ (- e')) by (apply Z.pow_pos_nonneg; lia).
    exists (2 ^ (- e')). split; auto. replace (6 - e') with (6 + - e') by lia.
    rewrite Z.pow_add_r by lia. change (2 ^ 6) with 64.
    destruct (Z.ltb_spec n 0).
    + f_equal. f_equal. assert (k < 0) by nia. replace (Z.abs k) with (- k) by lia. lia.
    + f_equal. f_equal. assert (0 <= k) by nia. replace (Z.abs k) with k by lia. lia.
Qed.

Lemma whole_exact r s : r = ResMs \/ r = ResUs -> min_datetime_us <= s * 1000000 <= max_datetime_us ->
  forall n d, 0 < d -> n = s * res_units r * d ->
  exists b, rnd64 (n, d) = Some (s * res_units r * b, b) /\ 0 < b.
Proof.
  intros Hr Hs n d Hd Hn. assert (Hb : Z.abs s < 300000000000) by (unfold min_datetime_us, max_datetime_us in *; lia).
  destruct Hr as [-> | ->]; cbn [res_units] in *.
  - apply rnd64_exact; auto. assert (300000000000000 < 2 ^ 53) by reflexivity. lia.
  - replace (s * 1000000) with (s * 15625 * 64) in * by lia. apply rnd64_exact_64; auto.
    assert (300000000000 * 15625 < 2 ^ 53) by reflexivity. lia.
Qed.

Lemma to_int_whole r s aware : r = ResMs \/ r = ResUs -> first_datetime_us aware <= s * 1000000 <= max_datetime_us ->
  time_to_int r (s * 1000000) aware = Ok (s * res_units r).
Proof.
  intros Hr Hs'. pose proof (conj (Z.le_trans _ _ _ (first_min aware) (proj1 Hs')) (proj2 Hs')) as Hs.
  pose proof (date_seconds s Hs) as H53. unfold time_to_int.
  assert (Ht : exists b, py_timestamp (s * 1000000) aware = Ok (s * b, b) /\ 0 < b).
  { unfold py_timestamp. destruct aware.
    - destruct (rnd64_exact (s * 1000000) 1000000 s ltac:(lia) eq_refl H53) as (b & -> & Hb). exists b. auto.
    - replace (s * 1000000 <? first_datetime_us false) with false by (symmetry; apply Z.ltb_ge; apply Hs').
      rewrite Z.div_mul, Z.mod_mul by lia.
      destruct (rnd64_exact 0 1000000 0 ltac:(lia) eq_refl ltac:(reflexivity)) as (b & -> & Hb).
      cbn [opt_res bind]. unfold radd. cbn [fst snd].
      destruct (rnd64_exact (s * b + 0 * b * 1) (1 * b) s ltac:(lia) ltac:(lia) H53) as (b' & -> & Hb').
      exists b'. auto. }
  destruct Ht as (b & -> & Hb). cbn [bind]. unfold rmul. cbn [fst snd].
  destruct (whole_exact r s Hr Hs (s * b * res_units r) (b * 1) ltac:(lia) ltac:(lia)) as (b' & -> & Hb').
  cbn [opt_res bind]. rewrite rtrunc_int; auto.
Qed.

Lemma of_int_whole r s aware : r = ResMs \/ r = ResUs -> first_datetime_us aware <= s * 1000000 <= max_datetime_us ->
  time_of_int r aware (s * res_units r) = Ok (s * 1000000).
Proof.
  intros Hr Hs'. pose proof (conj (Z.le_trans _ _ _ (first_min aware) (proj1 Hs')) (proj2 Hs')) as Hs.
  pose proof (date_seconds s Hs) as H53. unfold time_of_int.
  destruct (whole_exact r s Hr Hs (s * res_units r) 1 ltac:(lia) ltac:(lia)) as (b & Hb1 & Hb).
  assert (Hu : 0 < res_units r) by (destruct Hr as [-> | ->]; reflexivity).
  assert (Hx : exists b', (do v <- opt_res (rnd64 (s * res_units r, 1));
                           opt_res (rnd64 (rdiv v (res_units r, 1)))) = Ok (s * b', b') /\ 0 < b').
  { rewrite Hb1. cbn [opt_res bind]. unfold rdiv. cbn [fst snd].
    destruct (rnd64_exact (s * res_units r * b * 1) (b * res_units r) s ltac:(nia) ltac:(lia) H53) as (b' & -> & Hb').
    exists b'. auto. }
  destruct Hx as (b' & Hx & Hb').
  assert (Hgo : py_fromtimestamp (s * b', b') aware = Ok (s * 1000000)).
  { unfold py_fromtimestamp. rewrite Z.quot_mul, Z.rem_mul by lia. unfold rmul. cbn [fst snd].
    destruct (rnd64_exact (0 * 1000000) (b' * 1) 0 ltac:(lia) ltac:(lia) ltac:(reflexivity)) as (b2 & -> & Hb2).
    cbn [opt_res bind]. unfold round_half_even_signed.
    replace (0 * b2 <? 0) with false by lia.
    assert (Hz : round_half_even (0 * b2) b2 = 0).
    { apply rhe_exact; auto. apply frac_eq; lia. }
    rewrite Hz, Z.add_0_r.
    replace ((first_datetime_us aware <=? s * 1000000) && (s * 1000000 <=? max_datetime_us)) with true; auto.
    symmetry. rewrite andb_true_iff, !Z.leb_le. auto. }
  destruct Hr as [-> | ->]; rewrite Hx; cbn [bind]; exact Hgo.
Qed.

(** Whole seconds come back unchanged through any resolution but nanoseconds. *)
Lemma whole_roundtrip E fuel c r tz sg e n s aware ctx d bs : r = ResMs \/ r = ResUs -> c_size c = SInt n ->
  is_datetime aware (s * 1000000) -> accepts c (VTime (s * 1000000) aware) ->
  field_to_stream E fuel (Field c (KTime r tz sg e)) (VTime (s * 1000000) aware) ctx d = (bs, Ok tt) ->
  zlen bs = n
  /\ forall E' fuel' ctx' d' pre suf, is_datetime tz (s * 1000000) -> takes c (VTime (s * 1000000) tz) ->
       field_from_stream E' fuel' (Field c (KTime r tz sg e)) ctx' d' (at_data pre bs suf)
       = (after_data pre bs suf, Ok (VTime (s * 1000000) tz)).
Proof.
  intros Hr Hs Hdt Ha. apply datetime_range in Hdt.
  rewrite (time_to_stream _ _ _ _ _ _ _ n _ _ (s * res_units r)) by (auto; apply to_int_whole; auto).
  destruct (py_to_bytes (s * res_units r) n e sg) as [b|x|] eqn:Hb; intros H; try discriminate. injection H as ->.
  destruct (py_to_bytes_ok _ _ _ _ _ Hb) as (_ & _ & Hl & _). split; auto.
  intros E' fuel' ctx' d' pre suf Ht Htk. apply datetime_range in Ht.
  apply (time_from_stream _ _ c r tz sg e n _ (s * res_units r)); auto. apply of_int_whole; auto.
Qed.

Lemma whole_stored E fuel c r u tz sg e n s aware ctx d : time_unit r u -> c_size c = SInt n ->
  is_datetime aware (s * 1000000) -> accepts c (VTime (s * 1000000) aware) -> (forall z, accepts c (VInt z)) ->
  field_to_stream E fuel (Field c (KTime r tz sg e)) (VTime (s * 1000000) aware) ctx d
  = field_to_stream E fuel (Field c (KInt sg e)) (VInt (s * 1000000 / u)) ctx d.
Proof.
  intros Hu Hs Hdt Ha Hi. apply datetime_range in Hdt.
  assert (Hr : r = ResMs \/ r = ResUs) by (destruct Hu; auto).
  replace (s * 1000000 / u) with (s * res_units r).
  - eapply time_stores; eauto. apply to_int_whole; auto.
  - destruct Hu; cbn [res_units]; [|rewrite Z.div_1_r; lia].
    replace (s * 1000000) with (s * 1000 * 1000) by lia. rewrite Z.div_mul; lia.
Qed.
