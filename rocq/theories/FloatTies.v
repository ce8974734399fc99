(** Ties, and integers given to Float fields (C67). *)
From Coq Require Import QArith Qpower Qabs Lqa.
From Verif Require Export FloatMore.
From Verif Require Import Tac PyIntProofs StreamProofs StructModel FieldProofs LeafProofs LeafMore VarintSpec VarintsMore.
Open Scope Z_scope.

Lemma rhe_tie n d k : 0 < d -> k <> round_half_even n d ->
  Z.abs (k * d - n) = Z.abs (round_half_even n d * d - n) -> Z.even (round_half_even n d) = true.
Proof.
  intros Hd. unfold round_half_even.
  pose proof (Z.div_mod n d ltac:(lia)) as Hdm. pose proof (Z.mod_pos_bound n d Hd) as Hmb.
  set (q := n / d) in *. set (r := n mod d) in *. clearbody q r. subst n.
  destruct (Z.ltb_spec (2 * r) d); [|destruct (Z.ltb_spec d (2 * r)); [|destruct (Z.even q) eqn:Hev; auto]].
  - intros Hk He. exfalso. assert (k <= q - 1 \/ q + 1 <= k) as [Hq|Hq] by lia; nia.
  - intros Hk He. exfalso. assert (k <= q \/ q + 2 <= k) as [Hq|Hq] by lia; nia.
  - intros _ _. rewrite Z.add_1_r, Z.even_succ, <- Z.negb_even, Hev. auto.
Qed.

Lemma rhe_tie_q n d k : 0 < d -> k <> round_half_even n d ->
  (Qabs (inject_Z k - frac n d) == Qabs (inject_Z (round_half_even n d) - frac n d))%Q ->
  Z.even (round_half_even n d) = true.
Proof.
  intros Hd Hk He. apply (rhe_tie n d k Hd Hk). apply inject_Z_injective.
  rewrite <- !(Zabs_scale _ n d Hd). rewrite He. reflexivity.
Qed.

Lemma round_tie f n d mag mag2 m e m2 e2 : format_ok f -> 0 <= n -> 0 < d ->
  round_mag f n d = Some mag -> unpack_mag f mag = (m, e) ->
  0 <= mag2 < ff_inf f -> unpack_mag f mag2 = (m2, e2) ->
  (Qabs (inject_Z m * two e - frac n d) == Qabs (inject_Z m2 * two e2 - frac n d))%Q ->
  ~ (inject_Z m * two e == inject_Z m2 * two e2)%Q -> Z.even mag = true.
Proof.
  intros Hok Hn Hd Hr Hu Hmag2 Hu2 Heq Hne. pose proof (inf_pos f Hok) as Hinf.
  destruct (unpack_bounds f mag2 m2 e2 Hok Hmag2 Hu2) as (Hm2 & He2 & _).
  unfold round_mag in Hr. destruct (Z.eqb_spec n 0) as [->|Hnz].
  { injection Hr as <-. reflexivity. }
  assert (Hb : binade (frac n d) (exp_guess n d)) by (apply exp_guess_binade; lia).
  set (g := exp_guess n d) in *. set (e0 := Z.max (ff_emin f) (g - (ff_prec f - 1))) in *.
  destruct (pow2q n d e0) as [n' d'] eqn:Hpq. apply pow2q_frac in Hpq as Hv; auto. destruct Hv as [Hd' Hv].
  assert (Hn' : 0 <= n').
  { unfold pow2q in Hpq. destruct (0 <=? e0); injection Hpq as <- <-; auto.
    assert (0 <= 2 ^ (- e0)) by (apply Z.pow_nonneg; lia). nia. }
  destruct Hb as [Hb1 Hb2]. pose proof (two_pos e0) as He.
  destruct Hok as [Hp Hw].
  assert (Hh : 0 < 2 ^ (ff_prec f - 1)) by (apply Z.pow_pos_nonneg; lia).
  assert (Hhe : Z.even (2 ^ (ff_prec f - 1)) = true).
  { rewrite Z.even_pow by lia. reflexivity. }
  set (h := 2 ^ (ff_prec f - 1)) in *.
  assert (Hh2 : (two (ff_prec f - 1) == inject_Z h)%Q) by (apply two_Z; lia).
  assert (Hx1 : n' < (2 * h) * d').
  { apply frac_lt; auto. assert (Hle : (two (g + 1) <= two (1 + (ff_prec f - 1) + e0))%Q) by (apply two_le; unfold e0; lia).
    rewrite !two_add, two_1, Hh2 in Hle. rewrite inject_Z_mult. change (inject_Z 2) with 2%Q. rewrite two_add, two_1 in Hb2.
    apply (Qmult_lt_r _ _ (two e0) He). rewrite Hv. lra. }
  assert (Hx2 : ff_emin f < e0 -> h * d' <= n').
  { intros Hgt. apply frac_le; auto.
    assert (Hg : g = e0 + (ff_prec f - 1)) by (unfold e0 in *; lia).
    rewrite Hg, two_add, Hh2 in Hb1. apply (Qmult_le_r _ _ (two e0) He). rewrite Hv. lra. }
  destruct (rhe_bounds n' d' 0 (2 * h) Hd' ltac:(lia) Hx1) as [Hm0 Hm1].
  assert (Hml : ff_emin f < e0 -> h <= round_half_even n' d').
  { intros Hgt. apply (rhe_bounds n' d' h (2 * h)); auto. }
  cbv zeta in Hr. pose proof (rhe_nearest_q n' d') as Hnear. pose proof (rhe_tie_q n' d') as Htie.
  set (k := round_half_even n' d') in *.
  assert (Hee : ff_emin f <= e0) by (unfold e0; lia).
  destruct (Z.ltb_spec ((e0 - ff_emin f) * h + k) (ff_inf f)) as [Hlt|]; [|discriminate].
  injection Hr as Hmag.
  destruct (unpack_carry f e0 k mag (conj Hp Hw) Hee (conj Hm0 Hm1) Hml ltac:(auto)) as (m' & e' & Hu' & Hv').
  rewrite Hu in Hu'. injection Hu' as <- <-.
  assert (Hscale : forall j, (Qabs (inject_Z j * two e0 - frac n d) == Qabs (inject_Z j - frac n' d') * two e0)%Q).
  { intros j. rewrite <- Hv. rewrite <- (Qabs_pos (two e0)) at 3 by lra. rewrite <- Qabs_Qmult.
    apply Qabs_wd. ring. }
  rewrite Hv' in Heq, Hne.
  assert (Hk : Z.even k = true).
  { assert (Hgo : forall j, (inject_Z j * two e0 == inject_Z m2 * two e2)%Q -> Z.even k = true).
    { intros j Hj. apply (Htie j Hd').
      - intros ->. apply Hne. auto.
      - apply (Qmult_inj_r _ _ (two e0)); [lra|]. rewrite <- !Hscale. rewrite Hj. symmetry. exact Heq. }
    destruct (Z_lt_le_dec e2 e0) as [Hlt2|Hge2].
    - assert (Hgt : ff_emin f < e0) by lia. specialize (Hx2 Hgt).
      apply (frac_le h n' d' Hd') in Hx2.
      assert (Hq : (inject_Z h * two e0 <= frac n d)%Q) by (rewrite <- Hv; apply Qmult_le_r; auto).
      assert (Hv2 : (inject_Z m2 * two e2 <= inject_Z h * two e0)%Q).
      { assert (Hle : (two (e2 + 1) <= two e0)%Q) by (apply two_le; lia). rewrite two_add, two_1 in Hle.
        assert (Hmm : (inject_Z m2 <= 2 * inject_Z h)%Q).
        { change 2%Q with (inject_Z 2). rewrite <- inject_Z_mult, <- Zle_Qle.
          replace (2 * h) with (2 ^ ff_prec f); [lia|]. unfold h. rewrite <- Z.pow_succ_r by lia. f_equal. lia. }
        pose proof (two_pos e2). pose proof (inj_pos h Hh). nra. }
      apply (Hgo h).
      assert (Hgrid : (Qabs (inject_Z k * two e0 - frac n d) <= Qabs (inject_Z h * two e0 - frac n d))%Q).
      { rewrite !Hscale. apply Qmult_le_r; auto. }
      rewrite Heq in Hgrid.
      rewrite (Qabs_neg (inject_Z h * two e0 - frac n d)) in Hgrid by lra.
      rewrite (Qabs_neg (inject_Z m2 * two e2 - frac n d)) in Hgrid by lra. lra.
    - apply (Hgo (m2 * 2 ^ (e2 - e0))). symmetry. apply two_shift. auto. }
  rewrite <- Hmag, Z.even_add, Z.even_mul, Hhe, orb_true_r, Hk. reflexivity.
Qed.

Lemma even_fraction i x : ieee_ok i -> Z.even (magnitude (fmt_of i) x) = true ->
  Z.even (fraction_field i x) = true.
Proof.
  intros Hi. rewrite magnitude_fields by auto. destruct Hi as [H1 _].
  rewrite Z.even_add, Z.even_mul, (Z.even_pow 2) by lia. rewrite orb_true_r.
  destruct (Z.even (fraction_field i x)); auto.
Qed.

Lemma finite_unpack i x : ieee_ok i -> is_finite i x ->
  exists m e, unpack_mag (fmt_of i) (magnitude (fmt_of i) x) = (m, e)
    /\ 0 <= magnitude (fmt_of i) x < ff_inf (fmt_of i)
    /\ 0 <= m /\ (abs_value i x == inject_Z m * two e)%Q.
Proof.
  intros Hi Hf. destruct (classify_finite i x Hi) as [F1 F2].
  destruct (unpack_mag (fmt_of i) (magnitude (fmt_of i) x)) as [m e] eqn:Hu. exists m, e.
  pose proof (conj (magnitude_nonneg i x Hi) (proj1 F2 Hf)) as Hmag.
  destruct (unpack_bounds _ _ m e (ieee_format i Hi) Hmag Hu) as (Hm & _).
  split; auto. split; auto. split; [lia|]. apply unpack_value; auto.
Qed.

(** Rounding the positive rational [n / d]. *)
Lemma round_all i n d s mag : ieee_ok i -> 0 <= n -> 0 < d -> round_mag (fmt_of i) n d = Some mag ->
  let y := with_sign (fmt_of i) s mag in
  pattern i y /\ is_finite i y /\ sign_of (fmt_of i) y = s
  /\ (forall z, is_finite i z ->
        (Qabs (abs_value i y - frac n d) <= Qabs (abs_value i z - frac n d))%Q)
  /\ (forall z, is_finite i z ->
        (Qabs (abs_value i y - frac n d) == Qabs (abs_value i z - frac n d))%Q ->
        ~ (abs_value i y == abs_value i z)%Q -> Z.even (fraction_field i y) = true).
Proof.
  intros Hi Hn Hd Hr y. pose proof (inf_pos _ (ieee_format i Hi)) as Hinf.
  assert (H0 : exists m0 e0, unpack_mag (fmt_of i) 0 = (m0, e0))
    by (destruct (unpack_mag (fmt_of i) 0) as [m0 e0]; eauto).
  destruct H0 as (m0 & e0 & Hu0).
  destruct (round_nearest _ n d mag 0 m0 e0 (ieee_format i Hi) Hn Hd Hr ltac:(lia) Hu0) as [Hb (m & e & Hu & _)].
  destruct (with_sign_split i s mag Hi ltac:(lia)) as (W1 & W2 & W3). fold y in W1, W2, W3.
  assert (Hf : is_finite i y) by (apply (proj2 (classify_finite i _ Hi)); rewrite W1; lia).
  assert (Hv : (abs_value i y == inject_Z m * two e)%Q) by (apply unpack_value; auto; rewrite W1; auto).
  split; auto. split; auto. split; auto. split.
  - intros z Hz. destruct (finite_unpack i z Hi Hz) as (mz & ez & Huz & Hmz & _ & Hvz).
    destruct (round_nearest _ n d mag _ mz ez (ieee_format i Hi) Hn Hd Hr Hmz Huz) as (_ & m1 & e1 & Hu1 & Hle).
    rewrite Hu in Hu1. injection Hu1 as <- <-. rewrite Hv, Hvz. exact Hle.
  - intros z Hz Heq Hne. destruct (finite_unpack i z Hi Hz) as (mz & ez & Huz & Hmz & _ & Hvz).
    apply even_fraction; auto. rewrite W1.
    apply (round_tie _ n d mag _ m e mz ez (ieee_format i Hi) Hn Hd Hr Hu Hmz Huz).
    + rewrite <- Hv, <- Hvz. exact Heq.
    + rewrite <- Hv, <- Hvz. exact Hne.
Qed.

Lemma float_ties E n c i k e x bs ctx d : float_kind i k e -> c_size c = SInt (i_bits i / 8) ->
  accepts c (VFloat x) -> is_finite double x ->
  field_to_stream E n (Field c k) (VFloat x) ctx d = (bs, Ok tt) ->
  forall z, is_finite i z ->
    (Qabs (abs_value i (bits_of e bs) - abs_value double x) == Qabs (abs_value i z - abs_value double x))%Q ->
    ~ (abs_value i (bits_of e bs) == abs_value i z)%Q ->
    Z.even (fraction_field i (bits_of e bs)) = true.
Proof.
  intros Hk Hs Ha Hf H. destruct (float_kind_inv i k e Hk) as (Hi & _ & Hw & Hbytes & H8 & H0).
  rewrite (float_to_stream E n c i k e x ctx d Hk Hs Ha) in H.
  destruct (convert binary64 (fmt_of i) x) as [y|] eqn:Hc; [|discriminate]. injection H as <-.
  pose proof (finite_unpack double x double_ok Hf) as (m & ex & Hu & Hmag & Hm & Hv). rewrite fmt_double in Hu.
  unfold convert in Hc. rewrite <- fmt_double in Hc at 1. rewrite (proj1 (proj1 (classify_finite double x double_ok)) Hf) in Hc.
  rewrite Hu in Hc. destruct (dyadic m ex) as [n' d'] eqn:Hd.
  assert (Hn' : 0 <= n') by (apply (dyadic_nonneg m ex n' d' Hd); lia).
  apply dyadic_frac in Hd. destruct Hd as [Hd Hq].
  destruct (round_mag (fmt_of i) n' d') as [mag|] eqn:Hr; [|discriminate]. injection Hc as <-.
  destruct (round_all i n' d' (sign_of binary64 x) mag Hi Hn' Hd Hr) as (N1 & N2 & N3 & _ & N5).
  destruct (store_bits i e _ H8 H0 N1) as (_ & _ & ->).
  intros z Hz. rewrite Hv, <- Hq. apply N5. auto.
Qed.

(** ** Integers *)

Lemma int_frac z : (frac (Z.abs z) 1 == inject_Z (Z.abs z))%Q.
Proof. apply frac_1. Qed.

(** What [float(z)] must be. *)
Definition int_rounded (z x : Z) : Prop :=
  pattern double x /\ is_finite double x /\ sign_bit double x = (if z <? 0 then 1 else 0)
  /\ (forall y, is_finite double y ->
        (Qabs (abs_value double x - inject_Z (Z.abs z)) <= Qabs (abs_value double y - inject_Z (Z.abs z)))%Q)
  /\ (forall y, is_finite double y ->
        (Qabs (abs_value double x - inject_Z (Z.abs z)) == Qabs (abs_value double y - inject_Z (Z.abs z)))%Q ->
        ~ (abs_value double x == abs_value double y)%Q -> Z.even (fraction_field double x) = true).

Lemma float_of_int_rounded z x : float_of_int z = Some x -> int_rounded z x.
Proof.
  unfold float_of_int. destruct (round_mag binary64 (Z.abs z) 1) as [mag|] eqn:Hr; [|discriminate].
  intros [= <-]. rewrite <- fmt_double in *.
  destruct (round_all double (Z.abs z) 1 (z <? 0) mag double_ok ltac:(lia) ltac:(lia) Hr) as (N1 & N2 & N3 & N4 & N5).
  pose proof (int_frac z) as Hq. unfold int_rounded.
  split; [exact N1|]. split; [exact N2|].
  split; [rewrite (sign_bit_of double _ double_ok N1), N3; destruct (z <? 0); reflexivity|]. split.
  - intros y Hy. rewrite <- Hq. exact (N4 y Hy).
  - intros y Hy. rewrite <- Hq. exact (N5 y Hy).
Qed.

Lemma float_of_int_none z : float_of_int z = None <-> (overflow_bound double <= inject_Z (Z.abs z))%Q.
Proof.
  unfold float_of_int. pose proof (round_overflow binary64 (Z.abs z) 1 ok64 ltac:(lia) ltac:(lia)) as H.
  assert (Hb : (inject_Z (4 * 2 ^ (ff_prec binary64 - 1) - 1) * two (ff_etop binary64) <= 2 * frac (Z.abs z) 1)%Q
               <-> (overflow_bound double <= inject_Z (Z.abs z))%Q).
  { rewrite int_frac. unfold overflow_bound.
    change (4 * 2 ^ (ff_prec binary64 - 1) - 1) with (2 ^ (i_t double + 2) - 1).
    change (ff_etop binary64) with (bias double - i_t double - 1 + 1).
    change (Qpower (inject_Z 2)) with two. rewrite two_add, two_1. split; intros Hx; lra. }
  rewrite Hb in H. rewrite <- H. destruct (round_mag binary64 (Z.abs z) 1); split; intros; congruence.
Qed.

Lemma int_to_stream E n c i k e z ctx d : float_kind i k e -> c_size c = SInt (i_bits i / 8) ->
  accepts c (VInt z) ->
  field_to_stream E n (Field c k) (VInt z) ctx d
  = match float_of_int z with
    | Some x => match convert binary64 (fmt_of i) x with
                | Some y => (order e (le_bytes (Z.to_nat (i_bits i / 8)) y), Ok tt)
                | None => ([], Raise EOverflow)
                end
    | None => ([], Raise (ESerialization (c_name c)))
    end.
Proof.
  intros Hk Hs Ha. destruct (float_kind_inv i k e Hk) as (Hi & -> & Hw & Hbytes & H8 & H0).
  rewrite field_to_stream_leaf by auto. cbn [leaf_dump]. unfold pack_float. rewrite Hbytes.
  destruct (float_of_int z) as [x|]; auto.
  destruct (convert binary64 (fmt_of i) x) as [y|]; cbn [dlift dbind dwrite app]; auto.
  apply sized_write_exact; [|intros; congruence].
  intros m Hm. rewrite Hs in Hm. injection Hm as <-. unfold zlen. rewrite order_length, le_bytes_length. lia.
Qed.

Lemma int_double E n c k e z ctx d : float_kind double k e -> c_size c = SInt 8 -> accepts c (VInt z) ->
  ((overflow_bound double <= inject_Z (Z.abs z))%Q ->
     field_to_stream E n (Field c k) (VInt z) ctx d = ([], Raise (ESerialization (c_name c))))
  /\ (~ (overflow_bound double <= inject_Z (Z.abs z))%Q ->
     exists bs, field_to_stream E n (Field c k) (VInt z) ctx d = (bs, Ok tt)
       /\ zlen bs = 8 /\ bytes_ok bs /\ int_rounded z (bits_of e bs)).
Proof.
  intros Hk Hs Ha. rewrite (int_to_stream E n c double k e z ctx d Hk Hs Ha).
  pose proof (float_of_int_none z) as Hnone. pose proof (float_of_int_rounded z) as Hsome.
  destruct (float_of_int z) as [x|].
  - split; [intros Hb; apply Hnone in Hb; discriminate|]. intros _.
    pose proof (Hsome x eq_refl) as Hx. pose proof Hx as (P1 & P2 & _).
    assert (Hn : ~ is_nan double x).
    { intros [Hn _]. unfold is_finite in P2. lia. }
    assert (Hcv : convert binary64 (fmt_of double) x = Some x) by exact (convert_same double x double_ok P1 Hn).
    rewrite Hcv. destruct (float_kind_inv double k e Hk) as (_ & _ & _ & _ & H8 & H0).
    destruct (store_bits double e x H8 H0 P1) as (S1 & S2 & S3).
    eexists. split; [reflexivity|]. split; [exact S1|]. split; auto. rewrite S3. auto.
  - split; auto. intros Hb. exfalso. apply Hb. apply Hnone. auto.
Qed.

(** Narrow formats: the integer is converted to a double first. *)
Lemma int_narrow E n c i k e z ctx d : float_kind i k e -> c_size c = SInt (i_bits i / 8) ->
  accepts c (VInt z) -> (forall x, accepts c (VFloat x)) ->
  ((overflow_bound double <= inject_Z (Z.abs z))%Q ->
     field_to_stream E n (Field c k) (VInt z) ctx d = ([], Raise (ESerialization (c_name c))))
  /\ (~ (overflow_bound double <= inject_Z (Z.abs z))%Q ->
      exists x, int_rounded z x
        /\ field_to_stream E n (Field c k) (VInt z) ctx d = field_to_stream E n (Field c k) (VFloat x) ctx d).
Proof.
  intros Hk Hs Ha Hf. rewrite (int_to_stream E n c i k e z ctx d Hk Hs Ha).
  pose proof (float_of_int_none z) as Hnone. pose proof (float_of_int_rounded z) as Hsome.
  destruct (float_of_int z) as [x|].
  - split; [intros Hb; apply Hnone in Hb; discriminate|]. intros _. exists x. split; auto.
    rewrite (float_to_stream E n c i k e x ctx d Hk Hs (Hf x)). auto.
  - split; auto. intros Hb. exfalso. apply Hb. apply Hnone. auto.
Qed.

(** Integers below 2^53 in absolute value are stored exactly. *)
Lemma int_exact z x : Z.abs z < 2 ^ 53 -> int_rounded z x -> (abs_value double x == inject_Z (Z.abs z))%Q.
Proof.
  intros Hz (_ & _ & _ & Hnear & _).
  assert (Hex : exists y, is_finite double y /\ (abs_value double y == inject_Z (Z.abs z))%Q).
  { destruct (Z.eq_dec z 0) as [->|Hne].
    - exists 0. split; [vm_compute; reflexivity|vm_compute; reflexivity].
    - destruct (round_exact binary64 (Z.abs z) 1 (Z.abs z) 0 ok64 ltac:(lia)) as (He & Hr & Hu).
      + change (ff_prec binary64) with 53. lia.
      + vm_compute. discriminate.
      + rewrite int_frac. unfold two. rewrite Qpower_0_r. ring.
      + change (ff_prec binary64 - 1) with 52 in *. change (ff_emin binary64) with (-1074) in *.
        set (e' := Z.max (-1074) (Z.log2 (Z.abs z) + 0 - 52)) in *. set (b := 2 ^ 52) in *.
        assert (Hl : Z.log2 (Z.abs z) < 53) by (apply Z.log2_lt_pow2; lia).
        pose proof (Z.log2_nonneg (Z.abs z)) as Hl0.
        assert (He0 : e' = Z.log2 (Z.abs z) - 52) by (unfold e'; lia).
        assert (Hup : Z.abs z * 2 ^ (0 - e') < 2 * b).
        { destruct (Z.log2_spec (Z.abs z)) as [_ L2]; [lia|].
          apply Z.lt_le_trans with (2 ^ Z.succ (Z.log2 (Z.abs z)) * 2 ^ (0 - e')).
          - assert (0 < 2 ^ (0 - e')) by (apply Z.pow_pos_nonneg; lia). nia.
          - rewrite <- Z.pow_add_r by lia. change (2 * b) with (2 ^ 53). apply Z.pow_le_mono_r; lia. }
        assert (0 <= Z.abs z * 2 ^ (0 - e')) by (assert (0 < 2 ^ (0 - e')) by (apply Z.pow_pos_nonneg; lia); nia).
        set (bits := (e' - -1074) * b + Z.abs z * 2 ^ (0 - e')) in *.
        assert (Hb : 0 <= bits < ff_inf binary64).
        { change (ff_inf binary64) with (2047 * b). assert (0 < b) by reflexivity. unfold bits. nia. }
        destruct (with_sign_split double false bits double_ok) as (W1 & W2 & W3); [rewrite fmt_double; lia|].
        exists (with_sign (fmt_of double) false bits). split.
        * apply (proj2 (classify_finite double _ double_ok)). rewrite W1, fmt_double. lia.
        * rewrite (unpack_value double _ (Z.abs z * 2 ^ (0 - e')) e' double_ok).
          -- rewrite inject_Z_mult, <- two_Z by lia. rewrite <- Qmult_assoc, <- two_add.
             replace (0 - e' + e') with 0 by lia. rewrite two_0. ring.
          -- rewrite W1, fmt_double. auto. }
  destruct Hex as (y & Hy & Hv). specialize (Hnear y Hy).
  assert (Hd : (abs_value double y - inject_Z (Z.abs z) == 0)%Q) by (rewrite Hv; ring).
  rewrite Hd in Hnear. change (Qabs 0) with 0%Q in Hnear.
  destruct (Qlt_le_dec (abs_value double x - inject_Z (Z.abs z)) 0) as [Hc|Hc].
  - rewrite Qabs_neg in Hnear by lra. lra.
  - rewrite Qabs_pos in Hnear by lra. lra.
Qed.
