(** Timestamps. *)
From Coq Require Import QArith Qpower Qabs Lqa.
From Verif Require Export FloatMore.
From Verif Require Import Tac PyIntProofs StreamProofs StructModel FieldProofs LeafProofs LeafMore
  VarintSpec VarintsMore.
Open Scope Z_scope.

(** A double operation whose exact result is an integer below 2^53 is exact. *)
Lemma rnd64_exact n d k : 0 < d -> n = k * d -> Z.abs k < 2 ^ 53 ->
  exists b, rnd64 (n, d) = Some (k * b, b) /\ 0 < b.
Proof.
  intros Hd Hn Hk. unfold rnd64.
  assert (Habs : Z.abs n = Z.abs k * d) by (subst n; rewrite Z.abs_mul; lia).
  destruct (Z.eq_dec k 0) as [->|Hnz].
  { replace n with 0 by lia. cbn [Z.abs]. unfold round_mag. rewrite Z.eqb_refl.
    exists (2 ^ 1074). split; [vm_compute; reflexivity|apply Z.pow_pos_nonneg; lia]. }
  assert (Hv : (frac (Z.abs n) d == inject_Z (Z.abs k) * two 0)%Q).
  { rewrite two_0, Qmult_1_r. apply frac_eq; auto. }
  destruct (round_exact binary64 (Z.abs n) d (Z.abs k) 0 ok64 Hd ltac:(cbn [binary64 ff_prec]; lia)
              ltac:(vm_compute; discriminate) Hv) as (H1 & H2 & H3).
  set (e' := Z.max (ff_emin binary64) (Z.log2 (Z.abs k) + 0 - (ff_prec binary64 - 1))) in *.
  set (bits := (e' - ff_emin binary64) * 2 ^ (ff_prec binary64 - 1) + Z.abs k * 2 ^ (0 - e')) in *.
  assert (Hlog : Z.log2 (Z.abs k) < 53) by (apply Z.log2_lt_pow2; lia).
  assert (Hlog0 : 0 <= Z.log2 (Z.abs k)) by apply Z.log2_nonneg.
  assert (Hemin : ff_emin binary64 = -1074) by reflexivity.
  assert (He' : e' = Z.log2 (Z.abs k) - 52) by (unfold e'; rewrite Hemin; cbn [binary64 ff_prec]; lia).
  destruct (Z.log2_spec (Z.abs k)) as [L1 L2]; [lia|].
  assert (Hup : Z.abs k * 2 ^ (0 - e') < 2 ^ 53).
  { apply Z.lt_le_trans with (2 ^ Z.succ (Z.log2 (Z.abs k)) * 2 ^ (0 - e')).
    - assert (0 < 2 ^ (0 - e')) by (apply Z.pow_pos_nonneg; lia). nia.
    - rewrite <- Z.pow_add_r by lia. apply Z.pow_le_mono_r; lia. }
  assert (Hb : bits < ff_inf binary64).
  { unfold bits. rewrite Hemin. cbn [binary64 ff_prec] in *. change (53 - 1) with 52.
    change (ff_inf binary64) with (2047 * 2 ^ 52).
    assert ((e' - -1074) * 2 ^ 52 <= 1074 * 2 ^ 52) by nia. lia. }
  rewrite H2. destruct (Z.ltb_spec bits (ff_inf binary64)); [|lia]. rewrite H3.
  unfold dyadic. destruct (Z.leb_spec 0 e') as [He|He].
  - assert (e' = 0) by lia. rewrite H0. exists 1. split; [|lia].
    cbn [Z.sub Z.opp]. rewrite Z.sub_0_r, Z.pow_0_r, !Z.mul_1_r.
    destruct (Z.ltb_spec n 0).
    + f_equal. f_equal. assert (k < 0) by nia. lia.
    + f_equal. f_equal. assert (0 <= k) by nia. lia.
  - assert (Hp : 0 < 2 ^ (- e')) by (apply Z.pow_pos_nonneg; lia).
    exists (2 ^ (- e')). split; auto. replace (0 - e') with (- e') by lia.
    destruct (Z.ltb_spec n 0).
    + f_equal. f_equal. assert (k < 0) by nia. replace (Z.abs k) with (- k) by lia. lia.
    + f_equal. f_equal. assert (0 <= k) by nia. replace (Z.abs k) with k by lia. lia.
Qed.

Lemma rtrunc_int k b : 0 < b -> rtrunc (k * b, b) = k.
Proof. intros Hb. unfold rtrunc. cbn [fst snd]. apply Z.quot_mul. lia. Qed.

Lemma first_min aware : min_datetime_us <= first_datetime_us aware.
Proof. destruct aware; unfold first_datetime_us, min_datetime_us; lia. Qed.

(** Dates are far below 2^53 seconds. *)
Lemma date_seconds s : min_datetime_us <= s * 1000000 <= max_datetime_us -> Z.abs s < 2 ^ 53.
Proof. unfold min_datetime_us, max_datetime_us. intros H. assert (Z.abs s < 300000000000) by lia.
  assert (300000000000 < 2 ^ 53) by reflexivity. lia. Qed.

Lemma to_int_seconds s aware : first_datetime_us aware <= s * 1000000 <= max_datetime_us ->
  time_to_int ResS (s * 1000000) aware = Ok s.
Proof.
  intros Hr. pose proof (date_seconds s (conj (Z.le_trans _ _ _ (first_min aware) (proj1 Hr)) (proj2 Hr))) as Hs.
  unfold time_to_int.
  assert (Ht : exists b, py_timestamp (s * 1000000) aware = Ok (s * b, b) /\ 0 < b).
  { unfold py_timestamp. destruct aware.
    - destruct (rnd64_exact (s * 1000000) 1000000 s ltac:(lia) eq_refl Hs) as (b & -> & Hb). exists b. auto.
    - replace (s * 1000000 <? first_datetime_us false) with false by (symmetry; apply Z.ltb_ge; apply Hr).
      rewrite Z.div_mul, Z.mod_mul by lia.
      destruct (rnd64_exact 0 1000000 0 ltac:(lia) eq_refl ltac:(reflexivity)) as (b & -> & Hb).
      cbn [opt_res bind]. unfold radd. cbn [fst snd].
      destruct (rnd64_exact (s * b + 0 * b * 1) (1 * b) s ltac:(lia) ltac:(lia) Hs) as (b' & -> & Hb').
      exists b'. auto. }
  destruct Ht as (b & -> & Hb). cbn [bind]. unfold rmul. cbn [fst snd res_units].
  destruct (rnd64_exact (s * b * 1) (b * 1) s ltac:(lia) ltac:(lia) Hs) as (b' & -> & Hb').
  cbn [opt_res bind]. rewrite rtrunc_int; auto.
Qed.

Lemma of_int_seconds s aware : first_datetime_us aware <= s * 1000000 <= max_datetime_us ->
  time_of_int ResS aware s = Ok (s * 1000000).
Proof.
  intros Hr. pose proof (date_seconds s (conj (Z.le_trans _ _ _ (first_min aware) (proj1 Hr)) (proj2 Hr))) as Hs.
  unfold time_of_int.
  destruct (rnd64_exact s 1 s ltac:(lia) ltac:(lia) Hs) as (b & -> & Hb). cbn [opt_res bind].
  unfold py_fromtimestamp. rewrite Z.quot_mul, Z.rem_mul by lia. unfold rmul. cbn [fst snd].
  destruct (rnd64_exact (0 * 1000000) (b * 1) 0 ltac:(lia) ltac:(lia) ltac:(reflexivity)) as (b' & -> & Hb').
  cbn [opt_res bind]. unfold round_half_even_signed.
  replace (0 * b' <? 0) with false by lia.
  assert (Hz : round_half_even (0 * b') b' = 0).
  { apply rhe_exact; auto. apply frac_eq; lia. }
  rewrite Hz, Z.add_0_r.
  replace ((first_datetime_us aware <=? s * 1000000) && (s * 1000000 <=? max_datetime_us)) with true; auto.
  symmetry. rewrite andb_true_iff, !Z.leb_le. auto.
Qed.

(** Rounding to a double: absolute and relative error. *)
Lemma rnd64_error n d : 0 <= n -> 0 < d -> (frac n d < two 1000)%Q ->
  exists n' d', rnd64 (n, d) = Some (n', d') /\ 0 <= n' /\ 0 < d'
    /\ (Qabs (frac n' d' - frac n d) <= frac n d * two (-53) + two (-1075))%Q.
Proof.
  intros Hn Hd Hup. unfold rnd64. replace (Z.abs n) with n by lia.
  replace (n <? 0) with false by lia. unfold round_mag.
  pose proof (two_pos (-53)) as T53. pose proof (two_pos (-1075)) as T1075.
  destruct (Z.eqb_spec n 0) as [->|Hnz].
  { exists 0, (2 ^ 1074). split; [vm_compute; reflexivity|]. split; [lia|].
    split; [apply Z.pow_pos_nonneg; lia|].
    assert (Hz : forall b, 0 < b -> (frac 0 b == inject_Z 0)%Q) by (intros; apply frac_eq; lia).
    rewrite !Hz by (try apply Z.pow_pos_nonneg; lia).
    assert ((Qabs (inject_Z 0 - inject_Z 0) == 0)%Q) as -> by reflexivity.
    change (inject_Z 0) with 0%Q. lra. }
  pose proof (exp_guess_binade n d ltac:(lia) Hd) as Hg. set (g := exp_guess n d) in *.
  destruct Hg as [G1 G2]. change (ff_prec binary64 - 1) with 52. change (ff_emin binary64) with (-1074).
  set (e := Z.max (-1074) (g - 52)).
  destruct (pow2q n d e) as [n' d'] eqn:Hp. apply pow2q_frac in Hp; auto. destruct Hp as [Hd' Hp].
  set (m := round_half_even n' d').
  assert (Hg1000 : g < 1000) by (apply two_lt; lra).
  pose proof (two_pos e) as Te. pose proof (frac_pos n d ltac:(lia) Hd) as Hq.
  assert (Hlo : 0 <= n').
  { assert (Hx : (0 < frac n' d')%Q) by (apply (Qmult_lt_r _ _ (two e)); auto; rewrite Hp; lra).
    pose proof (frac_mul n' d' Hd') as F1. pose proof (inj_pos d' Hd') as F2.
    assert (F3 : (0 < inject_Z n')%Q) by (rewrite <- F1; apply Qmult_lt_0_compat; auto).
    change 0%Q with (inject_Z 0) in F3. rewrite <- Zlt_Qlt in F3. lia. }
  assert (Hhi : n' < 2 ^ 53 * d').
  { apply (proj1 (frac_lt (2 ^ 53) n' d' Hd')).
    assert ((frac n' d' * two e < two 53 * two e)%Q).
    { rewrite Hp, <- two_add. eapply Qlt_le_trans; [apply G2|]. apply two_le. unfold e. lia. }
    rewrite <- (two_Z 53) by lia. apply (Qmult_lt_r _ _ (two e)); auto. }
  assert (Hm : 0 <= m <= 2 ^ 53) by (apply rhe_bounds; auto; lia).
  assert (Hmlow : -1074 < e -> 2 ^ 52 <= m).
  { intros He. apply (rhe_bounds n' d' (2 ^ 52) (2 ^ 53)); auto.
    apply (proj1 (frac_le (2 ^ 52) n' d' Hd')).
    rewrite <- (two_Z 52) by lia. apply (Qmult_le_r _ _ (two e)); auto.
    rewrite Hp, <- two_add. replace (52 + e) with g by (unfold e in *; lia). auto. }
  destruct (unpack_carry binary64 e m ((e - -1074) * 2 ^ 52 + m) ok64) as (m' & e' & U1 & U2).
  { cbn [binary64 ff_prec]. change (ff_emin binary64) with (-1074). unfold e. lia. }
  { cbn [binary64 ff_prec]. change (2 * 2 ^ (53 - 1)) with (2 ^ 53). lia. }
  { exact Hmlow. }
  { reflexivity. }
  assert (Hb : (e - -1074) * 2 ^ 52 + m < ff_inf binary64).
  { change (ff_inf binary64) with (2047 * 2 ^ 52). assert (e < 1000) by (unfold e; lia).
    change (2 ^ 53) with (2 * 2 ^ 52) in Hm. nia. }
  destruct (Z.ltb_spec ((e - -1074) * 2 ^ 52 + m) (ff_inf binary64)); [|lia].
  rewrite U1. destruct (dyadic m' e') as [n2 d2] eqn:Hdy.
  pose proof (dyadic_frac m' e' n2 d2 Hdy) as [Hd2 Hv].
  exists n2, d2. split; auto.
  assert (Hval : (frac n2 d2 == inject_Z m * two e)%Q) by (rewrite Hv; auto).
  assert (Hmq : (0 <= inject_Z m)%Q) by (change 0%Q with (inject_Z 0); rewrite <- Zle_Qle; lia).
  split.
  { pose proof (frac_mul n2 d2 Hd2) as F1. pose proof (inj_pos d2 Hd2) as F2.
    assert (F3 : (0 <= inject_Z n2)%Q).
    { rewrite <- F1, Hval. repeat apply Qmult_le_0_compat; auto; apply Qlt_le_weak; auto. }
    change 0%Q with (inject_Z 0) in F3. rewrite <- Zle_Qle in F3. auto. }
  split; auto.
  assert (Hhalf : (Qabs (inject_Z m - frac n' d') <= 1 # 2)%Q).
  { pose proof (Zabs_scale m n' d' Hd') as Hs. pose proof (inj_pos d' Hd') as Hdp.
    apply (Qmult_le_r _ _ (inject_Z d')); auto. rewrite Hs.
    assert (Hz : 2 * Z.abs (m * d' - n') <= d').
    { pose proof (rhe_nearest n' d' (n' / d') Hd') as N1. pose proof (rhe_nearest n' d' (n' / d' + 1) Hd') as N2.
      fold m in N1, N2. pose proof (Z.div_mod n' d' ltac:(lia)). pose proof (Z.mod_pos_bound n' d' Hd'). nia. }
    rewrite Zle_Qle, inject_Z_mult in Hz. change (inject_Z 2) with 2%Q in Hz. lra. }
  assert (Heq : (frac n2 d2 - frac n d == (inject_Z m - frac n' d') * two e)%Q) by (rewrite Hval, <- Hp; ring).
  rewrite Heq, Qabs_Qmult, (Qabs_pos (two e)) by lra.
  assert (Htwo : (two e <= 2 * (frac n d * two (-53) + two (-1075)))%Q).
  { assert (Hd1 : (two (-1074) == 2 * two (-1075))%Q) by (rewrite <- two_1, <- two_add; reflexivity).
    destruct (Z_le_gt_dec (g - 52) (-1074)).
    - replace e with (-1074) by (unfold e; lia). rewrite Hd1. nra.
    - replace e with (g + (1 + -53)) by (unfold e; lia).
      rewrite (two_add g (1 + -53)), (two_add 1 (-53)), two_1. nra. }
  pose proof (Qabs_nonneg (inject_Z m - frac n' d')). nra.
Qed.

Lemma two_53 : (two (-53) == 1 # 9007199254740992)%Q. Proof. reflexivity. Qed.
Lemma two_1075 : (two (-1075) <= 1 # 9007199254740992)%Q.
Proof. rewrite <- two_53. apply two_le. lia. Qed.
Lemma two_1000 : (inject_Z (2 ^ 63) <= two 1000)%Q.
Proof. rewrite <- (two_Z 63) by lia. apply two_le. lia. Qed.

Lemma Qabs_bounds x e : (Qabs x <= e)%Q -> (- e <= x <= e)%Q.
Proof. intros H. apply Qabs_Qle_condition. auto. Qed.

Lemma frac_bounds_trunc n d k : 0 <= n -> 0 < d -> (inject_Z k - 1 < frac n d)%Q ->
  (frac n d < inject_Z k + 1)%Q -> Z.quot n d = k \/ Z.quot n d = k - 1.
Proof.
  intros Hn Hd H1 H2. rewrite Z.quot_div_nonneg by lia.
  assert (n < (k + 1) * d).
  { apply (proj1 (frac_lt (k + 1) n d Hd)). rewrite inject_Z_plus. auto. }
  assert ((k - 1) * d <= n).
  { apply (proj1 (frac_le (k - 1) n d Hd)). unfold Zminus. rewrite inject_Z_plus.
    change (inject_Z (- (1))) with (- (1))%Q. apply Qlt_le_weak. exact H1. }
  assert (n / d < k + 1) by (apply Z.div_lt_upper_bound; lia).
  assert (k - 1 <= n / d) by (apply Z.div_le_lower_bound; lia). lia.
Qed.

Lemma rhe_close n d k : 0 < d -> (Qabs (frac n d - inject_Z k) < 1 # 2)%Q -> round_half_even n d = k.
Proof.
  intros Hd H.
  assert (Hz : 2 * Z.abs (k * d - n) < d).
  { pose proof (Zabs_scale k n d Hd) as Hs. pose proof (inj_pos d Hd) as Hp.
    rewrite Qabs_Qminus in H. apply (Qmult_lt_r _ _ (inject_Z d)) in H; auto. rewrite Hs in H.
    rewrite Zlt_Qlt, inject_Z_mult. change (inject_Z 2) with 2%Q. lra. }
  pose proof (rhe_nearest n d k Hd). nia.
Qed.

Lemma frac_Q n d : (frac n d == inject_Z n / inject_Z d)%Q \/ d <= 0.
Proof.
  destruct (Z_lt_le_dec 0 d) as [H|H]; [left|right; auto].
  pose proof (frac_mul n d H) as Hm. pose proof (inj_pos d H). rewrite <- Hm. field. lra.
Qed.

Lemma frac_prod a b c d : 0 < b -> 0 < d -> (frac (a * c) (b * d) == frac a b * frac c d)%Q.
Proof.
  intros Hb Hd. pose proof (inj_pos b Hb). pose proof (inj_pos d Hd).
  destruct (frac_Q (a * c) (b * d)) as [->|]; [|nia].
  destruct (frac_Q a b) as [->|]; [|lia]. destruct (frac_Q c d) as [->|]; [|lia].
  rewrite !inject_Z_mult. field. split; lra.
Qed.

(** Truncation loses at most one unit. *)
Lemma to_int_fine r us k : (r = ResMs \/ r = ResUs) -> us * res_units r = k * 1000000 ->
  0 <= us <= 4000000000000000 ->
  time_to_int r us true = Ok k \/ time_to_int r us true = Ok (k - 1) /\ 0 < k.
Proof.
  intros Hr Hk Hus. unfold time_to_int, py_timestamp. set (U := res_units r) in *.
  assert (HU : 0 < U <= 1000000) by (destruct Hr; subst r; cbn in U; unfold U; lia).
  assert (Hk0 : 0 <= k <= 4000000000000000) by nia.
  set (q := frac us 1000000).
  assert (Hq : (q * inject_Z U == inject_Z k)%Q).
  { assert (HH : (frac (us * U) 1000000 == inject_Z k)%Q) by (apply frac_eq; lia).
    rewrite <- HH. unfold q. replace 1000000 with (1000000 * 1) at 2 by lia.
    rewrite frac_prod by lia. rewrite frac_1. reflexivity. }
  assert (HUq : (1 <= inject_Z U <= 1000000)%Q).
  { change 1%Q with (inject_Z 1). change 1000000%Q with (inject_Z 1000000). rewrite <- !Zle_Qle. lia. }
  assert (Hkq : (0 <= inject_Z k <= 4000000000000000)%Q).
  { change 0%Q with (inject_Z 0). change 4000000000000000%Q with (inject_Z 4000000000000000).
    rewrite <- !Zle_Qle. lia. }
  assert (Hq0 : (0 <= q)%Q) by nra.
  assert (Hqk : (q <= inject_Z k)%Q) by nra.
  pose proof two_1000 as T. change (inject_Z (2 ^ 63)) with 9223372036854775808%Q in T.
  destruct (rnd64_error us 1000000 ltac:(lia) ltac:(lia)) as (n1 & d1 & E1 & P1 & D1 & B1); [fold q; lra|].
  rewrite E1. cbn [opt_res bind]. unfold rmul. cbn [fst snd].
  fold q in B1. apply Qabs_bounds in B1. rewrite two_53 in B1. pose proof two_1075 as T2. pose proof (two_pos (-1075)) as T2p.
  set (eps := two (-1075)) in *. set (t := frac n1 d1) in *.
  assert (Hp1 : (frac (n1 * U) (d1 * 1) == t * inject_Z U)%Q).
  { rewrite frac_prod by lia. rewrite frac_1. reflexivity. }
  assert (HtU1 : (t * inject_Z U <= inject_Z k * (1 + (1 # 9007199254740992)) + eps * inject_Z U)%Q) by nra.
  assert (HtU2 : (inject_Z k * (1 - (1 # 9007199254740992)) - eps * inject_Z U <= t * inject_Z U)%Q) by nra.
  assert (HeU : (eps * inject_Z U <= 1 # 9007199254)%Q) by nra.
  destruct (rnd64_error (n1 * U) (d1 * 1) ltac:(nia) ltac:(lia)) as (n2 & d2 & E2 & P2 & D2 & B2); [rewrite Hp1; lra|].
  rewrite E2. cbn [opt_res bind]. unfold rtrunc. cbn [fst snd].
  apply Qabs_bounds in B2. rewrite Hp1, two_53 in B2. fold eps in B2.
  pose proof (Z.quot_pos n2 d2 P2 D2) as Hqp.
  destruct (frac_bounds_trunc n2 d2 k P2 D2) as [Hk1|Hk1]; [lra|lra| |]; rewrite Hk1 in *; auto.
  right. split; auto. lia.
Qed.

Lemma of_int_fine r aware us k : (r = ResMs \/ r = ResUs) -> us * res_units r = k * 1000000 ->
  0 <= us <= 4000000000000000 -> time_of_int r aware k = Ok us.
Proof.
  intros Hr Hk Hus. unfold time_of_int. set (U := res_units r) in *.
  assert (HU : 0 < U <= 1000000) by (destruct Hr; subst r; cbn in U; unfold U; lia).
  assert (Hk0 : 0 <= k <= 4000000000000000) by nia.
  destruct (rnd64_exact k 1 k ltac:(lia) ltac:(lia)) as (b & Hb & Hbp).
  { rewrite Z.abs_eq by lia. assert (4000000000000000 < 2 ^ 53) by reflexivity. lia. }
  assert (Hm : match r with
          | ResS => opt_res (rnd64 (k, 1))
          | _ => do v <- opt_res (rnd64 (k, 1)); opt_res (rnd64 (rdiv v (U, 1)))
          end = opt_res (rnd64 (rdiv (k * b, b) (U, 1)))).
  { rewrite Hb. destruct Hr; subst r; reflexivity. }
  rewrite Hm. clear Hm. unfold rdiv. cbn [fst snd].
  set (q := frac us 1000000).
  assert (Hqf : (frac (k * b * 1) (b * U) == q)%Q).
  { unfold q. pose proof (inj_pos b Hbp). pose proof (inj_pos U (proj1 HU)).
    destruct (frac_Q (k * b * 1) (b * U)) as [->|]; [|nia].
    destruct (frac_Q us 1000000) as [->|]; [|lia].
    assert (HH : (inject_Z us * inject_Z U == inject_Z k * inject_Z 1000000)%Q) by (rewrite <- !inject_Z_mult, Hk; reflexivity).
    rewrite !inject_Z_mult. change (inject_Z 1) with 1%Q. change (inject_Z 1000000) with 1000000%Q in *.
    assert (Hus' : (inject_Z us == inject_Z k * 1000000 / inject_Z U)%Q) by (rewrite <- HH; field; lra).
    rewrite Hus'. field. split; lra. }
  assert (Hq : (q * 1000000 == inject_Z us)%Q) by (apply (frac_mul us 1000000); lia).
  assert (Husq : (0 <= inject_Z us <= 4000000000000000)%Q).
  { change 0%Q with (inject_Z 0). change 4000000000000000%Q with (inject_Z 4000000000000000).
    rewrite <- !Zle_Qle. lia. }
  pose proof two_1000 as T. change (inject_Z (2 ^ 63)) with 9223372036854775808%Q in T.
  destruct (rnd64_error (k * b * 1) (b * U) ltac:(nia) ltac:(nia)) as (n1 & d1 & E1 & P1 & D1 & B1).
  { rewrite Hqf. lra. }
  rewrite E1. cbn [opt_res bind]. unfold py_fromtimestamp, rmul. cbn [fst snd].
  rewrite Z.quot_div_nonneg, Z.rem_mod_nonneg by lia.
  pose proof (Z.div_mod n1 d1 ltac:(lia)) as Hdm. pose proof (Z.mod_pos_bound n1 d1 D1) as Hmb.
  set (ip := n1 / d1) in *. set (rm := n1 mod d1) in *.
  apply Qabs_bounds in B1. rewrite Hqf, two_53 in B1.
  pose proof two_1075 as T2. pose proof (two_pos (-1075)) as T2p. set (eps := two (-1075)) in *.
  set (x := frac n1 d1) in *. set (fp := frac rm d1).
  assert (Hx : (x == inject_Z ip + fp)%Q).
  { unfold x, fp. pose proof (inj_pos d1 D1). destruct (frac_Q n1 d1) as [->|]; [|lia].
    destruct (frac_Q rm d1) as [->|]; [|lia]. rewrite Hdm, inject_Z_plus, inject_Z_mult. field. lra. }
  assert (Hfp : (0 <= fp /\ fp < 1)%Q).
  { unfold fp. split.
    - change 0%Q with (inject_Z 0). apply (proj2 (frac_le 0 rm d1 D1)). lia.
    - change 1%Q with (inject_Z 1). apply (proj2 (frac_lt 1 rm d1 D1)). lia. }
  assert (Hp1 : (frac (rm * 1000000) (d1 * 1) == fp * 1000000)%Q).
  { rewrite frac_prod by lia. rewrite frac_1. reflexivity. }
  destruct (rnd64_error (rm * 1000000) (d1 * 1) ltac:(nia) ltac:(lia)) as (n2 & d2 & E2 & P2 & D2 & B2); [rewrite Hp1; lra|].
  rewrite E2. cbn [opt_res bind]. unfold round_half_even_signed.
  replace (n2 <? 0) with false by lia.
  apply Qabs_bounds in B2. rewrite Hp1, two_53 in B2. fold eps in B2.
  rewrite (rhe_close n2 d2 (us - ip * 1000000)); auto.
  - replace (ip * 1000000 + (us - ip * 1000000)) with us by lia.
    replace ((first_datetime_us aware <=? us) && (us <=? max_datetime_us)) with true; auto.
    symmetry. rewrite andb_true_iff, !Z.leb_le. unfold first_datetime_us, min_datetime_us, max_datetime_us. destruct aware; lia.
  - unfold Zminus at 1. rewrite inject_Z_plus, inject_Z_opp, inject_Z_mult.
    change (inject_Z 1000000) with 1000000%Q.
    apply Qle_lt_trans with (45 # 100)%Q; [|reflexivity].
    apply Qabs_Qle_condition. split; lra.
Qed.

(** What a Timestamp field writes and reads, given the integer in between. *)
Lemma time_to_stream E fuel c r tz sg e n us aware k ctx d : c_size c = SInt n -> accepts c (VTime us aware) ->
  time_to_int r us aware = Ok k ->
  field_to_stream E fuel (Field c (KTime r tz sg e)) (VTime us aware) ctx d
  = match py_to_bytes k n e sg with
    | Ok bs => (bs, Ok tt)
    | _ => ([], Raise (EUnserializable (c_name c)))
    end.
Proof.
  intros Hs Ha Hk. rewrite field_to_stream_leaf by auto. cbn [leaf_dump]. rewrite Hk. cbn [dlift dbind].
  unfold get_expected_size_with. rewrite Hs. cbn [dlift dbind app].
  unfold write_int, dlift, dwrite, dbind. destruct (py_to_bytes k n e sg) as [bs|x|] eqn:Hb.
  - cbn [catch_value_error app]. apply sized_write_exact; [|intros; congruence].
    intros m Hm. pose proof (py_to_bytes_ok _ _ _ _ _ Hb) as (_ & _ & Hl & _). congruence.
  - revert Hb. unfold py_to_bytes. destruct (n <? 0); [intros [= <-]; reflexivity|].
    destruct (fits sg n k); [discriminate|intros [= <-]; reflexivity].
  - exfalso. revert Hb. unfold py_to_bytes. destruct (n <? 0); [discriminate|].
    destruct (fits sg n k); discriminate.
Qed.

Lemma time_from_stream E fuel c r tz sg e n us k bs ctx d pre suf : c_size c = SInt n -> takes c (VTime us tz) ->
  py_to_bytes k n e sg = Ok bs -> time_of_int r tz k = Ok us ->
  field_from_stream E fuel (Field c (KTime r tz sg e)) ctx d (at_data pre bs suf)
  = (after_data pre bs suf, Ok (VTime us tz)).
Proof.
  intros Hs Ht Hb Hus. apply takes_load; auto. rewrite do_load_leaf by auto. cbn [leaf_load].
  destruct (py_to_bytes_ok _ _ _ _ _ Hb) as (_ & _ & Hl & _). subst n.
  unfold get_expected_size_with. rewrite Hs. unfold lbind, llift.
  rewrite (read_int_ok _ bs suf) by apply rest_at. rewrite (py_from_to_bytes _ _ _ _ _ Hb), Hus.
  unfold lret. rewrite advance_at. reflexivity.
Qed.

(** ** Field level *)
Lemma time_stores E fuel c r tz sg e n us aware k ctx d : c_size c = SInt n -> accepts c (VTime us aware) ->
  accepts c (VInt k) -> time_to_int r us aware = Ok k ->
  field_to_stream E fuel (Field c (KTime r tz sg e)) (VTime us aware) ctx d
  = field_to_stream E fuel (Field c (KInt sg e)) (VInt k) ctx d.
Proof. intros Hs Ha Hi Hk. rewrite (time_to_stream _ _ _ _ _ _ _ n _ _ k) by auto. symmetry. apply int_to_stream; auto. Qed.

Lemma datetime_range aware us : is_datetime aware us -> first_datetime_us aware <= us <= max_datetime_us.
Proof. unfold is_datetime, first_datetime_us, min_datetime_us, max_datetime_us. destruct aware; lia. Qed.

Lemma seconds_roundtrip E fuel c tz sg e n s aware ctx d :
  c_size c = SInt n -> 0 <= n -> accepts c (VTime (s * 1000000) aware) -> is_datetime aware (s * 1000000) ->
  (int_range sg n s ->
   exists bs, field_to_stream E fuel (Field c (KTime ResS tz sg e)) (VTime (s * 1000000) aware) ctx d = (bs, Ok tt)
     /\ zlen bs = n
     /\ forall E' fuel' ctx' d' pre suf, is_datetime tz (s * 1000000) -> takes c (VTime (s * 1000000) tz) ->
          field_from_stream E' fuel' (Field c (KTime ResS tz sg e)) ctx' d' (at_data pre bs suf)
          = (after_data pre bs suf, Ok (VTime (s * 1000000) tz)))
  /\ (~ int_range sg n s ->
      field_to_stream E fuel (Field c (KTime ResS tz sg e)) (VTime (s * 1000000) aware) ctx d
      = ([], Raise (EUnserializable (c_name c)))).
Proof.
  intros Hs Hn Ha Hr. apply datetime_range in Hr.
  rewrite (time_to_stream _ _ _ _ _ _ _ n _ _ s) by (auto; apply to_int_seconds; auto).
  destruct (py_to_bytes s n e sg) as [bs|x|] eqn:Hb.
  - destruct (py_to_bytes_ok _ _ _ _ _ Hb) as (_ & Hf & Hl & _). apply fits_range in Hf. split; [|tauto].
    intros _. exists bs. split; auto. split; auto. intros E' fuel' ctx' d' pre suf Ht Htk.
    apply datetime_range in Ht.
    apply (time_from_stream _ _ c ResS tz sg e n _ s); auto. apply of_int_seconds; auto.
  - split; auto. intros Hf. exfalso. apply fits_range in Hf. revert Hb. unfold py_to_bytes.
    rewrite Hf. destruct (Z.ltb_spec n 0); [lia|discriminate].
  - split; auto. intros Hf. exfalso. apply fits_range in Hf. revert Hb. unfold py_to_bytes.
    rewrite Hf. destruct (Z.ltb_spec n 0); [lia|discriminate].
Qed.

(** Finer resolutions: at most one unit is lost. *)
Lemma fine_roundtrip E fuel c r tz sg e n us k ctx d bs :
  (r = ResMs \/ r = ResUs) -> us * res_units r = k * 1000000 -> 0 <= us <= 4000000000000000 ->
  c_size c = SInt n -> accepts c (VTime us true) ->
  field_to_stream E fuel (Field c (KTime r tz sg e)) (VTime us true) ctx d = (bs, Ok tt) ->
  zlen bs = n
  /\ exists us', (us' = us \/ us' = us - 1000000 / res_units r)
     /\ forall E' fuel' ctx' d' pre suf, takes c (VTime us' tz) ->
          field_from_stream E' fuel' (Field c (KTime r tz sg e)) ctx' d' (at_data pre bs suf)
          = (after_data pre bs suf, Ok (VTime us' tz)).
Proof.
  intros Hr Hk Hus Hs Ha.
  assert (Hgo : forall k' us', time_to_int r us true = Ok k' -> us' * res_units r = k' * 1000000 ->
     0 <= us' <= 4000000000000000 ->
     field_to_stream E fuel (Field c (KTime r tz sg e)) (VTime us true) ctx d = (bs, Ok tt) ->
     zlen bs = n /\ forall E' fuel' ctx' d' pre suf, takes c (VTime us' tz) ->
          field_from_stream E' fuel' (Field c (KTime r tz sg e)) ctx' d' (at_data pre bs suf)
          = (after_data pre bs suf, Ok (VTime us' tz))).
  { intros k' us' Ht Hk' Hus' H. rewrite (time_to_stream _ _ _ _ _ _ _ n _ _ k') in H by auto.
    destruct (py_to_bytes k' n e sg) as [b|x|] eqn:Hb; try discriminate. injection H as ->.
    destruct (py_to_bytes_ok _ _ _ _ _ Hb) as (_ & _ & Hl & _). split; auto. intros.
    apply (time_from_stream _ _ c r tz sg e n us' k'); auto. apply of_int_fine; auto. }
  intros H. destruct (to_int_fine r us k Hr Hk Hus) as [Ht|[Ht Hpos]].
  - destruct (Hgo k us Ht Hk Hus H) as [Hl Hload]. split; auto. exists us. split; auto.
  - destruct (Hgo (k - 1) (us - 1000000 / res_units r) Ht) as [Hl Hload]; auto.
    + destruct Hr; subst r; cbn [res_units] in *; [change (1000000 / 1000) with 1000|change (1000000 / 1000000) with 1]; lia.
    + destruct Hr; subst r; cbn [res_units] in *; [change (1000000 / 1000) with 1000|change (1000000 / 1000000) with 1]; lia.
    + split; auto. exists (us - 1000000 / res_units r). auto.
Qed.

Lemma fine_refuted :
  ~ (forall r us, (r = ResMs \/ r = ResUs) -> (us * res_units r) mod 1000000 = 0 -> 0 <= us ->
     forall bs, field_to_stream [] 0 (Field (basic "x" (SInt 8)) (KTime r true true Little)) (VTime us true) VNone [] = (bs, Ok tt) ->
     field_from_stream [] 0 (Field (basic "x" (SInt 8)) (KTime r true true Little)) VNone [] (at_data [] bs [])
     = (after_data [] bs [], Ok (VTime us true))).
Proof. intros H. specialize (H ResUs 1001 (or_intror eq_refl) eq_refl ltac:(lia) [232; 3; 0; 0; 0; 0; 0; 0] eq_refl). vm_compute in H. discriminate H. Qed.

(** In terms of the length of a unit. *)
Lemma unit_fine r u us k : time_unit r u -> us = k * u -> (r = ResMs \/ r = ResUs)
  /\ us * res_units r = k * 1000000 /\ 1000000 / res_units r = u.
Proof. intros H ->. destruct H; cbn [res_units]; (split; [auto|split; [lia|reflexivity]]). Qed.

Lemma fine_loss E fuel c r u tz sg e n us k ctx d bs :
  time_unit r u -> us = k * u -> 0 <= us <= 4000000000000000 ->
  c_size c = SInt n -> accepts c (VTime us true) ->
  field_to_stream E fuel (Field c (KTime r tz sg e)) (VTime us true) ctx d = (bs, Ok tt) ->
  zlen bs = n
  /\ exists us', (us' = us \/ us' = us - u)
     /\ forall E' fuel' ctx' d' pre suf, takes c (VTime us' tz) ->
          field_from_stream E' fuel' (Field c (KTime r tz sg e)) ctx' d' (at_data pre bs suf)
          = (after_data pre bs suf, Ok (VTime us' tz)).
Proof.
  intros Hu Hk Hus Hs Ha H. destruct (unit_fine _ _ _ _ Hu Hk) as (Hr & Hk' & <-).
  eapply fine_roundtrip; eauto.
Qed.

Lemma fine_stored E fuel c r u tz sg e n us k ctx d :
  time_unit r u -> us = k * u -> 0 <= us <= 4000000000000000 ->
  c_size c = SInt n -> accepts c (VTime us true) -> (forall z, accepts c (VInt z)) ->
  exists k', (k' = k \/ k' = k - 1)
    /\ field_to_stream E fuel (Field c (KTime r tz sg e)) (VTime us true) ctx d
       = field_to_stream E fuel (Field c (KInt sg e)) (VInt k') ctx d.
Proof.
  intros Hu Hk Hus Hs Ha Hi. destruct (unit_fine _ _ _ _ Hu Hk) as (Hr & Hk' & _).
  destruct (to_int_fine r us k Hr Hk' Hus) as [Ht|[Ht _]].
  - exists k. split; auto. eapply time_stores; eauto.
  - exists (k - 1). split; auto. eapply time_stores; eauto.
Qed.

Lemma seconds_stored E fuel c tz sg e n s aware ctx d : c_size c = SInt n ->
  accepts c (VTime (s * 1000000) aware) -> accepts c (VInt s) -> is_datetime aware (s * 1000000) ->
  field_to_stream E fuel (Field c (KTime ResS tz sg e)) (VTime (s * 1000000) aware) ctx d
  = field_to_stream E fuel (Field c (KInt sg e)) (VInt s) ctx d.
Proof.
  intros Hs Ha Hi Hr. eapply time_stores; eauto. apply to_int_seconds. apply datetime_range. auto.
Qed.

Lemma fine_loaded E fuel c r u tz sg e n us k bs ctx d : time_unit r u -> us = k * u ->
  0 <= us <= 4000000000000000 -> c_size c = SInt n -> accepts c (VInt k) ->
  field_to_stream E fuel (Field c (KInt sg e)) (VInt k) ctx d = (bs, Ok tt) ->
  forall E' fuel' ctx' d' pre suf, takes c (VTime us tz) ->
  field_from_stream E' fuel' (Field c (KTime r tz sg e)) ctx' d' (at_data pre bs suf)
  = (after_data pre bs suf, Ok (VTime us tz)).
Proof.
  intros Hu Hk Hus Hs Hi H E' fuel' ctx' d' pre suf Ht. destruct (unit_fine _ _ _ _ Hu Hk) as (Hr & Hk' & _).
  rewrite (int_to_stream _ _ _ _ _ n) in H by auto.
  destruct (py_to_bytes k n e sg) as [b|x|] eqn:Hb; try discriminate. injection H as ->.
  apply (time_from_stream _ _ c r tz sg e n us k); auto. apply of_int_fine; auto.
Qed.
