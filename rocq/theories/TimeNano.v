(** Timestamps of nanosecond resolution. *)
From Coq Require Import QArith Qpower Qabs Lqa.
From Verif Require Export TimeProofs.
From Verif Require Import Tac PyIntProofs StreamProofs StructModel FieldProofs LeafProofs LeafMore
  VarintSpec VarintsMore.
Open Scope Z_scope.

(** Rounding a number below 2^g changes it by at most 2^(g-54). *)
Lemma rnd64_abs_pos n d g : 0 <= n -> 0 < d -> -1000 <= g < 1000 -> (frac n d < two g)%Q ->
  exists n' d', rnd64 (n, d) = Some (n', d') /\ 0 <= n' /\ 0 < d'
    /\ (Qabs (frac n' d' - frac n d) <= two (g - 54))%Q.
Proof.
  intros Hn Hd Hgr Hup. unfold rnd64. replace (Z.abs n) with n by lia.
  replace (n <? 0) with false by lia. unfold round_mag.
  pose proof (two_pos (g - 54)) as T54.
  destruct (Z.eqb_spec n 0) as [->|Hnz].
  { exists 0, (2 ^ 1074). split; [vm_compute; reflexivity|]. split; [lia|].
    split; [apply Z.pow_pos_nonneg; lia|].
    assert (Hz : forall b, 0 < b -> (frac 0 b == inject_Z 0)%Q) by (intros; apply frac_eq; lia).
    rewrite !Hz by (try apply Z.pow_pos_nonneg; lia).
    assert ((Qabs (inject_Z 0 - inject_Z 0) == 0)%Q) as -> by reflexivity. lra. }
  pose proof (exp_guess_binade n d ltac:(lia) Hd) as Hg. set (h := exp_guess n d) in *.
  destruct Hg as [G1 G2]. change (ff_prec binary64 - 1) with 52. change (ff_emin binary64) with (-1074).
  assert (Hhg : h < g) by (apply two_lt; lra).
  set (e := Z.max (-1074) (h - 52)).
  destruct (pow2q n d e) as [n' d'] eqn:Hp. apply pow2q_frac in Hp; auto. destruct Hp as [Hd' Hp].
  set (m := round_half_even n' d').
  pose proof (two_pos e) as Te. pose proof (frac_pos n d ltac:(lia) Hd) as Hq.
  assert (Hlo : 0 <= n').
  { assert (Hx : (0 < frac n' d')%Q) by (apply (Qmult_lt_r _ _ (two e)); auto; rewrite Hp; lra).
    pose proof (frac_mul n' d' Hd') as F1. pose proof (inj_pos d' Hd') as F2.
    assert (F3 : (0 < inject_Z n')%Q) by (rewrite <- F1; apply Qmult_lt_0_compat; auto).
    change 0%Q with (inject_Z 0) in F3. rewrite <- Zlt_Qlt in F3. lia. }
  assert (Hhi : n' < 2 ^ 53 * d').
  { apply (proj1 (frac_lt (2 ^ 53) n' d' Hd')).
    assert ((frac n' d' * two e < two 53 * two e)%Q).
    { rewrite Hp, <- two_add. eapply Qlt_le_trans; [apply G2|]. apply two_le. unfold e. lia. }
    rewrite <- (two_Z 53) by lia. apply (Qmult_lt_r _ _ (two e)); auto. }
  assert (Hm : 0 <= m <= 2 ^ 53) by (apply rhe_bounds; auto; lia).
  assert (Hmlow : -1074 < e -> 2 ^ 52 <= m).
  { intros He. apply (rhe_bounds n' d' (2 ^ 52) (2 ^ 53)); auto.
    apply (proj1 (frac_le (2 ^ 52) n' d' Hd')).
    rewrite <- (two_Z 52) by lia. apply (Qmult_le_r _ _ (two e)); auto.
    rewrite Hp, <- two_add. replace (52 + e) with h by (unfold e in *; lia). auto. }
  destruct (unpack_carry binary64 e m ((e - -1074) * 2 ^ 52 + m) ok64) as (m' & e' & U1 & U2).
  { cbn [binary64 ff_prec]. change (ff_emin binary64) with (-1074). unfold e. lia. }
  { cbn [binary64 ff_prec]. change (2 * 2 ^ (53 - 1)) with (2 ^ 53). lia. }
  { exact Hmlow. }
  { reflexivity. }
  assert (Hb : (e - -1074) * 2 ^ 52 + m < ff_inf binary64).
  { change (ff_inf binary64) with (2047 * 2 ^ 52). assert (e < 1000) by (unfold e; lia).
    change (2 ^ 53) with (2 * 2 ^ 52) in Hm. nia. }
  destruct (Z.ltb_spec ((e - -1074) * 2 ^ 52 + m) (ff_inf binary64)); [|lia].
  rewrite U1. destruct (dyadic m' e') as [n2 d2] eqn:Hdy.
  pose proof (dyadic_frac m' e' n2 d2 Hdy) as [Hd2 Hv].
  exists n2, d2. split; auto.
  assert (Hval : (frac n2 d2 == inject_Z m * two e)%Q) by (rewrite Hv; auto).
  assert (Hmq : (0 <= inject_Z m)%Q) by (change 0%Q with (inject_Z 0); rewrite <- Zle_Qle; lia).
  split.
  { pose proof (frac_mul n2 d2 Hd2) as F1. pose proof (inj_pos d2 Hd2) as F2.
    assert (F3 : (0 <= inject_Z n2)%Q).
    { rewrite <- F1, Hval. repeat apply Qmult_le_0_compat; auto; apply Qlt_le_weak; auto. }
    change 0%Q with (inject_Z 0) in F3. rewrite <- Zle_Qle in F3. auto. }
  split; auto.
  assert (Hhalf : (Qabs (inject_Z m - frac n' d') <= 1 # 2)%Q).
  { pose proof (Zabs_scale m n' d' Hd') as Hs. pose proof (inj_pos d' Hd') as Hdp.
    apply (Qmult_le_r _ _ (inject_Z d')); auto. rewrite Hs.
    assert (Hz : 2 * Z.abs (m * d' - n') <= d').
    { pose proof (rhe_nearest n' d' (n' / d') Hd') as N1. pose proof (rhe_nearest n' d' (n' / d' + 1) Hd') as N2.
      fold m in N1, N2. pose proof (Z.div_mod n' d' ltac:(lia)). pose proof (Z.mod_pos_bound n' d' Hd'). nia. }
    rewrite Zle_Qle, inject_Z_mult in Hz. change (inject_Z 2) with 2%Q in Hz. lra. }
  assert (Heq : (frac n2 d2 - frac n d == (inject_Z m - frac n' d') * two e)%Q) by (rewrite Hval, <- Hp; ring).
  rewrite Heq, Qabs_Qmult, (Qabs_pos (two e)) by lra.
  assert (Htwo : (two e <= 2 * two (g - 54))%Q).
  { rewrite <- two_1, <- two_add. apply two_le. unfold e. lia. }
  pose proof (Qabs_nonneg (inject_Z m - frac n' d')). nra.
Qed.

Lemma frac_opp n d : 0 < d -> (frac (- n) d == - frac n d)%Q.
Proof.
  intros Hd. pose proof (inj_pos d Hd). destruct (frac_Q (- n) d) as [->|]; [|lia].
  destruct (frac_Q n d) as [->|]; [|lia]. rewrite inject_Z_opp. field. lra.
Qed.

Lemma rnd64_opp n d : 0 < n -> rnd64 (- n, d) = match rnd64 (n, d) with Some (a, b) => Some (- a, b) | None => None end.
Proof.
  intros Hn. unfold rnd64. rewrite Z.abs_opp. replace (- n <? 0) with true by lia.
  replace (n <? 0) with false by lia.
  destruct (round_mag binary64 (Z.abs n) d) as [mag|]; auto.
  destruct (unpack_mag binary64 mag) as [m e].
  destruct (dyadic m e). reflexivity.
Qed.

Lemma rnd64_abs n d g : 0 < d -> -1000 <= g < 1000 -> (- two g < frac n d)%Q -> (frac n d < two g)%Q ->
  exists n' d', rnd64 (n, d) = Some (n', d') /\ 0 < d'
    /\ (frac n d - two (g - 54) <= frac n' d' /\ frac n' d' <= frac n d + two (g - 54))%Q.
Proof.
  intros Hd Hg H1 H2. destruct (Z_le_gt_dec 0 n) as [Hn|Hn].
  - destruct (rnd64_abs_pos n d g Hn Hd Hg H2) as (a & b & E & _ & Hb & He).
    exists a, b. split; auto. split; auto. apply Qabs_bounds in He. split; lra.
  - assert (H3 : (frac (- n) d < two g)%Q) by (rewrite frac_opp by auto; lra).
    destruct (rnd64_abs_pos (- n) d g ltac:(lia) Hd Hg H3) as (a & b & E & _ & Hb & He).
    exists (- a), b. replace n with (- - n) at 1 by lia. rewrite rnd64_opp by lia. rewrite E.
    split; auto. split; auto. rewrite frac_opp in He by auto. apply Qabs_bounds in He.
    rewrite (frac_opp a) by auto. split; lra.
Qed.

Definition nano_limit : Z := 2147483648 * 1000000.

Lemma limit_Q us : Z.abs us < nano_limit ->
  (- (2147483648000000 - 1) <= inject_Z us /\ inject_Z us <= 2147483648000000 - 1)%Q.
Proof.
  unfold nano_limit. intros H. change (2147483648000000 - 1)%Q with (inject_Z 2147483647999999).
  rewrite <- inject_Z_opp, <- !Zle_Qle. lia.
Qed.

Lemma two_31 : (two 31 == 2147483648)%Q. Proof. reflexivity. Qed.
Lemma two_31e : (two (31 - 54) == 1 # 8388608)%Q. Proof. reflexivity. Qed.
Lemma two_61 : (two 61 == 2305843009213693952)%Q. Proof. reflexivity. Qed.
Lemma two_61e : (two (61 - 54) == 128)%Q. Proof. reflexivity. Qed.
Lemma two_0e : (two (0 - 54) == 1 # 18014398509481984)%Q. Proof. reflexivity. Qed.
Lemma two_20e : (two (20 - 54) == 1 # 17179869184)%Q. Proof. reflexivity. Qed.

Lemma stamp_close us aware : Z.abs us < nano_limit -> exists n d, py_timestamp us aware = Ok (n, d) /\ 0 < d
  /\ (inject_Z us - (12 # 100) <= frac n d * 1000000 /\ frac n d * 1000000 <= inject_Z us + (12 # 100))%Q.
Proof.
  intros Hu. pose proof (limit_Q us Hu) as [L1 L2].
  assert (Hf : (frac us 1000000 * 1000000 == inject_Z us)%Q) by (apply (frac_mul us 1000000); lia).
  unfold py_timestamp. destruct aware.
  - destruct (rnd64_abs us 1000000 31 ltac:(lia) ltac:(lia)) as (n & d & E & Hd & B1 & B2);
      [rewrite two_31; lra|rewrite two_31; lra|]. rewrite two_31e in B1, B2.
    rewrite E. exists n, d. split; auto. split; auto. split; lra.
  - replace (us <? first_datetime_us false) with false
      by (symmetry; apply Z.ltb_ge; unfold nano_limit, first_datetime_us, min_datetime_us in *; lia).
    pose proof (Z.div_mod us 1000000 ltac:(lia)) as Hdm. pose proof (Z.mod_pos_bound us 1000000 ltac:(lia)) as Hmb.
    set (s := us / 1000000) in *. set (m := us mod 1000000) in *.
    assert (Hm : (frac m 1000000 * 1000000 == inject_Z m)%Q) by (apply (frac_mul m 1000000); lia).
    assert (Hmq : (0 <= inject_Z m /\ inject_Z m <= 999999)%Q).
    { change 0%Q with (inject_Z 0). change 999999%Q with (inject_Z 999999). rewrite <- !Zle_Qle. lia. }
    assert (Hs : (inject_Z us == 1000000 * inject_Z s + inject_Z m)%Q).
    { change 1000000%Q with (inject_Z 1000000). rewrite <- inject_Z_mult, <- inject_Z_plus, <- Hdm. reflexivity. }
    destruct (rnd64_abs m 1000000 0 ltac:(lia) ltac:(lia)) as (n & d & E & Hd & B1 & B2);
      [rewrite two_0; lra|rewrite two_0; lra|]. rewrite two_0e in B1, B2.
    rewrite E. cbn [opt_res bind]. unfold radd. cbn [fst snd].
    assert (Ha : (frac (s * d + n * 1) (1 * d) == inject_Z s + frac n d)%Q).
    { pose proof (inj_pos d Hd). destruct (frac_Q (s * d + n * 1) (1 * d)) as [->|]; [|lia].
      destruct (frac_Q n d) as [->|]; [|lia]. rewrite inject_Z_plus, !inject_Z_mult.
      change (inject_Z 1) with 1%Q. field. lra. }
    destruct (rnd64_abs (s * d + n * 1) (1 * d) 31 ltac:(lia) ltac:(lia)) as (n2 & d2 & E2 & Hd2 & B3 & B4);
      [rewrite two_31, Ha; lra|rewrite two_31, Ha; lra|]. rewrite two_31e, Ha in B3, B4.
    rewrite E2. exists n2, d2. split; auto. split; auto. split; lra.
Qed.

Lemma quot_close n d : 0 < d ->
  (frac n d - 1 <= inject_Z (Z.quot n d) /\ inject_Z (Z.quot n d) <= frac n d + 1)%Q.
Proof.
  intros Hd. pose proof (Z.quot_rem' n d) as Hq. pose proof (Z.rem_bound_abs n d ltac:(lia)) as Hr.
  pose proof (frac_mul n d Hd) as Hf. pose proof (inj_pos d Hd) as Hp.
  set (k := Z.quot n d) in *. set (r := Z.rem n d) in *.
  assert (H1 : (k - 1) * d <= n) by nia. assert (H2 : n <= (k + 1) * d) by nia.
  rewrite Zle_Qle, inject_Z_mult, <- Hf in H1, H2.
  apply Qmult_le_r in H1; auto. apply Qmult_le_r in H2; auto.
  unfold Zminus in H1. rewrite inject_Z_plus in H1, H2. change (inject_Z 1) with 1%Q in *.
  change (inject_Z (- (1))) with (- (1))%Q in *. split; lra.
Qed.

Lemma nano_to_int us aware : Z.abs us < nano_limit ->
  exists k, time_to_int ResNs us aware = Ok k /\ Z.abs (k - us * 1000) <= 249.
Proof.
  intros Hu. pose proof (limit_Q us Hu) as [L1 L2]. unfold time_to_int.
  destruct (stamp_close us aware Hu) as (n & d & -> & Hd & B1 & B2). cbn [bind]. unfold rmul. cbn [fst snd res_units].
  assert (Hp : (frac (n * 1000000000) (d * 1) == frac n d * 1000000000)%Q).
  { rewrite frac_prod by lia. rewrite frac_1. reflexivity. }
  destruct (rnd64_abs (n * 1000000000) (d * 1) 61 ltac:(lia) ltac:(lia)) as (n2 & d2 & E2 & Hd2 & B3 & B4);
    [rewrite two_61, Hp; lra|rewrite two_61, Hp; lra|]. rewrite two_61e, Hp in B3, B4.
  rewrite E2. cbn [opt_res bind]. unfold rtrunc. cbn [fst snd]. exists (Z.quot n2 d2). split; auto.
  pose proof (quot_close n2 d2 Hd2) as [Q1 Q2]. set (k := Z.quot n2 d2) in *.
  apply Z.abs_le. rewrite !Zle_Qle. unfold Zminus. rewrite inject_Z_plus, !inject_Z_opp, inject_Z_mult.
  change (inject_Z 1000) with 1000%Q. change (inject_Z 249) with 249%Q. split; lra.
Qed.

Lemma rhe_signed_close n d k : 0 < d -> (- (1 # 2) < frac n d - inject_Z k)%Q -> (frac n d - inject_Z k < 1 # 2)%Q ->
  round_half_even_signed (n, d) = k.
Proof.
  intros Hd H1 H2. unfold round_half_even_signed. destruct (Z.ltb_spec n 0).
  - rewrite (rhe_close (- n) d (- k)); auto; [lia|]. rewrite frac_opp, inject_Z_opp by auto.
    apply Qabs_case; intros _; lra.
  - apply rhe_close; auto. apply Qabs_case; intros _; lra.
Qed.

Lemma nano_of_int us aware k : Z.abs us < nano_limit -> Z.abs (k - us * 1000) <= 249 -> time_of_int ResNs aware k = Ok us.
Proof.
  intros Hu Hk. pose proof (limit_Q us Hu) as [L1 L2]. unfold time_of_int.
  assert (Hkq : (inject_Z us * 1000 - 249 <= inject_Z k /\ inject_Z k <= inject_Z us * 1000 + 249)%Q).
  { apply Z.abs_le in Hk. rewrite !Zle_Qle in Hk. unfold Zminus in Hk.
    rewrite inject_Z_plus, !inject_Z_opp, inject_Z_mult in Hk.
    change (inject_Z 1000) with 1000%Q in Hk. change (inject_Z 249) with 249%Q in Hk. split; lra. }
  destruct (rnd64_abs k 1 61 ltac:(lia) ltac:(lia)) as (n & d & E & Hd & B1 & B2);
    [rewrite two_61, frac_1; lra|rewrite two_61, frac_1; lra|]. rewrite two_61e, frac_1 in B1, B2.
  rewrite E. cbn [opt_res bind]. unfold rdiv. cbn [fst snd res_units].
  assert (Hp : (frac (n * 1) (d * 1000000000) * 1000000000 == frac n d)%Q).
  { rewrite frac_prod by lia. destruct (frac_Q 1 1000000000) as [->|]; [|lia].
    change (inject_Z 1) with 1%Q. change (inject_Z 1000000000) with 1000000000%Q. field. }
  destruct (rnd64_abs (n * 1) (d * 1000000000) 31 ltac:(lia) ltac:(lia)) as (n1 & d1 & E1 & D1 & B3 & B4);
    [rewrite two_31; lra|rewrite two_31; lra|]. rewrite two_31e in B3, B4.
  rewrite E1. cbn [opt_res bind]. unfold py_fromtimestamp, rmul. cbn [fst snd].
  pose proof (Z.quot_rem' n1 d1) as Hqr. pose proof (Z.rem_bound_abs n1 d1 ltac:(lia)) as Hrb.
  set (ip := Z.quot n1 d1) in *. set (rm := Z.rem n1 d1) in *. set (x := frac n1 d1) in *. set (fp := frac rm d1).
  assert (Hx : (x == inject_Z ip + fp)%Q).
  { unfold x, fp. pose proof (inj_pos d1 D1). destruct (frac_Q n1 d1) as [->|]; [|lia].
    destruct (frac_Q rm d1) as [->|]; [|lia]. rewrite Hqr at 1. rewrite inject_Z_plus, inject_Z_mult. field. lra. }
  assert (Hfp : (- (1) <= fp /\ fp <= 1)%Q).
  { unfold fp. change (- (1))%Q with (inject_Z (-1)). change 1%Q with (inject_Z 1).
    pose proof (frac_mul rm d1 D1) as Hm. pose proof (inj_pos d1 D1) as Hp1.
    assert (R1 : -1 * d1 <= rm) by lia. assert (R2 : rm <= 1 * d1) by lia.
    rewrite Zle_Qle, inject_Z_mult, <- Hm in R1, R2. apply Qmult_le_r in R1; auto. apply Qmult_le_r in R2; auto. }
  assert (Hp1 : (frac (rm * 1000000) (d1 * 1) == fp * 1000000)%Q).
  { rewrite frac_prod by lia. rewrite frac_1. reflexivity. }
  assert (H20 : (two 20 == 1048576)%Q) by reflexivity.
  destruct (rnd64_abs (rm * 1000000) (d1 * 1) 20 ltac:(lia) ltac:(lia)) as (n2 & d2 & E2 & D2 & B5 & B6);
    [rewrite H20, Hp1; lra|rewrite H20, Hp1; lra|]. rewrite two_20e, Hp1 in B5, B6.
  rewrite E2. cbn [opt_res bind].
  assert (Hi : (inject_Z (us - ip * 1000000) == inject_Z us - inject_Z ip * 1000000)%Q).
  { unfold Zminus. rewrite inject_Z_plus, inject_Z_opp, inject_Z_mult. change (inject_Z 1000000) with 1000000%Q. ring. }
  rewrite (rhe_signed_close n2 d2 (us - ip * 1000000)); auto; [|rewrite Hi; lra|rewrite Hi; lra].
  replace (ip * 1000000 + (us - ip * 1000000)) with us by lia.
  replace ((first_datetime_us aware <=? us) && (us <=? max_datetime_us)) with true; auto.
  symmetry. rewrite andb_true_iff, !Z.leb_le. unfold nano_limit, first_datetime_us, min_datetime_us, max_datetime_us in *. destruct aware; lia.
Qed.

(** ** Field level *)
Lemma nano_stored E fuel c tz sg e n us aware ctx d : Z.abs us < nano_limit -> c_size c = SInt n ->
  accepts c (VTime us aware) -> (forall z, accepts c (VInt z)) ->
  exists k, Z.abs (k - us * 1000) <= 249
    /\ field_to_stream E fuel (Field c (KTime ResNs tz sg e)) (VTime us aware) ctx d
       = field_to_stream E fuel (Field c (KInt sg e)) (VInt k) ctx d.
Proof.
  intros Hu Hs Ha Hi. destruct (nano_to_int us aware Hu) as (k & Hk & Hb). exists k. split; auto.
  apply (time_stores E fuel c ResNs tz sg e n us aware k); auto.
Qed.

Lemma nano_loaded E fuel c tz sg e n us k bs ctx d : Z.abs us < nano_limit -> Z.abs (k - us * 1000) <= 249 ->
  c_size c = SInt n -> accepts c (VInt k) ->
  field_to_stream E fuel (Field c (KInt sg e)) (VInt k) ctx d = (bs, Ok tt) ->
  forall E' fuel' ctx' d' pre suf, takes c (VTime us tz) ->
  field_from_stream E' fuel' (Field c (KTime ResNs tz sg e)) ctx' d' (at_data pre bs suf)
  = (after_data pre bs suf, Ok (VTime us tz)).
Proof.
  intros Hu Hk Hs Ha H. intros. rewrite (LeafProofs.int_to_stream _ _ _ _ _ n) in H by auto.
  destruct (py_to_bytes k n e sg) as [b|x|] eqn:Hb; try discriminate. injection H as ->.
  apply (time_from_stream _ _ c ResNs tz sg e n us k); auto. apply nano_of_int; auto.
Qed.

Lemma nano_nonneg us aware k : 0 <= us -> Z.abs (k - us * 1000) <= 249 -> time_to_int ResNs us aware = Ok k -> 0 <= k.
Proof.
  intros Hu Hb Hk. destruct (Z.eq_dec us 0) as [->|]; [|lia].
  destruct aware; vm_compute in Hk; injection Hk as <-; lia.
Qed.

Lemma nano_range sg n us k : Z.abs us < nano_limit -> Z.abs (k - us * 1000) <= 249 -> 8 <= n ->
  (sg = false -> 0 <= k) -> int_range sg n k.
Proof.
  unfold nano_limit, int_range. intros Hu Hk Hn Hs.
  assert (2 ^ 64 <= 2 ^ (8 * n)) by (apply Z.pow_le_mono_r; lia).
  change (2 ^ 64) with 18446744073709551616 in *.
  destruct sg; [lia|]. specialize (Hs eq_refl). lia.
Qed.

Lemma nano_roundtrip E fuel c tz sg e n us aware ctx d : Z.abs us < nano_limit -> c_size c = SInt n ->
  accepts c (VTime us aware) ->
  (8 <= n -> sg = true \/ 0 <= us -> exists bs,
     field_to_stream E fuel (Field c (KTime ResNs tz sg e)) (VTime us aware) ctx d = (bs, Ok tt))
  /\ forall bs, field_to_stream E fuel (Field c (KTime ResNs tz sg e)) (VTime us aware) ctx d = (bs, Ok tt) ->
     zlen bs = n
     /\ forall E' fuel' ctx' d' pre suf, takes c (VTime us tz) ->
          field_from_stream E' fuel' (Field c (KTime ResNs tz sg e)) ctx' d' (at_data pre bs suf)
          = (after_data pre bs suf, Ok (VTime us tz)).
Proof.
  intros Hu Hs Ha. destruct (nano_to_int us aware Hu) as (k & Hk & Hb).
  rewrite (time_to_stream _ _ _ _ _ _ _ n _ _ k) by auto. split.
  - intros Hn Hsg. destruct (py_to_bytes k n e sg) as [bs|x|] eqn:Hp; [eauto| |].
    all: exfalso; assert (Hf : int_range sg n k) by
      (apply (nano_range sg n us k); auto; intros Hneg; destruct Hsg as [Hsg|Hsg]; [congruence|];
       apply (nano_nonneg us aware); auto).
    all: apply fits_range in Hf; revert Hp; unfold py_to_bytes; rewrite Hf;
      destruct (Z.ltb_spec n 0); [lia|discriminate].
  - intros bs. destruct (py_to_bytes k n e sg) as [b|x|] eqn:Hp; intros H; try discriminate. injection H as ->.
    destruct (py_to_bytes_ok _ _ _ _ _ Hp) as (_ & _ & Hl & _). split; auto. intros.
    apply (time_from_stream _ _ c ResNs tz sg e n us k); auto. apply nano_of_int; auto.
Qed.
