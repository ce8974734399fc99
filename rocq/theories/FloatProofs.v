(** Rounding of rationals to binary formats. *)
From Coq Require Import QArith Qpower Qabs Lqa.
From Verif Require Export Floats.
From Verif Require Import Tac PyIntProofs.
Open Scope Z_scope.

(** 2^e as a rational *)
Definition two (e : Z) : Q := (Qpower (inject_Z 2) e).
Definition frac (n d : Z) : Q := (inject_Z n / inject_Z d)%Q.

Lemma two_nz : ~ (inject_Z 2 == 0)%Q.
Proof. intros H. discriminate H. Qed.

Lemma two_pos e : (0 < two e)%Q.
Proof.
  unfold two. destruct (Qlt_le_dec 0 (Qpower (inject_Z 2) e)) as [H|H]; auto.
  assert (Hp : (0 <= Qpower (inject_Z 2) e)%Q) by (apply Qpower_pos; discriminate).
  assert (Hz : (Qpower (inject_Z 2) e == 0)%Q) by (apply Qle_antisym; auto).
  exfalso. revert Hz. apply Qpower_not_0. apply two_nz.
Qed.

Lemma two_add a b : (two (a + b) == two a * two b)%Q.
Proof. unfold two. apply Qpower_plus. apply two_nz. Qed.

Lemma two_Z e : 0 <= e -> (two e == inject_Z (2 ^ e))%Q.
Proof. intros H. unfold two. symmetry. apply Zpower_Qpower. auto. Qed.

Lemma two_0 : (two 0 == 1)%Q.
Proof. reflexivity. Qed.

Lemma two_1 : (two 1 == 2)%Q.
Proof. reflexivity. Qed.

Lemma two_le a b : a <= b -> (two a <= two b)%Q.
Proof.
  intros H. replace b with (a + (b - a)) by lia. rewrite two_add.
  assert (H1 : (1 <= two (b - a))%Q).
  { rewrite two_Z by lia. change 1%Q with (inject_Z 1). rewrite <- Zle_Qle.
    assert (0 < 2 ^ (b - a)) by (apply Z.pow_pos_nonneg; lia). lia. }
  pose proof (two_pos a). nra.
Qed.

Lemma two_lt a b : (two a < two b)%Q -> a < b.
Proof.
  intros H. destruct (Z_lt_le_dec a b); auto. exfalso.
  assert ((two b <= two a)%Q) by (apply two_le; auto). lra.
Qed.

Lemma inj_pos z : 0 < z -> (0 < inject_Z z)%Q.
Proof. intros H. change 0%Q with (inject_Z 0). rewrite <- Zlt_Qlt. auto. Qed.

Lemma frac_pos n d : 0 < n -> 0 < d -> (0 < frac n d)%Q.
Proof.
  intros Hn Hd. unfold frac, Qdiv. apply Qmult_lt_0_compat; [apply inj_pos; auto|].
  apply Qinv_lt_0_compat, inj_pos; auto.
Qed.

Lemma frac_mul n d : 0 < d -> (frac n d * inject_Z d == inject_Z n)%Q.
Proof. intros H. unfold frac. field. pose proof (inj_pos d H). lra. Qed.

Lemma frac_le a n d : 0 < d -> (inject_Z a <= frac n d)%Q <-> a * d <= n.
Proof.
  intros H. pose proof (inj_pos d H). pose proof (frac_mul n d H). rewrite Zle_Qle, inject_Z_mult.
  split; intros Hx; nra.
Qed.

Lemma frac_lt a n d : 0 < d -> (frac n d < inject_Z a)%Q <-> n < a * d.
Proof.
  intros H. pose proof (inj_pos d H). pose proof (frac_mul n d H). rewrite Zlt_Qlt, inject_Z_mult.
  split; intros Hx; nra.
Qed.

Lemma frac_eq a n d : 0 < d -> (frac n d == inject_Z a)%Q <-> n = a * d.
Proof.
  intros H. pose proof (inj_pos d H). pose proof (frac_mul n d H).
  rewrite <- (inject_Z_injective n (a * d)), inject_Z_mult.
  split; intros Hx.
  - rewrite <- H1, Hx. reflexivity.
  - apply (Qmult_inj_r _ _ (inject_Z d)); [lra|]. rewrite H1, Hx. reflexivity.
Qed.

Lemma frac_1 n : (frac n 1 == inject_Z n)%Q.
Proof. unfold frac. field. Qed.

Lemma pow2q_frac n d e n' d' : 0 < d -> pow2q n d e = (n', d') ->
  0 < d' /\ (frac n' d' * two e == frac n d)%Q.
Proof.
  intros Hd. unfold pow2q. pose proof (inj_pos d Hd) as Hq. destruct (Z.leb_spec 0 e); intros [= <- <-].
  - assert (Hp : 0 < 2 ^ e) by (apply Z.pow_pos_nonneg; lia). split; [nia|].
    unfold frac. rewrite two_Z, inject_Z_mult by lia. pose proof (inj_pos _ Hp). field. split; lra.
  - split; auto. unfold frac. rewrite inject_Z_mult.
    assert (Hp : (inject_Z (2 ^ (- e)) * two e == 1)%Q).
    { rewrite <- two_Z by lia. rewrite <- two_add. replace (- e + e) with 0 by lia. reflexivity. }
    transitivity (inject_Z n * (inject_Z (2 ^ (- e)) * two e) / inject_Z d)%Q; [field; lra|].
    rewrite Hp. field. lra.
Qed.

Lemma dyadic_frac m e n d : dyadic m e = (n, d) -> 0 < d /\ (frac n d == inject_Z m * two e)%Q.
Proof.
  unfold dyadic. destruct (Z.leb_spec 0 e); intros [= <- <-].
  - split; [lia|]. rewrite frac_1, two_Z, inject_Z_mult by lia. reflexivity.
  - assert (Hp : 0 < 2 ^ (- e)) by (apply Z.pow_pos_nonneg; lia). split; auto.
    pose proof (inj_pos _ Hp). pose proof (frac_mul m _ Hp) as Hm.
    assert (He : (inject_Z (2 ^ (- e)) * two e == 1)%Q).
    { rewrite <- two_Z by lia. rewrite <- two_add. replace (- e + e) with 0 by lia. reflexivity. }
    rewrite <- Hm. rewrite <- Qmult_assoc, He. ring.
Qed.

Lemma dyadic_nonneg m e n d : dyadic m e = (n, d) -> 0 <= m -> 0 <= n /\ (n = 0 <-> m = 0).
Proof.
  unfold dyadic. destruct (Z.leb_spec 0 e); intros [= <- <-] Hm; [|lia].
  assert (0 < 2 ^ e) by (apply Z.pow_pos_nonneg; lia). nia.
Qed.

Lemma log2_two n : 0 < n -> (two (Z.log2 n) <= inject_Z n)%Q /\ (inject_Z n < two (Z.log2 n + 1))%Q.
Proof.
  intros H. pose proof (Z.log2_nonneg n). destruct (Z.log2_spec n H) as [H1 H2].
  rewrite !two_Z by lia. rewrite <- Zle_Qle, <- Zlt_Qlt. split; auto.
Qed.

Definition binade (q : Q) (g : Z) : Prop := (two g <= q)%Q /\ (q < two (g + 1))%Q.

Lemma binade_unique q a b : binade q a -> binade q b -> a = b.
Proof.
  intros [H1 H2] [H3 H4].
  assert (a < b + 1) by (apply two_lt; lra). assert (b < a + 1) by (apply two_lt; lra). lia.
Qed.

Lemma binade_ext q q' g : (q == q')%Q -> binade q g -> binade q' g.
Proof. intros H [H1 H2]. split; rewrite <- H; auto. Qed.

Lemma exp_guess_binade n d : 0 < n -> 0 < d -> binade (frac n d) (exp_guess n d).
Proof.
  intros Hn Hd. unfold exp_guess. set (g := Z.log2 n - Z.log2 d).
  destruct (pow2q n d g) as [n' d'] eqn:Hp. apply pow2q_frac in Hp; auto. destruct Hp as [Hd' Hp].
  destruct (log2_two n Hn) as [Hn1 Hn2]. destruct (log2_two d Hd) as [Hd1 Hd2].
  pose proof (frac_mul n d Hd) as Hm. pose proof (frac_pos n d Hn Hd) as Hq.
  pose proof (two_pos g) as Hg. pose proof (inj_pos d Hd) as Hdp. pose proof (two_pos (Z.log2 d)) as Hld.
  assert (Hlog : (two (Z.log2 n) == two g * two (Z.log2 d))%Q).
  { rewrite <- two_add. replace (g + Z.log2 d) with (Z.log2 n) by (unfold g; lia). reflexivity. }
  assert (S1 : forall a, (two (a + 1) == 2 * two a)%Q) by (intros a; rewrite two_add, two_1; ring).
  rewrite S1 in Hn2, Hd2. rewrite Hlog in *.
  destruct (Z.leb_spec d' n') as [Hle|Hlt].
  - split.
    + rewrite <- Hp. assert ((inject_Z 1 <= frac n' d')%Q) by (apply frac_le; lia).
      change (inject_Z 1) with 1%Q in H. nra.
    + rewrite S1. nra.
  - assert (Hlt' : (frac n' d' < inject_Z 1)%Q) by (apply frac_lt; lia). change (inject_Z 1) with 1%Q in Hlt'.
    assert (Hg1 : (two g == 2 * two (g - 1))%Q).
    { rewrite <- S1. replace (g - 1 + 1) with g by lia. reflexivity. }
    split.
    + nra.
    + replace (g - 1 + 1) with g by lia. rewrite <- Hp. nra.
Qed.

(** ** Rounding *)

Definition format_ok (f : fformat) : Prop := 2 <= ff_prec f /\ 2 <= ff_ebits f.

Lemma ok16 : format_ok binary16. Proof. split; cbn; lia. Qed.
Lemma ok32 : format_ok binary32. Proof. split; cbn; lia. Qed.
Lemma ok64 : format_ok binary64. Proof. split; cbn; lia. Qed.

Lemma rhe_exact n d m : 0 < d -> (frac n d == inject_Z m)%Q -> round_half_even n d = m.
Proof.
  intros Hd H. pose proof (proj1 (frac_eq m n d Hd) H) as Hn. clear H. unfold round_half_even. subst n.
  rewrite Z.div_mul, Z.mod_mul by lia. destruct (Z.ltb_spec (2 * 0) d); auto; lia.
Qed.

Lemma two_shift m e e' : e' <= e -> (inject_Z m * two e == inject_Z (m * 2 ^ (e - e')) * two e')%Q.
Proof.
  intros H. rewrite inject_Z_mult, <- two_Z by lia. rewrite <- Qmult_assoc, <- two_add.
  replace (e - e' + e') with e by lia. reflexivity.
Qed.

(** A number with at most [p] significant bits, not below the smallest exponent, is
    converted exactly. *)
Lemma round_exact f n d m e : format_ok f -> 0 < d -> 0 < m < 2 ^ ff_prec f -> ff_emin f <= e ->
  (frac n d == inject_Z m * two e)%Q ->
  let e' := Z.max (ff_emin f) (Z.log2 m + e - (ff_prec f - 1)) in
  let bits := (e' - ff_emin f) * 2 ^ (ff_prec f - 1) + m * 2 ^ (e - e') in
  e' <= e
  /\ round_mag f n d = (if bits <? ff_inf f then Some bits else None)
  /\ unpack_mag f bits = (m * 2 ^ (e - e'), e').
Proof.
  intros [Hp Hw] Hd Hm He Hv e' bits.
  assert (Hlog : Z.log2 m < ff_prec f) by (apply Z.log2_lt_pow2; lia).
  assert (Hlog0 : 0 <= Z.log2 m) by apply Z.log2_nonneg.
  assert (Hee : e' <= e) by (unfold e'; lia). split; auto.
  assert (Hm0 : 0 < 2 ^ (e - e')) by (apply Z.pow_pos_nonneg; lia).
  destruct (Z.log2_spec m) as [L1 L2]; [lia|].
  assert (Hup : m * 2 ^ (e - e') < 2 * 2 ^ (ff_prec f - 1)).
  { replace (2 * 2 ^ (ff_prec f - 1)) with (2 ^ Z.succ (ff_prec f - 1)) by (rewrite Z.pow_succ_r; lia).
    apply Z.lt_le_trans with (2 ^ Z.succ (Z.log2 m) * 2 ^ (e - e')); [nia|].
    rewrite <- Z.pow_add_r by lia. apply Z.pow_le_mono_r; unfold e'; lia. }
  assert (Hlow : ff_emin f < e' -> 2 ^ (ff_prec f - 1) <= m * 2 ^ (e - e')).
  { intros Hgt. apply Z.le_trans with (2 ^ Z.log2 m * 2 ^ (e - e')); [|nia].
    rewrite <- Z.pow_add_r by lia. apply Z.pow_le_mono_r; unfold e' in *; lia. }
  assert (Hh : 0 < 2 ^ (ff_prec f - 1)) by (apply Z.pow_pos_nonneg; lia).
  split.
  - unfold round_mag.
    assert (Hn : 0 < n).
    { assert (Hq : (0 < frac n d)%Q).
      { rewrite Hv. pose proof (two_pos e). pose proof (inj_pos m ltac:(lia)). nra. }
      pose proof (frac_mul n d Hd). pose proof (inj_pos d Hd).
      assert ((0 < inject_Z n)%Q) by nra. change 0%Q with (inject_Z 0) in H1.
      rewrite <- Zlt_Qlt in H1. auto. }
    destruct (Z.eqb_spec n 0) as [|_]; [lia|].
    assert (Hg : exp_guess n d = Z.log2 m + e).
    { apply (binade_unique (frac n d)); [apply exp_guess_binade; auto|].
      apply (binade_ext (inject_Z m * two e)); [symmetry; auto|].
      destruct (log2_two m) as [M1 M2]; [lia|]. pose proof (two_pos e).
      split; [rewrite two_add; nra|].
      replace (Z.log2 m + e + 1) with (Z.log2 m + 1 + e) by lia. rewrite (two_add (Z.log2 m + 1) e). nra. }
    rewrite Hg. change (Z.max (ff_emin f) (Z.log2 m + e - (ff_prec f - 1))) with e'.
    destruct (pow2q n d e') as [n' d'] eqn:Hpq. apply pow2q_frac in Hpq; auto. destruct Hpq as [Hd' Hpq].
    rewrite (rhe_exact n' d' (m * 2 ^ (e - e'))); auto.
    pose proof (two_pos e'). apply (Qmult_inj_r _ _ (two e')); [lra|].
    rewrite Hpq, Hv. apply two_shift. auto.
  - unfold unpack_mag, bits. set (h := 2 ^ (ff_prec f - 1)) in *. set (M := m * 2 ^ (e - e')) in *.
    assert (HM : 0 < M) by (unfold M; nia).
    destruct (Z_lt_le_dec M h) as [Hs|Hs].
    + assert (He0 : e' = ff_emin f) by (unfold e' in *; lia).
      rewrite He0. replace ((ff_emin f - ff_emin f) * h + M) with M by lia.
      rewrite Z.div_small, Z.mod_small by lia. reflexivity.
    + assert (HE : ff_emin f <= e') by (unfold e'; lia).
      assert (Hdiv : ((e' - ff_emin f) * h + M) / h = e' - ff_emin f + 1).
      { symmetry. apply (Z.div_unique _ _ _ (M - h)); lia. }
      assert (Hmod : ((e' - ff_emin f) * h + M) mod h = M - h).
      { symmetry. apply (Z.mod_unique _ _ (e' - ff_emin f + 1)); lia. }
      rewrite Hdiv, Hmod. destruct (Z.eqb_spec (e' - ff_emin f + 1) 0); [lia|]. f_equal; lia.
Qed.

Lemma inf_pos f : format_ok f -> 0 < ff_inf f.
Proof.
  intros [Hp Hw]. unfold ff_inf. assert (2 ^ 2 <= 2 ^ ff_ebits f) by (apply Z.pow_le_mono_r; lia).
  assert (0 < 2 ^ (ff_prec f - 1)) by (apply Z.pow_pos_nonneg; lia). nia.
Qed.

(** Significand and exponent of a finite pattern. *)
Lemma unpack_bounds f mag m e : format_ok f -> 0 <= mag < ff_inf f -> unpack_mag f mag = (m, e) ->
  0 <= m < 2 ^ ff_prec f /\ ff_emin f <= e <= ff_emin f + 2 ^ ff_ebits f - 3
  /\ mag = (e - ff_emin f) * 2 ^ (ff_prec f - 1) + m
  /\ (ff_emin f < e -> 2 ^ (ff_prec f - 1) <= m) /\ (m = 0 <-> mag = 0).
Proof.
  intros [Hp Hw] Hm. unfold unpack_mag, ff_inf in *.
  assert (Hh : 0 < 2 ^ (ff_prec f - 1)) by (apply Z.pow_pos_nonneg; lia).
  assert (H2 : 2 ^ ff_prec f = 2 * 2 ^ (ff_prec f - 1)).
  { rewrite <- Z.pow_succ_r by lia. f_equal. lia. }
  assert (Hw2 : 2 ^ 2 <= 2 ^ ff_ebits f) by (apply Z.pow_le_mono_r; lia).
  set (h := 2 ^ (ff_prec f - 1)) in *.
  pose proof (Z.div_mod mag h ltac:(lia)) as Hdm. pose proof (Z.mod_pos_bound mag h Hh) as Hmb.
  assert (Hq : 0 <= mag / h) by (apply Z.div_pos; lia).
  assert (Hqu : mag / h < 2 ^ ff_ebits f - 1) by (apply Z.div_lt_upper_bound; nia).
  destruct (Z.eqb_spec (mag / h) 0) as [Hz|Hz]; intros [= <- <-].
  - rewrite Hz in Hdm. repeat split; try lia.
  - repeat split; try lia; try nia.
Qed.

Lemma round_canonical f mag n d m e : format_ok f -> 0 <= mag < ff_inf f -> unpack_mag f mag = (m, e) ->
  0 < d -> (frac n d == inject_Z m * two e)%Q -> round_mag f n d = Some mag.
Proof.
  intros Hok Hmag Hu Hd Hv. destruct (unpack_bounds f mag m e Hok Hmag Hu) as (Hm & He & Hval & Hlow & Hz).
  destruct (Z.eq_dec m 0) as [->|Hnz].
  - assert (n = 0).
    { apply (frac_eq 0 n d) in Hd as Hf. assert (n = 0 * d); [|lia]. apply Hf.
      rewrite Hv. change (inject_Z 0) with 0%Q. ring. }
    subst n. unfold round_mag. cbn. f_equal. symmetry. apply Hz. auto.
  - destruct Hok as [Hp Hw].
    destruct (round_exact f n d m e (conj Hp Hw) Hd ltac:(lia) ltac:(lia) Hv) as (_ & Hr & _).
    assert (He' : Z.max (ff_emin f) (Z.log2 m + e - (ff_prec f - 1)) = e).
    { destruct (Z.eq_dec e (ff_emin f)) as [->|Hne].
      - assert (Z.log2 m < ff_prec f) by (apply Z.log2_lt_pow2; lia). lia.
      - assert (Hl : Z.log2 m = ff_prec f - 1).
        { apply Z.log2_unique; [lia|]. split; [apply Hlow; lia|].
          replace (Z.succ (ff_prec f - 1)) with (ff_prec f) by lia. lia. }
        lia. }
    rewrite He' in Hr. rewrite Hr. rewrite Z.sub_diag, Z.pow_0_r, Z.mul_1_r. rewrite <- Hval.
    destruct (Z.ltb_spec mag (ff_inf f)); auto; lia.
Qed.

(** [dst] contains every number of [src]. *)
Definition wider (src dst : fformat) : Prop :=
  ff_prec src <= ff_prec dst /\ ff_emin dst <= ff_emin src
  /\ ff_emin src + 2 ^ ff_ebits src + ff_prec src <= ff_emin dst + 2 ^ ff_ebits dst + ff_prec dst.

Lemma round_widen src dst mag n d m e : format_ok src -> format_ok dst -> wider src dst ->
  0 <= mag < ff_inf src -> unpack_mag src mag = (m, e) -> 0 < d -> (frac n d == inject_Z m * two e)%Q ->
  exists mag' m' e', round_mag dst n d = Some mag' /\ 0 <= mag' < ff_inf dst
    /\ unpack_mag dst mag' = (m', e') /\ (inject_Z m' * two e' == inject_Z m * two e)%Q.
Proof.
  intros Hs Hd (W1 & W2 & W3) Hmag Hu Hpos Hv.
  destruct (unpack_bounds src mag m e Hs Hmag Hu) as (Hm & He & Hval & Hlow & Hz).
  destruct (Z.eq_dec m 0) as [->|Hnz].
  - assert (n = 0).
    { apply (frac_eq 0 n d) in Hpos as Hf. assert (n = 0 * d); [|lia]. apply Hf.
      rewrite Hv. change (inject_Z 0) with 0%Q. ring. }
    subst n. pose proof (inf_pos dst Hd).
    exists 0, 0, (ff_emin dst). split; [reflexivity|]. split; [lia|]. split.
    + unfold unpack_mag. rewrite Z.div_0_l, Z.mod_0_l; [reflexivity| |];
        destruct Hd as [Hp _]; assert (0 < 2 ^ (ff_prec dst - 1)) by (apply Z.pow_pos_nonneg; lia); lia.
    + change (inject_Z 0) with 0%Q. ring.
  - assert (Hmd : 0 < m < 2 ^ ff_prec dst).
    { split; [lia|]. apply Z.lt_le_trans with (2 ^ ff_prec src); [lia|]. apply Z.pow_le_mono_r; lia. }
    destruct (round_exact dst n d m e Hd Hpos Hmd ltac:(lia) Hv) as (Hee & Hr & Hup).
    set (e' := Z.max (ff_emin dst) (Z.log2 m + e - (ff_prec dst - 1))) in *.
    set (bits := (e' - ff_emin dst) * 2 ^ (ff_prec dst - 1) + m * 2 ^ (e - e')) in *.
    assert (Hpow : 0 < 2 ^ (e - e')) by (apply Z.pow_pos_nonneg; lia).
    assert (Hge : ff_emin dst <= e') by (unfold e'; lia).
    destruct Hd as [Hp Hw]. destruct Hs as [Hps Hws].
    assert (Hh : 0 < 2 ^ (ff_prec dst - 1)) by (apply Z.pow_pos_nonneg; lia).
    assert (Hlog : Z.log2 m < ff_prec src) by (apply Z.log2_lt_pow2; lia).
    assert (Hlog0 : 0 <= Z.log2 m) by apply Z.log2_nonneg.
    destruct (Z.log2_spec m) as [L1 L2]; [lia|].
    assert (Hupp : m * 2 ^ (e - e') < 2 * 2 ^ (ff_prec dst - 1)).
    { replace (2 * 2 ^ (ff_prec dst - 1)) with (2 ^ Z.succ (ff_prec dst - 1)) by (rewrite Z.pow_succ_r; lia).
      apply Z.lt_le_trans with (2 ^ Z.succ (Z.log2 m) * 2 ^ (e - e')); [nia|].
      rewrite <- Z.pow_add_r by lia. apply Z.pow_le_mono_r; unfold e'; lia. }
    assert (Hw2 : 2 ^ 2 <= 2 ^ ff_ebits dst) by (apply Z.pow_le_mono_r; lia).
    assert (Htop : e' - ff_emin dst <= 2 ^ ff_ebits dst - 3) by (unfold e'; lia).
    assert (Hlt : bits < ff_inf dst).
    { unfold bits, ff_inf. nia. }
    assert (H0 : 0 <= bits) by (unfold bits; nia).
    destruct (Z.ltb_spec bits (ff_inf dst)); [|lia].
    exists bits, (m * 2 ^ (e - e')), e'. split; auto. split; [lia|]. split; auto.
    symmetry. apply two_shift. auto.
Qed.

(** ** Overflow *)

Lemma rhe_bounds n d a b : 0 < d -> a * d <= n -> n < b * d -> a <= round_half_even n d <= b.
Proof.
  intros Hd Ha Hb. unfold round_half_even.
  assert (a <= n / d) by (apply Z.div_le_lower_bound; lia).
  assert (n / d < b) by (apply Z.div_lt_upper_bound; lia).
  destruct (2 * (n mod d) <? d); [lia|]. destruct (d <? 2 * (n mod d)); [lia|]. destruct (Z.even _); lia.
Qed.

Lemma rhe_top n d h : 0 < d -> 0 <= n -> 0 < h -> n < (2 * h) * d ->
  (round_half_even n d = 2 * h <-> (4 * h - 1) * d <= 2 * n).
Proof.
  intros Hd Hn Hh Hlt. unfold round_half_even.
  pose proof (Z.div_mod n d ltac:(lia)) as Hdm. pose proof (Z.mod_pos_bound n d Hd) as Hmb.
  assert (Hq : n / d < 2 * h) by (apply Z.div_lt_upper_bound; lia).
  set (q := n / d) in *. set (r := n mod d) in *.
  destruct (Z.ltb_spec (2 * r) d).
  - split; [lia|]. intros Hx. exfalso.
    assert (q <= 2 * h - 1) by lia. nia.
  - destruct (Z.ltb_spec d (2 * r)).
    + split; intros Hx; [|assert (~ q <= 2 * h - 2) by (intros Hc; nia); lia].
      assert (q = 2 * h - 1) by lia. nia.
    + assert (Hr : 2 * r = d) by lia.
      destruct (Z.even q) eqn:Hev.
      * split; [lia|]. intros Hx. exfalso. assert (~ q <= 2 * h - 2) by (intros Hc; nia).
        assert (q = 2 * h - 1) by lia. apply Z.even_spec in Hev. destruct Hev as [k Hk]. lia.
      * split; intros Hx; [|assert (~ q <= 2 * h - 2) by (intros Hc; nia); lia].
        assert (q = 2 * h - 1) by lia. nia.
Qed.

(** The largest exponent of a finite number. *)
Definition ff_etop (f : fformat) : Z := ff_emin f + 2 ^ ff_ebits f - 3.

Lemma round_overflow f n d : format_ok f -> 0 <= n -> 0 < d ->
  (round_mag f n d = None
   <-> (inject_Z (4 * 2 ^ (ff_prec f - 1) - 1) * two (ff_etop f) <= 2 * frac n d)%Q).
Proof.
  intros [Hp Hw] Hn Hd. unfold round_mag.
  assert (Hh : 0 < 2 ^ (ff_prec f - 1)) by (apply Z.pow_pos_nonneg; lia).
  assert (Hw2 : 2 ^ 2 <= 2 ^ ff_ebits f) by (apply Z.pow_le_mono_r; lia).
  pose proof (two_pos (ff_etop f)) as Ht.
  destruct (Z.eqb_spec n 0) as [->|Hnz].
  { split; [discriminate|]. intros Hx. exfalso.
    assert (Hf : (frac 0 d == 0)%Q) by (unfold frac; change (inject_Z 0) with 0%Q; field; pose proof (inj_pos d Hd); lra).
    rewrite Hf in Hx. pose proof (inj_pos (4 * 2 ^ (ff_prec f - 1) - 1) ltac:(lia)). nra. }
  assert (Hb : binade (frac n d) (exp_guess n d)) by (apply exp_guess_binade; lia).
  set (g := exp_guess n d) in *. set (e := Z.max (ff_emin f) (g - (ff_prec f - 1))).
  destruct (pow2q n d e) as [n' d'] eqn:Hpq. apply pow2q_frac in Hpq as Hv; auto. destruct Hv as [Hd' Hv].
  assert (Hn' : 0 <= n').
  { unfold pow2q in Hpq. destruct (0 <=? e); injection Hpq as <- <-; auto.
    assert (0 <= 2 ^ (- e)) by (apply Z.pow_nonneg; lia). nia. }
  destruct Hb as [Hb1 Hb2]. pose proof (two_pos e) as He.
  set (h := 2 ^ (ff_prec f - 1)) in *.
  assert (Hh2 : (two (ff_prec f - 1) == inject_Z h)%Q) by (apply two_Z; lia).
  (* x < 2^p *)
  assert (Hx1 : n' < (2 * h) * d').
  { apply frac_lt; auto. assert (Hle : (two (g + 1) <= two (1 + (ff_prec f - 1) + e))%Q) by (apply two_le; unfold e; lia).
    rewrite !two_add, two_1, Hh2 in Hle. rewrite inject_Z_mult. change (inject_Z 2) with 2%Q. rewrite two_add, two_1 in Hb2.
    apply (Qmult_lt_r _ _ (two e) He). rewrite Hv. lra. }
  assert (Hx2 : ff_emin f < e -> h * d' <= n').
  { intros Hgt. apply frac_le; auto.
    assert (Hg : g = e + (ff_prec f - 1)) by (unfold e in *; lia).
    rewrite Hg, two_add, Hh2 in Hb1. apply (Qmult_le_r _ _ (two e) He). rewrite Hv. lra. }
  destruct (rhe_bounds n' d' 0 (2 * h) Hd' ltac:(lia) Hx1) as [Hm0 Hm1].
  assert (Hm2 : ff_emin f < e -> h <= round_half_even n' d').
  { intros Hgt. apply (rhe_bounds n' d' h (2 * h)); auto. }
  pose proof (rhe_top n' d' h Hd' Hn' Hh Hx1) as Htop.
  cbv zeta. set (m := round_half_even n' d') in *. unfold ff_inf. fold h.
  assert (Hee : ff_emin f <= e) by (unfold e; lia).
  destruct (Z_lt_le_dec e (ff_etop f)) as [Hlt|Hge].
  - assert (Hl : (e - ff_emin f) * h + m < (2 ^ ff_ebits f - 1) * h) by (unfold ff_etop in *; nia).
    destruct (Z.ltb_spec ((e - ff_emin f) * h + m) ((2 ^ ff_ebits f - 1) * h)); [|lia].
    split; [discriminate|]. intros Hx. exfalso.
    apply (frac_lt (2 * h) n' d' Hd') in Hx1.
    assert (Hle : (two (e + 1) <= two (ff_etop f))%Q) by (apply two_le; lia).
    rewrite two_add, two_1 in Hle.
    assert (Hq : (frac n d < inject_Z (2 * h) * two e)%Q) by (rewrite <- Hv; apply Qmult_lt_r; auto).
    assert (Hz : (inject_Z (4 * h - 1) == 2 * inject_Z (2 * h) - 1)%Q).
    { unfold Zminus. rewrite inject_Z_plus, !inject_Z_mult. change (inject_Z 4) with 4%Q.
      change (inject_Z 2) with 2%Q. change (inject_Z (- (1))) with (-1)%Q. ring. }
    rewrite Hz in Hx. pose proof (inj_pos (2 * h) ltac:(lia)).
    assert (Hh1 : (2 <= inject_Z (2 * h))%Q). { change 2%Q with (inject_Z 2). rewrite <- Zle_Qle. lia. }
    nra.
  - destruct (Z.eq_dec e (ff_etop f)) as [Heq|Hne].
    + assert (Hiff : (2 ^ ff_ebits f - 1) * h <= (e - ff_emin f) * h + m <-> m = 2 * h)
        by (unfold ff_etop in *; nia).
      assert (Hq : (inject_Z (4 * h - 1) * two (ff_etop f) <= 2 * frac n d)%Q <-> (4 * h - 1) * d' <= 2 * n').
      { rewrite <- Hv, <- Heq. rewrite Zle_Qle, !inject_Z_mult. change (inject_Z 2) with 2%Q.
        rewrite <- (frac_mul n' d' Hd'). pose proof (inj_pos d' Hd').
        split; intros Hx; [|].
        - assert ((inject_Z (4 * h - 1) <= 2 * frac n' d')%Q) by (apply (Qmult_le_r _ _ (two e) He); lra). nra.
        - assert ((inject_Z (4 * h - 1) <= 2 * frac n' d')%Q) by (apply (Qmult_le_r _ _ (inject_Z d') H); lra). nra. }
      rewrite Hq, <- Htop, <- Hiff.
      destruct (Z.ltb_spec ((e - ff_emin f) * h + m) ((2 ^ ff_ebits f - 1) * h)); split; auto; try discriminate; lia.
    + assert (Hgt : ff_emin f < e) by (unfold ff_etop in *; lia).
      specialize (Hm2 Hgt). specialize (Hx2 Hgt).
      assert (Hl : (2 ^ ff_ebits f - 1) * h <= (e - ff_emin f) * h + m) by (unfold ff_etop in *; nia).
      destruct (Z.ltb_spec ((e - ff_emin f) * h + m) ((2 ^ ff_ebits f - 1) * h)); [lia|].
      split; auto. intros _.
      apply (frac_le h n' d' Hd') in Hx2.
      assert (Hle : (two (ff_etop f + 1) <= two e)%Q) by (apply two_le; lia).
      rewrite two_add, two_1 in Hle.
      assert (Hq : (inject_Z h * two e <= frac n d)%Q) by (rewrite <- Hv; apply Qmult_le_r; auto).
      assert (Hz : (inject_Z (4 * h - 1) == 4 * inject_Z h - 1)%Q).
      { unfold Zminus. rewrite inject_Z_plus, !inject_Z_mult. change (inject_Z 4) with 4%Q.
        change (inject_Z (- (1))) with (-1)%Q. ring. }
      rewrite Hz. pose proof (inj_pos h Hh). nra.
Qed.

(** ** Rounding is to a nearest number *)

Lemma rhe_nearest n d k : 0 < d -> Z.abs (2 * (round_half_even n d * d - n)) <= Z.abs (2 * (k * d - n)).
Proof.
  intros Hd. unfold round_half_even.
  pose proof (Z.div_mod n d ltac:(lia)) as Hdm. pose proof (Z.mod_pos_bound n d Hd) as Hmb.
  set (q := n / d) in *. set (r := n mod d) in *.
  assert (Hk : k <= q \/ q + 1 <= k) by lia.
  destruct (Z.ltb_spec (2 * r) d); [|destruct (Z.ltb_spec d (2 * r)); [|destruct (Z.even q)]];
    destruct Hk as [Hk|Hk]; nia.
Qed.

Lemma Zabs_scale a n d : 0 < d -> (Qabs (inject_Z a - frac n d) * inject_Z d == inject_Z (Z.abs (a * d - n)))%Q.
Proof.
  intros Hd. pose proof (inj_pos d Hd) as Hp. pose proof (frac_mul n d Hd) as Hm.
  assert (He : ((inject_Z a - frac n d) * inject_Z d == inject_Z (a * d - n))%Q).
  { unfold Zminus. rewrite inject_Z_plus, inject_Z_mult, inject_Z_opp. rewrite <- Hm. ring. }
  transitivity (Qabs ((inject_Z a - frac n d) * inject_Z d))%Q.
  - rewrite Qabs_Qmult. rewrite (Qabs_pos (inject_Z d)) by lra. reflexivity.
  - rewrite He. destruct (Z.abs_spec (a * d - n)) as [[H1 H2]|[H1 H2]]; rewrite H2.
    + apply Qabs_pos. change 0%Q with (inject_Z 0). rewrite <- Zle_Qle. auto.
    + rewrite inject_Z_opp. apply Qabs_neg. change 0%Q with (inject_Z 0). rewrite <- Zle_Qle. lia.
Qed.

Lemma rhe_nearest_q n d k : 0 < d ->
  (Qabs (inject_Z (round_half_even n d) - frac n d) <= Qabs (inject_Z k - frac n d))%Q.
Proof.
  intros Hd. pose proof (inj_pos d Hd) as Hp.
  apply (Qmult_le_r _ _ (inject_Z d) Hp). rewrite !Zabs_scale by auto. rewrite <- Zle_Qle.
  pose proof (rhe_nearest n d k Hd). lia.
Qed.

Lemma unpack_carry f e m mag : format_ok f -> ff_emin f <= e -> 0 <= m <= 2 * 2 ^ (ff_prec f - 1) ->
  (ff_emin f < e -> 2 ^ (ff_prec f - 1) <= m) -> mag = (e - ff_emin f) * 2 ^ (ff_prec f - 1) + m ->
  exists m' e', unpack_mag f mag = (m', e') /\ (inject_Z m' * two e' == inject_Z m * two e)%Q.
Proof.
  intros [Hp Hw] He Hm Hlow ->. assert (Hh : 0 < 2 ^ (ff_prec f - 1)) by (apply Z.pow_pos_nonneg; lia).
  unfold unpack_mag. set (h := 2 ^ (ff_prec f - 1)) in *.
  destruct (Z_lt_le_dec m h) as [Hs|Hs].
  - assert (e = ff_emin f) by lia. subst e. exists m, (ff_emin f).
    replace ((ff_emin f - ff_emin f) * h + m) with m by lia.
    rewrite Z.div_small, Z.mod_small by lia. split; reflexivity.
  - destruct (Z.eq_dec m (2 * h)) as [->|Hne].
    + exists h, (e + 1).
      assert (Hdiv : ((e - ff_emin f) * h + 2 * h) / h = e - ff_emin f + 2).
      { symmetry. apply (Z.div_unique _ _ _ 0); lia. }
      assert (Hmod : ((e - ff_emin f) * h + 2 * h) mod h = 0).
      { symmetry. apply (Z.mod_unique _ _ (e - ff_emin f + 2)); lia. }
      rewrite Hdiv, Hmod. destruct (Z.eqb_spec (e - ff_emin f + 2) 0); [lia|]. split; [f_equal; lia|].
      rewrite two_add, two_1, inject_Z_mult. change (inject_Z 2) with 2%Q. ring.
    + exists m, e.
      assert (Hdiv : ((e - ff_emin f) * h + m) / h = e - ff_emin f + 1).
      { symmetry. apply (Z.div_unique _ _ _ (m - h)); lia. }
      assert (Hmod : ((e - ff_emin f) * h + m) mod h = m - h).
      { symmetry. apply (Z.mod_unique _ _ (e - ff_emin f + 1)); lia. }
      rewrite Hdiv, Hmod. destruct (Z.eqb_spec (e - ff_emin f + 1) 0); [lia|]. split; [f_equal; lia|reflexivity].
Qed.

Lemma round_nearest f n d mag mag2 m2 e2 : format_ok f -> 0 <= n -> 0 < d ->
  round_mag f n d = Some mag -> 0 <= mag2 < ff_inf f -> unpack_mag f mag2 = (m2, e2) ->
  0 <= mag < ff_inf f /\
  exists m e, unpack_mag f mag = (m, e)
    /\ (Qabs (inject_Z m * two e - frac n d) <= Qabs (inject_Z m2 * two e2 - frac n d))%Q.
Proof.
  intros Hok Hn Hd Hr Hmag2 Hu2. pose proof (inf_pos f Hok) as Hinf.
  destruct (unpack_bounds f mag2 m2 e2 Hok Hmag2 Hu2) as (Hm2 & He2 & _).
  unfold round_mag in Hr. destruct (Z.eqb_spec n 0) as [->|Hnz].
  { injection Hr as <-. split; [lia|]. exists 0, (ff_emin f). split.
    - unfold unpack_mag. assert (0 < 2 ^ (ff_prec f - 1)) by (destruct Hok; apply Z.pow_pos_nonneg; lia).
      rewrite Z.div_0_l, Z.mod_0_l by lia. reflexivity.
    - assert (Hz : (inject_Z 0 * two (ff_emin f) - frac 0 d == 0)%Q).
      { unfold frac. change (inject_Z 0) with 0%Q. field. pose proof (inj_pos d Hd). lra. }
      rewrite Hz. apply Qabs_nonneg. }
  assert (Hb : binade (frac n d) (exp_guess n d)) by (apply exp_guess_binade; lia).
  set (g := exp_guess n d) in *. set (e := Z.max (ff_emin f) (g - (ff_prec f - 1))) in *.
  destruct (pow2q n d e) as [n' d'] eqn:Hpq. apply pow2q_frac in Hpq as Hv; auto. destruct Hv as [Hd' Hv].
  assert (Hn' : 0 <= n').
  { unfold pow2q in Hpq. destruct (0 <=? e); injection Hpq as <- <-; auto.
    assert (0 <= 2 ^ (- e)) by (apply Z.pow_nonneg; lia). nia. }
  destruct Hb as [Hb1 Hb2]. pose proof (two_pos e) as He.
  destruct Hok as [Hp Hw].
  assert (Hh : 0 < 2 ^ (ff_prec f - 1)) by (apply Z.pow_pos_nonneg; lia).
  set (h := 2 ^ (ff_prec f - 1)) in *.
  assert (Hh2 : (two (ff_prec f - 1) == inject_Z h)%Q) by (apply two_Z; lia).
  assert (Hx1 : n' < (2 * h) * d').
  { apply frac_lt; auto. assert (Hle : (two (g + 1) <= two (1 + (ff_prec f - 1) + e))%Q) by (apply two_le; unfold e; lia).
    rewrite !two_add, two_1, Hh2 in Hle. rewrite inject_Z_mult. change (inject_Z 2) with 2%Q. rewrite two_add, two_1 in Hb2.
    apply (Qmult_lt_r _ _ (two e) He). rewrite Hv. lra. }
  assert (Hx2 : ff_emin f < e -> h * d' <= n').
  { intros Hgt. apply frac_le; auto.
    assert (Hg : g = e + (ff_prec f - 1)) by (unfold e in *; lia).
    rewrite Hg, two_add, Hh2 in Hb1. apply (Qmult_le_r _ _ (two e) He). rewrite Hv. lra. }
  destruct (rhe_bounds n' d' 0 (2 * h) Hd' ltac:(lia) Hx1) as [Hm0 Hm1].
  assert (Hml : ff_emin f < e -> h <= round_half_even n' d').
  { intros Hgt. apply (rhe_bounds n' d' h (2 * h)); auto. }
  cbv zeta in Hr. pose proof (rhe_nearest_q n' d') as Hnear. set (m := round_half_even n' d') in *.
  assert (Hee : ff_emin f <= e) by (unfold e; lia).
  destruct (Z.ltb_spec ((e - ff_emin f) * h + m) (ff_inf f)) as [Hlt|]; [|discriminate].
  injection Hr as <-. split; [nia|].
  destruct (unpack_carry f e m _ (conj Hp Hw) Hee (conj Hm0 Hm1) Hml eq_refl) as (m' & e' & Hu' & Hv').
  fold h in Hu'. exists m', e'. split; auto.
  assert (Hscale : forall k, (Qabs (inject_Z k * two e - frac n d) == Qabs (inject_Z k - frac n' d') * two e)%Q).
  { intros k. rewrite <- Hv. rewrite <- (Qabs_pos (two e)) at 3 by lra. rewrite <- Qabs_Qmult.
    apply Qabs_wd. ring. }
  rewrite Hv'. rewrite Hscale.
  assert (Hgrid : forall k, (Qabs (inject_Z m - frac n' d') * two e <= Qabs (inject_Z k * two e - frac n d))%Q).
  { intros k. rewrite Hscale. apply Qmult_le_r; auto. }
  destruct (Z_lt_le_dec e2 e) as [Hlt2|Hge2].
  - (* below the grid *)
    assert (Hgt : ff_emin f < e) by lia. specialize (Hx2 Hgt).
    apply (frac_le h n' d' Hd') in Hx2.
    assert (Hq : (inject_Z h * two e <= frac n d)%Q) by (rewrite <- Hv; apply Qmult_le_r; auto).
    assert (Hv2 : (inject_Z m2 * two e2 <= inject_Z h * two e)%Q).
    { assert (Hle : (two (e2 + 1) <= two e)%Q) by (apply two_le; lia). rewrite two_add, two_1 in Hle.
      assert (Hmm : (inject_Z m2 <= 2 * inject_Z h)%Q).
      { change 2%Q with (inject_Z 2). rewrite <- inject_Z_mult, <- Zle_Qle.
        replace (2 * h) with (2 ^ ff_prec f); [lia|]. unfold h. rewrite <- Z.pow_succ_r by lia. f_equal. lia. }
      pose proof (two_pos e2). pose proof (inj_pos h Hh). nra. }
    eapply Qle_trans; [apply (Hgrid h)|].
    rewrite (Qabs_neg (inject_Z h * two e - frac n d)) by lra.
    rewrite (Qabs_neg (inject_Z m2 * two e2 - frac n d)) by lra. lra.
  - assert (Hs : (inject_Z m2 * two e2 == inject_Z (m2 * 2 ^ (e2 - e)) * two e)%Q) by (apply two_shift; auto).
    rewrite Hs. apply Hgrid.
Qed.
