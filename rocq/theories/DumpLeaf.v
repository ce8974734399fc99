(** What the field classes without components raise when they are given values of the right
    type (C74). *)
From Coq Require Import QArith Qabs Lqa.
From Verif Require Import Tac SpecDump FloatMore TimeNano CodecsProofs FieldProofs.
Open Scope Z_scope.

Lemma pack64_ok e bits : exists bs, pack_float binary64 e bits = Ok bs.
Proof.
  unfold pack_float, convert. destruct (classify binary64 bits) eqn:Hc; try (eexists; reflexivity).
  destruct (unpack_mag binary64 (magnitude binary64 bits)) as [m ex] eqn:Hu.
  destruct (dyadic m ex) as [n d] eqn:Hd.
  assert (Hr : round_mag binary64 n d = Some (magnitude binary64 bits)).
  { assert (Hm : 0 <= magnitude binary64 bits < ff_inf binary64).
    { split.
      - unfold magnitude. apply Z.mod_pos_bound. reflexivity.
      - unfold classify in Hc. destruct (Z.ltb_spec (magnitude binary64 bits) (ff_inf binary64)); auto.
        destruct (magnitude binary64 bits =? ff_inf binary64); discriminate. }
    pose proof (dyadic_frac _ _ _ _ Hd) as [H1 H2].
    apply (round_canonical binary64 _ n d m ex ok64 Hm Hu); auto. }
  rewrite Hr. eexists. reflexivity.
Qed.

Lemma stamp_exists us aware : is_datetime aware us -> exists n d, py_timestamp us aware = Ok (n, d) /\ 0 < d
  /\ (- two 60 < frac n d /\ frac n d < two 60)%Q.
Proof.
  intros Hu.
  assert (L : (- (253402300800 * 1000000) < inject_Z us /\ inject_Z us < 253402300800 * 1000000)%Q).
  { unfold is_datetime in Hu. change (253402300800 * 1000000)%Q with (inject_Z (253402300800 * 1000000)).
    rewrite <- inject_Z_opp, <- !Zlt_Qlt. destruct aware; lia. }
  assert (Hf : (frac us 1000000 * 1000000 == inject_Z us)%Q) by (apply (frac_mul us 1000000); lia).
  assert (T40 : (two 40 == 1099511627776)%Q) by reflexivity.
  assert (T40e : (two (40 - 54) == 1 # 16384)%Q) by reflexivity.
  assert (T60 : (two 60 == 1152921504606846976)%Q) by reflexivity.
  unfold py_timestamp. destruct aware.
  - destruct (rnd64_abs us 1000000 40 ltac:(lia) ltac:(lia)) as (n & d & E & Hd & B1 & B2);
      [rewrite T40; lra|rewrite T40; lra|]. rewrite T40e in B1, B2.
    rewrite E. exists n, d. split; auto. split; auto. rewrite T60. split; lra.
  - replace (us <? first_datetime_us false) with false
      by (symmetry; apply Z.ltb_ge; unfold is_datetime, first_datetime_us, min_datetime_us in *; lia).
    pose proof (Z.div_mod us 1000000 ltac:(lia)) as Hdm. pose proof (Z.mod_pos_bound us 1000000 ltac:(lia)) as Hmb.
    set (s := us / 1000000) in *. set (m := us mod 1000000) in *.
    assert (Hm : (frac m 1000000 * 1000000 == inject_Z m)%Q) by (apply (frac_mul m 1000000); lia).
    assert (Hmq : (0 <= inject_Z m /\ inject_Z m <= 999999)%Q).
    { change 0%Q with (inject_Z 0). change 999999%Q with (inject_Z 999999). rewrite <- !Zle_Qle. lia. }
    assert (Hs : (inject_Z us == 1000000 * inject_Z s + inject_Z m)%Q).
    { change 1000000%Q with (inject_Z 1000000). rewrite <- inject_Z_mult, <- inject_Z_plus, <- Hdm. reflexivity. }
    destruct (rnd64_abs m 1000000 0 ltac:(lia) ltac:(lia)) as (n & d & E & Hd & B1 & B2);
      [rewrite two_0; lra|rewrite two_0; lra|]. rewrite two_0e in B1, B2.
    rewrite E. cbn [opt_res bind]. unfold radd. cbn [fst snd].
    assert (Ha : (frac (s * d + n * 1) (1 * d) == inject_Z s + frac n d)%Q).
    { pose proof (inj_pos d Hd). destruct (frac_Q (s * d + n * 1) (1 * d)) as [->|]; [|lia].
      destruct (frac_Q n d) as [->|]; [|lia]. rewrite inject_Z_plus, !inject_Z_mult.
      change (inject_Z 1) with 1%Q. field. lra. }
    destruct (rnd64_abs (s * d + n * 1) (1 * d) 40 ltac:(lia) ltac:(lia)) as (n2 & d2 & E2 & Hd2 & B3 & B4);
      [rewrite T40, Ha; lra|rewrite T40, Ha; lra|]. rewrite T40e, Ha in B3, B4.
    rewrite E2. exists n2, d2. split; auto. split; auto. rewrite T60. split; lra.
Qed.

Lemma time_exists r us aware : is_datetime aware us -> exists k, time_to_int r us aware = Ok k.
Proof.
  intros Hu. unfold time_to_int. destruct (stamp_exists us aware Hu) as (n & d & -> & Hd & L1 & L2).
  assert (T60 : (two 60 == 1152921504606846976)%Q) by reflexivity. rewrite T60 in L1, L2.
  assert (T100 : (two 100 == 1267650600228229401496703205376)%Q) by reflexivity.
  cbn [bind]. unfold rmul. cbn [fst snd].
  assert (Hp : (frac (n * res_units r) (d * 1) == frac n d * inject_Z (res_units r))%Q).
  { rewrite frac_prod by (destruct r; cbn; lia). rewrite frac_1. reflexivity. }
  assert (Hr : (1 <= inject_Z (res_units r) /\ inject_Z (res_units r) <= 1000000000)%Q).
  { change 1%Q with (inject_Z 1). change 1000000000%Q with (inject_Z 1000000000).
    rewrite <- !Zle_Qle. destruct r; cbn; lia. }
  destruct (rnd64_abs (n * res_units r) (d * 1) 100 ltac:(lia) ltac:(lia)) as (n2 & d2 & E2 & _);
    [rewrite T100, Hp; destruct r; cbn [res_units];
       [change (inject_Z 1) with 1%Q|change (inject_Z 1000) with 1000%Q
        |change (inject_Z 1000000) with 1000000%Q|change (inject_Z 1000000000) with 1000000000%Q]; lra..|].
  rewrite E2. cbn [opt_res bind]. eexists. reflexivity.
Qed.

Lemma catch_reported {A} name (m : dumped A) o e :
  (forall o e, m = (o, Raise e) -> reported e \/ is_ValueError_or_OverflowError e = true) ->
  catch_value_error name m = (o, Raise e) -> reported e.
Proof.
  intros Hm H. unfold catch_value_error in H. destruct m as [o1 [a|x|]]; try discriminate.
  destruct (Hm o1 x eq_refl) as [Hr|Hr].
  - destruct (is_ValueError_or_OverflowError x); injection H as <- <-; auto. reflexivity.
  - rewrite Hr in H. injection H as <- <-. reflexivity.
Qed.

Lemma write_int_caught z n sg e o x : write_int z n sg e = (o, Raise x) -> is_ValueError_or_OverflowError x = true.
Proof.
  unfold write_int, py_to_bytes. destruct (n <? 0); [intros [= <- <-]; auto|].
  match goal with |- context [if ?b then _ else _] => destruct b end.
  - discriminate.
  - intros [= <- <-]. auto.
Qed.

Lemma vli_caught fmt z x : vli_encode fmt z = Raise x -> is_ValueError_or_OverflowError x = true.
Proof.
  destruct fmt; cbn [vli_encode].
  - unfold encode_integer_compact. cbv zeta. destruct (z =? 0); [discriminate|].
    destruct (fill_back _ _ _). discriminate.
  - unfold encode_integer_leb128. destruct (z =? 0); discriminate.
  - unfold encode_integer_uleb128. destruct (z <? 0); [intros [= <-]; auto|]. destruct (z =? 0); [discriminate|].
    destruct (uleb_loop _ _); discriminate.
  - unfold encode_integer_vlq. destruct (z <? 0); [intros [= <-]; auto|]. destruct (z =? 0); discriminate.
Qed.

(** Which exceptions a field class raises for a value of its type. *)
Lemma leaf_errors c k g v o e : right_type k v -> (forall x, g = Raise x -> reported x) ->
  leaf_dump c k g v = (o, Raise e) -> reported e \/ dump_escapes k e.
Proof.
  intros Ht Hg. destruct k as [sg en|fmt mx|fmt en|r tz sg en| |cd pad|cd pad|fmt|comp cnt halt|cid|choices ld dmp];
    destruct v; try contradiction; cbn [leaf_dump dump_escapes].
  - destruct (c_size c); try (intros [= <- <-]; left; reflexivity).
    intros H. left. eapply catch_reported; [|exact H]. intros. right. eapply write_int_caught; eauto.
  - intros H. left. cbn [vli_encode_value] in H. unfold dbind at 1 in H.
    destruct (catch_value_error (c_name c) (dlift (vli_encode fmt z))) as [o1 [bs|x|]] eqn:Hc; try discriminate.
    + match type of H with context [if ?b then _ else _] => destruct b end; [|discriminate].
      injection H as <- <-. reflexivity.
    + injection H as <- <-. eapply catch_reported; [|exact Hc]. intros o2 y Hy. right.
      unfold dlift in Hy. injection Hy as <- Hy. eapply vli_caught; eauto.
  - destruct (float_of_int z) as [bits|]; [|intros [= <- <-]; left; reflexivity].
    destruct (pack_float fmt en bits) as [bs|x|] eqn:Hp; try discriminate. intros [= <- <-]. right. split.
    + intros ->. destruct (pack64_ok en bits). congruence.
    + unfold pack_float in Hp. destruct (convert _ _ _); congruence.
  - destruct (pack_float fmt en bits) as [bs|x|] eqn:Hp; try discriminate. intros [= <- <-]. right. split.
    + intros ->. destruct (pack64_ok en bits). congruence.
    + unfold pack_float in Hp. destruct (convert _ _ _); congruence.
  - destruct (time_exists r us aware Ht) as [k ->]. intros H. left. rewrite dbind_ok in H.
    eapply catch_reported; [|exact H]. intros o1 x Hx. destruct g as [n|y|]; try discriminate.
    + right. rewrite dbind_ok in Hx. eapply write_int_caught; eauto.
    + left. injection Hx as <- <-. auto.
  - intros H. left. destruct g as [n|y|]; try discriminate.
    + rewrite dbind_ok in H. cbn [py_len] in H. destruct (negb _); [|discriminate]. injection H as <- <-. reflexivity.
    + injection H as <- <-. auto.
  - unfold encode_and_resize. destruct (encode cd _) as [bs|x|] eqn:He; cbn [bind]; try discriminate.
    + destruct g as [n|y|]; try discriminate; cbn [bind].
      * intros H. left. repeat match type of H with context [if ?b then _ else _] => destruct b end.
        -- injection H as <- <-. reflexivity.
        -- destruct pad; [discriminate|]. injection H as <- <-. reflexivity.
        -- discriminate.
      * intros [= <- <-]. left. auto.
    + intros [= <- <-]. right. eapply encode_raise; eauto.
  - destruct (encode cd _) as [bs|x|] eqn:He; try discriminate. intros [= <- <-]. right. eapply encode_raise; eauto.
  - destruct fmt; discriminate.
Qed.
