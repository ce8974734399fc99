(** The serialized form of leaf fields (C75). *)
From Coq Require Import QArith.
From Verif Require Import Tac PyIntProofs StreamProofs VarintsProofs VarintsMore FieldProofs LeafProofs LeafMore.
From Verif Require Import UuidProofs FloatMore TimeProofs RoundLeaf SpecWire.
Open Scope Z_scope.

(** ** Variable-length integers *)
Lemma be7_digits a : forall b x y, length a = length b -> 0 <= x -> 0 <= y ->
  be7_from x a = be7_from y b -> x = y /\ Forall2 (fun p q => p mod 128 = q mod 128) a b.
Proof.
  induction a as [|p a IH]; intros [|q b] x y Hl Hx Hy H; try discriminate; cbn in H.
  - auto.
  - pose proof (Z.mod_pos_bound p 128). pose proof (Z.mod_pos_bound q 128).
    destruct (IH b (x * 128 + p mod 128) (y * 128 + q mod 128)) as (He & Hf); auto; try lia; try (cbn in Hl; lia).
    split; [|constructor; auto]; lia.
Qed.

Lemma le7_digits a : forall b, length a = length b -> le7 a = le7 b ->
  Forall2 (fun p q => p mod 128 = q mod 128) a b.
Proof.
  induction a as [|p a IH]; intros [|q b] Hl H; try discriminate; [constructor|].
  change (p mod 128 + 128 * le7 a = q mod 128 + 128 * le7 b) in H.
  pose proof (Z.mod_pos_bound p 128). pose proof (Z.mod_pos_bound q 128).
  constructor; [lia|]. apply IH; [cbn in Hl; lia|]. lia.
Qed.

Lemma digits_same a b : terminated a -> terminated b ->
  Forall2 (fun p q => p mod 128 = q mod 128) a b -> a = b.
Proof.
  intros (i & l & -> & Hi & Hl) (i' & l' & -> & Hi' & Hl') H.
  assert (Hlen : length i = length i').
  { assert (Hx : length (i ++ [l]) = length (i' ++ [l'])).
    { clear Hi Hl Hi' Hl'. induction H; cbn; auto. }
    rewrite !app_length in Hx. cbn in Hx. lia. }
  revert i' Hi' Hlen H. induction i as [|x i IH]; intros [|y i'] Hi' Hlen H; try discriminate.
  - inversion H as [|? ? ? ? Hd _]; subst. rewrite !Z.mod_small in Hd by lia. subst. reflexivity.
  - inversion H as [|? ? ? ? Hd Hr]; subst. apply Forall_cons_iff in Hi as [Hx Hi].
    apply Forall_cons_iff in Hi' as [Hy Hi']. cbn. f_equal; [|apply IH; auto].
    assert (Hm : forall z, 128 <= z < 256 -> z mod 128 = z - 128).
    { intros z Hz. symmetry. apply Z.mod_unique with (q := 1); lia. }
    rewrite !Hm in Hd by lia. lia.
Qed.

Lemma same_form fmt a b : terminated a -> terminated b -> length a = length b ->
  spec_value fmt a = spec_value fmt b -> (fmt = COMPACT_INDICES -> spec_value fmt a <> 0) -> a = b.
Proof.
  intros Ta Tb Hl H Hz. apply digits_same; auto. destruct fmt; cbn [spec_value] in H.
  - specialize (Hz eq_refl). destruct a as [|p a], b as [|q b]; try discriminate; [constructor|].
    cbn [spec_value] in Hz. pose proof (Z.mod_pos_bound p 64 ltac:(lia)). pose proof (Z.mod_pos_bound q 64 ltac:(lia)).
    pose proof (be7_from_bound a (p mod 64) ltac:(lia)). pose proof (be7_from_bound b (q mod 64) ltac:(lia)).
    assert (Ha : 0 <= be7_from (p mod 64) a) by (pose proof (pow128_pos (length a)); nia).
    assert (Hb : 0 <= be7_from (q mod 64) b) by (pose proof (pow128_pos (length b)); nia).
    assert (Hs : (p mod 128 <? 64) = (q mod 128 <? 64) /\ be7_from (p mod 64) a = be7_from (q mod 64) b).
    { destruct (p mod 128 <? 64), (q mod 128 <? 64); split; auto; lia. }
    destruct Hs as [Hs Hv]. destruct (be7_digits a b (p mod 64) (q mod 64)) as (He & Hf); auto; try lia.
    constructor; auto.
    destruct (Z.ltb_spec (p mod 128) 64), (Z.ltb_spec (q mod 128) 64); try discriminate; dmlia.
  - apply le7_digits; auto. rewrite <- Hl in H. cbv zeta in H.
    set (n := 7 * Z.of_nat (length a)) in *. pose proof (le7_bound a) as Ba. pose proof (le7_bound b) as Bb.
    rewrite <- Hl, <- pow2_7 in Bb. rewrite <- pow2_7 in Ba. fold n in Ba, Bb.
    assert (Hn : 7 <= n) by (unfold n; pose proof (terminated_ge1 a Ta); lia).
    assert (Hp : 2 ^ n = 2 * 2 ^ (n - 1)) by (rewrite <- Z.pow_succ_r by lia; f_equal; lia).
    destruct (Z.ltb_spec (le7 a) (2 ^ (n - 1))), (Z.ltb_spec (le7 b) (2 ^ (n - 1))); lia.
  - apply le7_digits; auto.
  - apply (be7_digits a b 0 0); auto; lia.
Qed.

Lemma zlen_same {A B} (a : list A) (b : list B) : zlen a = zlen b -> length a = length b.
Proof. unfold zlen. lia. Qed.

Lemma vli_form_iff fmt z bs : vli_encode fmt z = Ok bs <-> vli_form fmt z bs.
Proof.
  assert (Fwd : forall b, vli_encode fmt z = Ok b -> vli_form fmt z b).
  { intros b H. destruct (encode_ok_inv _ _ _ H) as (He & Ht & Hv). split; auto. split; auto.
    assert (Hmin : fmt <> LEB128 -> forall other, terminated other -> spec_value fmt other = z -> zlen b <= zlen other).
    { intros Hf other To Ho. eapply encode_minimal; eauto. }
    destruct fmt; cbn [encodable vli_encode] in *.
    - destruct (encode_compact_spec z) as (b' & H' & _ & _ & _ & Hz). rewrite H in H'. injection H' as <-.
      split; auto. apply Hmin. discriminate.
    - destruct (encode_leb_spec z) as (b' & H' & _ & _ & Hm & Hz). rewrite H in H'. injection H' as <-.
      destruct (Z.eq_dec z 0) as [->|Hz0].
      + rewrite Hz by auto. split; [reflexivity|]. left; reflexivity.
      + specialize (Hm Hz0). split; [lia|]. right. lia.
    - destruct (encode_uleb_spec z He) as (b' & H' & _ & _ & _ & Hz). rewrite H in H'. injection H' as <-.
      split; auto. apply Hmin. discriminate.
    - destruct (encode_vlq_spec z He) as (b' & H' & _ & _ & _ & Hz). rewrite H in H'. injection H' as <-.
      split; auto. apply Hmin. discriminate. }
  split; [apply Fwd|]. intros (Ht & Hv & Hm).
  assert (He : encodable fmt z).
  { pose proof (spec_value_bound fmt bs Ht) as Hb. rewrite Hv in Hb. destruct fmt; cbn; auto; lia. }
  destruct (encode_spec fmt z He) as (b & Hb & _). destruct (Fwd b Hb) as (Tb & Vb & Mb).
  rewrite Hb. f_equal. destruct (Z.eq_dec z 0) as [Hz|Hz].
  - assert (Hcase : fmt = LEB128 \/ b = [0] /\ bs = [0]).
    { destruct fmt; auto; right; split; [apply Mb|apply Hm|apply Mb|apply Hm|apply Mb|apply Hm]; auto. }
    destruct Hcase as [->|[-> ->]]; auto. rewrite Hz in Hm, Mb.
    assert (Hone : forall x, terminated x -> 2 * Z.abs 0 < 2 ^ (7 * zlen x)
              /\ (zlen x = 1 \/ 2 ^ (7 * (zlen x - 1)) <= 2 * Z.abs 0) -> zlen x = 1).
    { intros x Tx [_ [Hx|Hx]]; auto. pose proof (zlen_term x Tx).
      assert (0 < 2 ^ (7 * (zlen x - 1))) by (apply Z.pow_pos_nonneg; lia). lia. }
    apply (same_form LEB128); auto; try congruence; apply zlen_same. rewrite !Hone; auto.
  - assert (Hl : zlen b = zlen bs).
    { destruct fmt.
      2:{ pose proof (zlen_term _ Ht) as L1. pose proof (zlen_term _ Tb) as L2.
          assert (Hle : forall x y, 1 <= x -> 1 <= y -> 2 * Z.abs z < 2 ^ (7 * y) ->
                     x = 1 \/ 2 ^ (7 * (x - 1)) <= 2 * Z.abs z -> x <= y).
          { intros x y Hx Hy Hlt [->|Hge]; [lia|].
            assert (7 * (x - 1) < 7 * y); [|lia]. apply (pow_lt_inv 2); lia. }
          destruct Hm, Mb. apply Z.le_antisymm; apply Hle; auto. }
      all: destruct Hm as [_ Hm], Mb as [_ Mb]; apply Z.le_antisymm; [apply Mb|apply Hm]; auto. }
    apply (same_form fmt); auto; try congruence. apply zlen_same; auto.
Qed.

(** ** Fixed-size integers *)
Lemma int_form_iff sg e z n bs : py_to_bytes z n e sg = Ok bs <-> zlen bs = n /\ int_form sg e z bs.
Proof.
  split.
  - intros H. destruct (py_to_bytes_ok _ _ _ _ _ H) as (Hn & Hf & Hl & Hok).
    split; auto. split; auto. rewrite Hl. split; [apply fits_range; auto|].
    unfold py_to_bytes in H. destruct (Z.ltb_spec n 0); [lia|]. rewrite Hf in H. injection H as <-.
    rewrite bits_of_order, order_involutive, le_value_le_bytes, Z2Nat.id, pow256 by lia.
    rewrite Z.mod_mod by (apply Z.pow_nonzero; lia). rewrite Zminus_mod_idemp_r, Z.sub_diag. apply Z.mod_0_l.
    apply Z.pow_nonzero; lia.
  - intros (Hn & Hok & Hr & Hm). unfold py_to_bytes. pose proof (zlen_nonneg bs).
    destruct (Z.ltb_spec n 0); [lia|]. rewrite <- Hn.
    rewrite (proj2 (fits_range sg (zlen bs) z) Hr). f_equal.
    assert (Hb : z mod 2 ^ (8 * zlen bs) = le_value (order e bs)).
    { rewrite bits_of_order in Hm.
      pose proof (le_value_bound (order e bs) (order_ok e bs Hok)) as Hle. rewrite zlen_order, pow256 in Hle by lia.
      rewrite <- (Z.mod_small (le_value (order e bs)) (2 ^ (8 * zlen bs))) by auto.
      apply Z.mod_divide in Hm; [|apply Z.pow_nonzero; lia]. destruct Hm as [q Hq].
      replace z with (le_value (order e bs) + q * 2 ^ (8 * zlen bs)) by lia.
      apply Z.mod_add. apply Z.pow_nonzero; lia. }
    rewrite Hb. unfold zlen. rewrite Nat2Z.id. rewrite <- (order_length e bs), le_bytes_le_value by (apply order_ok; auto).
    apply order_involutive.
Qed.

(** ** UUIDs *)
Lemma be_value_inj a b : bytes_ok a -> bytes_ok b -> length a = length b -> be_value a = be_value b -> a = b.
Proof.
  intros Ha Hb Hl H. change (bits_of Big a = bits_of Big b) in H. rewrite !bits_of_order in H. cbn [order] in H.
  rewrite <- (rev_involutive a), <- (rev_involutive b). f_equal.
  rewrite <- (le_bytes_le_value (rev a)), <- (le_bytes_le_value (rev b)) by (apply Forall_rev; auto).
  rewrite !rev_length, Hl, H. reflexivity.
Qed.

Lemma uuid_form_iff fmt u bs : 0 <= u < 2 ^ 128 -> bs = uuid_dump fmt u <-> uuid_form fmt u bs.
Proof.
  intros Hu.
  assert (Hlen : length (uuid_bytes u) = 16%nat)
    by (unfold uuid_bytes; rewrite rev_length, le_bytes_length; reflexivity).
  assert (Hok : bytes_ok (uuid_bytes u)) by (apply (uuid_dump_ok BINARY_VARIANT_1)).
  assert (Hv : be_value (uuid_bytes u) = u).
  { unfold uuid_bytes. rewrite be_value_rev, le_value_le_bytes. apply Z.mod_small.
    change (256 ^ Z.of_nat 16) with (2 ^ 128). auto. }
  assert (Hh : uuid_hex u = hex_text (uuid_bytes u)) by (apply (hex_be_bytes 16)).
  unfold uuid_dump, uuid_str. rewrite Hh. clear Hh. revert Hlen Hok Hv. generalize (uuid_bytes u) as v. intros v Hlen Hok Hv.
  split.
  - intros ->. do 16 (destruct v as [|? v]; [discriminate|]). destruct v; [|discriminate].
    unfold uuid_form.
    do 9 eexists. split; [|cbn zeta; split; [|split]].
    2:{ instantiate (1 := [_; _; _; _; _; _; _; _]). exact Hok. }
    all: first [reflexivity|exact Hv].
  - intros (b0 & b1 & b2 & b3 & b4 & b5 & b6 & b7 & tl & Ht & Hok' & Hv' & ->).
    assert (v = [b0; b1; b2; b3; b4; b5; b6; b7] ++ tl) as ->.
    { apply be_value_inj; auto; [|congruence]. rewrite Hlen, app_length, Ht. reflexivity. }
    do 8 (destruct tl as [|? tl]; [discriminate|]). destruct tl; [|discriminate]. destruct fmt; reflexivity.
Qed.

(** ** Leaves *)
Lemma per_second_units r : per_second r = res_units r.
Proof. destruct r; reflexivity. Qed.

Lemma time_whole r s aware : r <> ResNs -> is_datetime aware (s * 1000000) ->
  time_to_int r (s * 1000000) aware = Ok (s * per_second r).
Proof.
  intros Hr Hd. apply datetime_range in Hd. rewrite per_second_units. destruct r; try congruence.
  - cbn [res_units]. rewrite Z.mul_1_r. apply to_int_seconds; auto.
  - apply to_int_whole; auto.
  - apply to_int_whole; auto.
Qed.

Lemma declared_unique c d m n : declared_size c d m -> declared_size c d n -> m = n.
Proof. intros [H|(x & H & Hx)] [G|(y & G & Gy)]; congruence. Qed.

Lemma ok_pair {A} (a b : list Z) (r : A) : @eq (dumped A) (a, Ok r) (b, Ok r) <-> a = b.
Proof. split; [intros [= ->]; auto|intros ->; auto]. Qed.

Lemma leaf_form_iff c d k v bs : typed c d k v ->
  leaf_dump c k (get_expected_size_with (fun _ => draise ETypeErr) c k d) v = (bs, Ok tt)
  <-> leaf_form c d k v bs.
Proof.
  intros Ht. destruct Ht as [sg e z n Hs|fmt mx z|i k e x y Hk Hy|r tz sg e s aware n Hr Hd Hn|b n Hn|cd pad t n Hn|cd pad t|fmt u Hu].
  - rewrite (int_dump_eq c sg e _ n z Hs). split.
    + destruct (py_to_bytes z n e sg) as [b| |] eqn:Hb; try discriminate. intros [= ->].
      apply int_form_iff in Hb. destruct Hb as [<- Hb]. apply form_int; auto.
    + intros H. inversion H as [? ? ? ? Hsz Hf| | | | | | | |]; subst.
      assert (Hb : py_to_bytes z n e sg = Ok bs) by (apply int_form_iff; split; [congruence|auto]).
      rewrite Hb. reflexivity.
  - rewrite vli_dump_eq. split.
    + destruct (vli_encode fmt z) as [b|x|] eqn:Hb; [|destruct (is_ValueError_or_OverflowError x); discriminate|discriminate].
      apply vli_form_iff in Hb. destruct mx as [m|].
      * destruct (Z.ltb_spec m (zlen b)); [discriminate|]. intros [= <-]. apply form_vli; auto. intros ? [= <-]. auto.
      * intros [= <-]. apply form_vli; auto. discriminate.
    + intros H. inversion H; subst.
      match goal with Hf : vli_form _ _ _ |- _ => apply vli_form_iff in Hf; rewrite Hf end.
      destruct mx as [m|]; [|reflexivity].
      destruct (Z.ltb_spec m (zlen bs)); [|reflexivity].
      match goal with Hm : forall m, _ -> _ |- _ => specialize (Hm _ eq_refl) end. lia.
  - destruct (float_kind_inv i k e Hk) as (Hi & Hkk & Hw & Hbytes & H8 & H0).
    destruct (narrow_convert i k e x y Hk Hy) as [Hc _].
    rewrite Hkk at 1. cbn [leaf_dump]. unfold pack_float. rewrite Hbytes, Hc. cbn [dlift dbind dwrite app].
    rewrite ok_pair. destruct (store_bits i e y H8 H0 (proj1 Hy)) as (S1 & S2 & S3). split.
    + intros <-. eapply form_float; eauto. rewrite S3. exact Hy.
    + intros H. inversion H as [| |i' k' e' x' b' Hk' Hok Hl Hsame| | | | | |]; subst.
      assert (i' = i /\ e' = e) as [-> ->] by (inversion Hk; subst; inversion Hk'; auto).
      destruct (narrow_convert _ _ _ _ _ Hk' Hsame) as [Hc' _].
      assert (y = bits_of e bs) as -> by congruence.
      apply (load_bits i e bs H8 Hok Hl).
  - cbn [leaf_dump]. rewrite (time_whole r s aware Hr Hd). rewrite (ges_declared _ _ _ _ n Hn).
    rewrite !dbind_ok.
    assert (Heq : catch_value_error (c_name c) (write_int (s * per_second r) n sg e)
              = match py_to_bytes (s * per_second r) n e sg with
                | Ok bs => (bs, Ok tt)
                | _ => ([], Raise (EUnserializable (c_name c)))
                end).
    { unfold write_int, dlift, dwrite, dbind, py_to_bytes.
      destruct (n <? 0); [reflexivity|]. destruct (fits sg n (s * per_second r)); reflexivity. }
    rewrite Heq. split.
    + destruct (py_to_bytes (s * per_second r) n e sg) as [b| |] eqn:Hb; try discriminate. intros [= ->].
      apply int_form_iff in Hb. destruct Hb as [<- Hb]. apply form_time; auto.
    + intros H. inversion H as [| | |r' tz' sg' e' s' aw bs' Hdec Hf| | | | |]; subst.
      assert (s' = s) as -> by lia.
      assert (Hb : py_to_bytes (s * per_second r) n e sg = Ok bs).
      { apply int_form_iff. split; auto. eapply declared_unique; eauto. }
      rewrite Hb. reflexivity.
  - rewrite (bytes_dump_eq c _ n) by (apply ges_declared; auto). split.
    + destruct (Z.eqb_spec (zlen b) n) as [He|He]; [|discriminate]. intros [= <-]. apply form_bytes. congruence.
    + intros H. inversion H; subst.
      match goal with Hx : declared_size c d (zlen bs) |- _ => pose proof (declared_unique _ _ _ _ Hx Hn) as He end.
      rewrite He, Z.eqb_refl. reflexivity.
  - cbn [leaf_dump]. rewrite (ges_declared _ _ _ _ n Hn). unfold encode_and_resize. cbn [bind]. split.
    + destruct (encode cd t) as [raw| |] eqn:He; cbn [bind]; try discriminate.
      destruct (Z.ltb_spec 0 (zlen raw - n)); [discriminate|].
      destruct (Z.ltb_spec (zlen raw - n) 0).
      * destruct pad as [p|]; [|discriminate]. cbn [dlift dbind dwrite app]. intros [= <-].
        apply form_padded; auto. rewrite zlen_app. unfold zlen at 2. rewrite repeat_length.
        replace (zlen raw + Z.of_nat (Z.to_nat (- (zlen raw - n)))) with n by lia. auto.
      * cbn [dlift dbind dwrite app]. intros [= <-]. apply form_string; auto.
        replace (zlen raw) with n by lia. auto.
    + intros H. inversion H; subst.
      * match goal with He : encode cd t = Ok _ |- _ => rewrite He end. cbn [bind].
        match goal with Hx : declared_size c d (zlen bs) |- _ => pose proof (declared_unique _ _ _ _ Hx Hn) as Hz end.
        destruct (Z.ltb_spec 0 (zlen bs - n)); [lia|]. destruct (Z.ltb_spec (zlen bs - n) 0); [lia|].
        cbn [dlift dbind dwrite app]. reflexivity.
      * match goal with He : encode cd t = Ok _ |- _ => rewrite He end. cbn [bind].
        match goal with Hx : declared_size c d (zlen (_ ++ _)) |- _ => pose proof (declared_unique _ _ _ _ Hx Hn) as Hz end.
        rewrite zlen_app in Hz. unfold zlen at 2 in Hz. rewrite repeat_length in Hz.
        destruct (Z.ltb_spec 0 (zlen raw - n)); [lia|]. destruct (Z.ltb_spec (zlen raw - n) 0).
        -- cbn [dlift dbind dwrite app]. apply ok_pair. f_equal. f_equal. lia.
        -- cbn [dlift dbind dwrite app]. apply ok_pair. assert (j = O) as -> by lia. cbn. now rewrite app_nil_r.
  - cbn [leaf_dump]. split.
    + destruct (encode cd (t ++ [0])) as [raw| |] eqn:He; cbn [dlift dbind dwrite app]; try discriminate.
      intros [= <-]. apply form_stringz; auto.
    + intros H. inversion H; subst. match goal with He : encode cd _ = Ok _ |- _ => rewrite He end. reflexivity.
  - cbn [leaf_dump]. unfold dwrite. rewrite ok_pair. split.
    + intros H. apply form_uuid. apply uuid_form_iff; auto.
    + intros H. inversion H; subst. symmetry. apply uuid_form_iff; auto.
Qed.
