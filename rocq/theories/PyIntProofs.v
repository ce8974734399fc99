(** Lemmas about to_bytes / from_bytes. *)
From Verif Require Import Tac PyInt.

Lemma le_bytes_length n v : length (le_bytes n v) = n.
Proof. revert v; induction n as [|n IH]; intros v; cbn [le_bytes length]; auto. Qed.

Lemma le_bytes_ok n v : bytes_ok (le_bytes n v).
Proof.
  revert v; induction n as [|n IH]; intros v; cbn [le_bytes]; constructor.
  - unfold byte_ok. apply Z.mod_pos_bound. lia.
  - apply IH.
Qed.

Lemma pow256_S n : 256 ^ Z.of_nat (S n) = 256 * 256 ^ Z.of_nat n.
Proof. rewrite Nat2Z.inj_succ, Z.pow_succ_r; lia. Qed.

Lemma pow256_pos n : 0 < 256 ^ Z.of_nat n.
Proof. apply Z.pow_pos_nonneg; lia. Qed.

Lemma pow2_8 n : 2 ^ (8 * Z.of_nat n) = 256 ^ Z.of_nat n.
Proof. rewrite Z.pow_mul_r by lia. reflexivity. Qed.

Lemma le_value_le_bytes n v : le_value (le_bytes n v) = v mod 256 ^ Z.of_nat n.
Proof.
  revert v; induction n as [|n IH]; intros v; cbn [le_bytes le_value].
  - change (256 ^ Z.of_nat 0) with 1. now rewrite Z.mod_1_r.
  - rewrite IH, pow256_S. pose proof (pow256_pos n) as Hp.
    rewrite Z.rem_mul_r by lia. reflexivity.
Qed.

Lemma le_value_bound bs : bytes_ok bs -> 0 <= le_value bs < 256 ^ zlen bs.
Proof.
  unfold zlen. intros H; induction H as [|b bs Hb Hbs IH]; cbn [le_value length].
  - change (256 ^ Z.of_nat 0) with 1. lia.
  - rewrite pow256_S. unfold byte_ok in Hb. lia.
Qed.

Lemma le_bytes_le_value bs : bytes_ok bs -> le_bytes (length bs) (le_value bs) = bs.
Proof.
  intros H; induction H as [|b bs Hb Hbs IH]; cbn [le_value length le_bytes]; auto.
  unfold byte_ok in Hb. f_equal.
  - rewrite (Z.mul_comm 256), Z.mod_add by lia. apply Z.mod_small; lia.
  - rewrite (Z.mul_comm 256), Z.div_add by lia.
    rewrite (Z.div_small b) by lia. exact IH.
Qed.

Lemma order_involutive {A} e (l : list A) : order e (order e l) = l.
Proof. destruct e; cbn; auto using rev_involutive. Qed.

Lemma order_length {A} e (l : list A) : length (order e l) = length l.
Proof. destruct e; cbn; auto using rev_length. Qed.

Lemma order_ok e bs : bytes_ok bs -> bytes_ok (order e bs).
Proof. destruct e; cbn; auto. intros H. now apply Forall_rev. Qed.

Lemma zlen_order {A} e (l : list A) : zlen (order e l) = zlen l.
Proof. unfold zlen. now rewrite order_length. Qed.

Lemma zlen_nonneg {A} (l : list A) : 0 <= zlen l.
Proof. unfold zlen; lia. Qed.

Lemma zlen_app {A} (l l' : list A) : zlen (l ++ l') = zlen l + zlen l'.
Proof. unfold zlen. rewrite app_length. lia. Qed.

Lemma py_to_bytes_ok v n e sg bs :
  py_to_bytes v n e sg = Ok bs ->
  0 <= n /\ fits sg n v = true /\ zlen bs = n /\ bytes_ok bs.
Proof.
  unfold py_to_bytes. destruct (Z.ltb_spec n 0) as [Hn|Hn]; [discriminate|].
  destruct (fits sg n v) eqn:Hf; [|discriminate]. intros H; injection H as <-.
  repeat split; auto.
  - rewrite zlen_order. unfold zlen. rewrite le_bytes_length. lia.
  - apply order_ok, le_bytes_ok.
Qed.

Lemma py_from_to_bytes v n e sg bs :
  py_to_bytes v n e sg = Ok bs -> py_from_bytes bs e sg = v.
Proof.
  intros H. pose proof (py_to_bytes_ok _ _ _ _ _ H) as (Hn & Hf & Hl & _).
  unfold py_to_bytes in H. destruct (Z.ltb_spec n 0) as [Hn'|Hn']; [lia|].
  rewrite Hf in H. injection H as H.
  unfold py_from_bytes. rewrite Hl. rewrite <- H, order_involutive, le_value_le_bytes.
  rewrite <- pow2_8, Z2Nat.id by lia. rewrite Z.mod_mod by (apply Z.pow_nonzero; lia).
  assert (Hp : 0 < 2 ^ (8 * n)) by (apply Z.pow_pos_nonneg; lia).
  unfold fits in Hf. set (m := 2 ^ (8 * n)) in *. destruct sg; cbn [andb].
  - destruct (Z.ltb_spec v 0) as [Hv|Hv].
    + assert (Hm : v mod m = v + m).
      { symmetry. apply Z.mod_unique with (q := -1); [left|]; lia. }
      rewrite Hm. destruct (Z.leb_spec m (2 * (v + m))); lia.
    + rewrite Z.mod_small by lia. destruct (Z.leb_spec m (2 * v)); lia.
  - rewrite Z.mod_small by lia. reflexivity.
Qed.

Lemma py_from_bytes_fits bs e sg :
  bytes_ok bs -> fits sg (zlen bs) (py_from_bytes bs e sg) = true.
Proof.
  intros H. unfold py_from_bytes.
  pose proof (le_value_bound (order e bs) (order_ok e bs H)) as Hb.
  rewrite zlen_order in Hb. unfold zlen in *. rewrite <- pow2_8 in Hb.
  unfold fits. set (m := 2 ^ (8 * Z.of_nat (length bs))) in *.
  set (u := le_value (order e bs)) in *. clearbody u m.
  destruct sg; cbn [andb]; [destruct (Z.leb_spec m (2 * u))|]; lia.
Qed.

Lemma py_to_from_bytes bs e sg :
  bytes_ok bs -> py_to_bytes (py_from_bytes bs e sg) (zlen bs) e sg = Ok bs.
Proof.
  intros H. unfold py_to_bytes.
  destruct (Z.ltb_spec (zlen bs) 0) as [Hn|Hn]; [pose proof (zlen_nonneg bs); lia|].
  rewrite py_from_bytes_fits by auto. f_equal.
  pose proof (le_value_bound (order e bs) (order_ok e bs H)) as Hb.
  rewrite zlen_order in Hb. unfold zlen in *. rewrite <- pow2_8 in Hb.
  assert (Hm : py_from_bytes bs e sg mod 2 ^ (8 * Z.of_nat (length bs))
               = le_value (order e bs)).
  { unfold py_from_bytes, zlen. set (m := 2 ^ (8 * Z.of_nat (length bs))) in *.
    set (u := le_value (order e bs)) in *. clearbody u m.
    destruct (sg && (m <=? 2 * u)).
    - symmetry. apply Z.mod_unique with (q := -1); [left|]; lia.
    - apply Z.mod_small; lia. }
  rewrite Hm, Nat2Z.id. rewrite <- (order_length e bs).
  rewrite le_bytes_le_value by (apply order_ok; auto). apply order_involutive.
Qed.

Lemma le_bytes_nth n v i :
  (i < n)%nat -> nth_error (le_bytes n v) i = Some (v / 256 ^ Z.of_nat i mod 256).
Proof.
  revert v i; induction n as [|n IH]; intros v i Hi; [lia|].
  destruct i as [|i]; cbn [le_bytes nth_error].
  - change (256 ^ Z.of_nat 0) with 1. now rewrite Z.div_1_r.
  - rewrite IH by lia. rewrite pow256_S.
    rewrite Z.div_div by (pose proof (pow256_pos i); lia). reflexivity.
Qed.

Lemma bit_length_pos v : 0 < v -> 2 ^ (bit_length v - 1) <= v < 2 ^ bit_length v.
Proof.
  intros H. unfold bit_length. destruct (Z.eqb_spec v 0) as [?|_]; [lia|].
  rewrite Z.abs_eq by lia. pose proof (Z.log2_spec v H) as Hs.
  replace (Z.log2 v + 1 - 1) with (Z.log2 v) by lia.
  replace (Z.log2 v + 1) with (Z.succ (Z.log2 v)) by lia. exact Hs.
Qed.

Lemma bit_length_nonneg v : 0 <= bit_length v.
Proof. unfold bit_length. destruct (v =? 0); [lia|]. pose proof (Z.log2_nonneg (Z.abs v)). lia. Qed.

Lemma bit_length_abs v : bit_length (Z.abs v) = bit_length v.
Proof.
  unfold bit_length. rewrite Z.abs_involutive.
  destruct (Z.eqb_spec (Z.abs v) 0), (Z.eqb_spec v 0); auto; lia.
Qed.

Lemma bit_length_lt v k : 0 < v -> 0 <= k -> bit_length v <= k <-> v < 2 ^ k.
Proof.
  intros Hv Hk. pose proof (bit_length_pos v Hv) as [H1 H2]. split; intros H.
  - eapply Z.lt_le_trans; [exact H2|]. apply Z.pow_le_mono_r; lia.
  - destruct (Z.le_gt_cases (bit_length v) k) as [?|Hc]; auto. exfalso.
    assert (2 ^ k <= 2 ^ (bit_length v - 1)) by (apply Z.pow_le_mono_r; lia). lia.
Qed.
