(** Decimal text of integers, which a canonical-text UUID field writes (C68), and to_bytes (C22). *)
From Verif Require Import Tac FieldProofs LeafMore.
From Verif Require Export StructModel Spec SpecField.
Open Scope Z_scope.

(** The digits of a number, without superfluous zeros. *)
Definition digits_value (ds : list Z) : Z := fold_left (fun a d => a * 10 + d) ds 0.
Definition numeral (z : Z) (ds : list Z) : Prop :=
  Forall (fun d => 0 <= d < 10) ds /\ digits_value ds = z /\ ds <> [] /\ (forall ds', ds = 0 :: ds' -> ds' = []).

(** Its text: the codes of the digits, after a minus sign if it is negative. *)
Inductive decimal : Z -> list Z -> Prop :=
| decimal_positive : forall z ds, 0 <= z -> numeral z ds -> decimal z (map (fun d => 48 + d) ds)
| decimal_negative : forall z ds, z < 0 -> numeral (- z) ds -> decimal z (45 :: map (fun d => 48 + d) ds).

Lemma digits_snoc ds d : digits_value (ds ++ [d]) = digits_value ds * 10 + d.
Proof. unfold digits_value. rewrite fold_left_app. reflexivity. Qed.

Lemma dec_digits_numeral n : forall z, 0 <= z < 10 ^ Z.of_nat n -> (0 < n)%nat ->
  exists ds, dec_digits n z = map (fun d => 48 + d) ds /\ numeral z ds.
Proof.
  induction n as [|n IH]; intros z Hz Hn; [lia|]. cbn [dec_digits].
  destruct (Z.ltb_spec z 10) as [H|H].
  - exists [z]. split; auto. split; [repeat constructor; lia|]. split; [unfold digits_value; cbn; lia|].
    split; [discriminate|]. intros ds' Hd. injection Hd as _ <-. auto.
  - rewrite Nat2Z.inj_succ, Z.pow_succ_r in Hz by lia.
    assert (Hn0 : (0 < n)%nat). { destruct n; [cbn in Hz; lia|lia]. }
    pose proof (Z.div_mod z 10 ltac:(lia)) as Hdm. pose proof (Z.mod_pos_bound z 10 ltac:(lia)) as Hm.
    assert (Hq : 0 <= z / 10 < 10 ^ Z.of_nat n) by (split; [apply Z.div_pos; lia|apply Z.div_lt_upper_bound; lia]).
    destruct (IH _ Hq Hn0) as (ds & -> & H1 & H2 & H3 & H4).
    exists (ds ++ [z mod 10]). rewrite map_app. split; auto. split.
    { apply Forall_app. auto. }
    split; [rewrite digits_snoc; lia|]. split; [destruct ds; discriminate|].
    intros ds' Hd. destruct ds as [|x ds]; [contradiction|]. injection Hd as -> <-.
    rewrite (H4 ds eq_refl) in H2. cbn in H2. exfalso. lia.
Qed.

Lemma int_text_decimal z : decimal z (int_text z).
Proof.
  unfold int_text.
  assert (Hb : 0 <= Z.abs z < 10 ^ Z.of_nat (S (Z.to_nat (Z.log2 (Z.abs z))))).
  { split; [lia|]. pose proof (Z.log2_nonneg (Z.abs z)) as Hl. rewrite Nat2Z.inj_succ, Z2Nat.id by lia.
    assert (H2 : Z.abs z < 2 ^ Z.succ (Z.log2 (Z.abs z))).
    { destruct (Z.eq_dec (Z.abs z) 0) as [->|Hne]; [cbn; lia|]. apply Z.log2_spec. lia. }
    eapply Z.lt_le_trans; [exact H2|]. apply Z.pow_le_mono_l. lia. }
  destruct (dec_digits_numeral _ _ Hb ltac:(lia)) as (ds & -> & Hn).
  destruct (Z.ltb_spec z 0) as [H|H].
  - cbn [app]. constructor; auto. replace (- z) with (Z.abs z) by lia. auto.
  - cbn [app]. constructor; auto. replace z with (Z.abs z) by lia. auto.
Qed.

Lemma digits_nonneg ds : Forall (fun d => 0 <= d < 10) ds -> 0 <= digits_value ds.
Proof.
  induction ds as [|d ds IH] using rev_ind; intros H; [unfold digits_value; cbn; lia|].
  rewrite digits_snoc. apply Forall_app in H. destruct H as [H1 H2]. inversion H2; subst. specialize (IH H1). lia.
Qed.

Lemma numeral_prefix z ds d : numeral z (ds ++ [d]) -> ds <> [] -> numeral (digits_value ds) ds /\ 1 <= digits_value ds.
Proof.
  intros (H1 & H2 & _ & H4) Hne. apply Forall_app in H1. destruct H1 as [H1 _].
  assert (Hlead : forall ds', ds <> 0 :: ds').
  { intros ds' ->. specialize (H4 (ds' ++ [d]) eq_refl). destruct ds'; discriminate. }
  split; [split; auto; split; auto; split; auto; intros ds' Hd; exfalso; eapply Hlead; eauto|].
  clear H2 H4. destruct ds as [|x ds]; [contradiction|]. inversion H1 as [|? ? Hx Hds]; subst.
  assert (Hx0 : x <> 0) by (intros ->; eapply Hlead; reflexivity).
  clear Hlead Hne H1. induction ds as [|y ds IH] using rev_ind; [unfold digits_value; cbn; lia|].
  change (x :: ds ++ [y]) with ((x :: ds) ++ [y]). rewrite digits_snoc.
  apply Forall_app in Hds. destruct Hds as [Hd1 Hd2]. inversion Hd2; subst. specialize (IH Hd1). lia.
Qed.

Lemma numeral_one ds1 : forall z ds2, numeral z ds1 -> numeral z ds2 -> ds1 = ds2.
Proof.
  induction ds1 as [|d1 ds1 IH] using rev_ind; intros z ds2 H1 H2; [destruct H1 as (_ & _ & H & _); contradiction|].
  destruct ds2 as [|d2 ds2 _] using rev_ind; [destruct H2 as (_ & _ & H & _); contradiction|].
  pose proof H1 as (A1 & A2 & _). pose proof H2 as (B1 & B2 & _). rewrite digits_snoc in A2, B2.
  apply Forall_app in A1, B1. destruct A1 as [A1 A1'], B1 as [B1 B1'].
  inversion A1' as [|? ? Ad _]; inversion B1' as [|? ? Bd _]; subst.
  pose proof (digits_nonneg _ A1). pose proof (digits_nonneg _ B1).
  assert (Hd : d1 = d2) by lia. assert (Hv : digits_value ds1 = digits_value ds2) by lia. subst d2. f_equal.
  destruct ds1 as [|x1 t1], ds2 as [|x2 t2]; auto.
  - destruct (numeral_prefix _ _ _ H2 ltac:(discriminate)) as [_ Hp]. rewrite <- Hv in Hp. cbn in Hp. lia.
  - destruct (numeral_prefix _ _ _ H1 ltac:(discriminate)) as [_ Hp]. rewrite Hv in Hp. cbn in Hp. lia.
  - destruct (numeral_prefix _ _ _ H1 ltac:(discriminate)) as [Hp1 _].
    destruct (numeral_prefix _ _ _ H2 ltac:(discriminate)) as [Hp2 _]. rewrite <- Hv in Hp2. eapply IH; eauto.
Qed.

Lemma decimal_one z t1 t2 : decimal z t1 -> decimal z t2 -> t1 = t2.
Proof.
  intros H1 H2. destruct H1 as [z ds1 Hz H1|z ds1 Hz H1]; inversion H2 as [z' ds2 Hz' H2'|z' ds2 Hz' H2']; subst; try lia.
  - rewrite (numeral_one _ _ _ H1 H2'). auto.
  - rewrite (numeral_one _ _ _ H1 H2'). auto.
Qed.

(** A canonical-text UUID field writes an integer of 36 characters. *)
Lemma canonical_integer E n c z t ctx d : c_size c = SInt 36 -> accepts c (VInt z) -> decimal z t ->
  field_to_stream E n (Field c (KUuid CANONICAL_STRING)) (VInt z) ctx d
  = if zlen t =? 36 then (t, Ok tt) else ([], Raise (EValueSize (c_name c))).
Proof.
  intros Hs Ha Ht. rewrite (decimal_one _ _ _ Ht (int_text_decimal z)).
  rewrite field_to_stream_leaf by auto. cbn [leaf_dump]. unfold dwrite.
  set (bs := int_text z). clearbody bs. unfold sized_write. rewrite Hs, dbind_ok. cbv zeta.
  destruct (Z.eqb_spec (zlen bs) 36) as [He|Hne].
  - rewrite He. reflexivity.
  - destruct (Z.ltb_spec 0 (zlen bs - 36)); [reflexivity|].
    destruct (Z.ltb_spec (zlen bs - 36) 0); [reflexivity|lia].
Qed.

Lemma decimal_exists z : exists t, decimal z t /\ forall t', decimal z t' -> t' = t.
Proof.
  exists (int_text z). split; [apply int_text_decimal|]. intros t' H. eapply decimal_one; [exact H|apply int_text_decimal].
Qed.

(** to_bytes gives what to_stream writes. *)
Lemma bytes_of_iff m :
  (forall bs, bytes_of m = Ok bs <-> m = (bs, Ok tt))
  /\ (forall e, bytes_of m = Raise e <-> exists bs, m = (bs, Raise e)).
Proof.
  destruct m as [bs [[]|e|]]; cbn [bytes_of]; split; intros x; split; intros H;
    try discriminate; try (destruct H; discriminate).
  - congruence.
  - injection H as ->. auto.
  - injection H as ->. eauto.
  - destruct H as [bs' H]. congruence.
Qed.

Lemma to_bytes_stream E n f v ctx d :
  (forall bs, field_to_bytes E n f v ctx d = Ok bs <-> field_to_stream E n f v ctx d = (bs, Ok tt))
  /\ (forall e, field_to_bytes E n f v ctx d = Raise e <-> exists bs, field_to_stream E n f v ctx d = (bs, Raise e)).
Proof. apply bytes_of_iff. Qed.

Lemma struct_to_bytes_stream E n cid vals ctx :
  (forall bs, struct_to_bytes E n cid vals ctx = Ok bs <-> struct_to_stream E n cid vals ctx = (bs, Ok tt))
  /\ (forall e, struct_to_bytes E n cid vals ctx = Raise e
        <-> exists bs, struct_to_stream E n cid vals ctx = (bs, Raise e)).
Proof. apply bytes_of_iff. Qed.

(** to_stream without a value: the default is dumped; without one, nothing is. *)
Lemma dump_default E n f ctx d :
  field_to_stream E n f VUndefined ctx d = ([], Raise (EMissingRequired (c_name (conf f))))
  /\ (forall e, c_factory (conf f) = Some (inr e) -> field_to_stream E n f VDefault ctx d = ([], Raise e))
  /\ (forall w, c_factory (conf f) = Some (inl w) \/ c_factory (conf f) = None /\ c_default (conf f) = w ->
        w <> VDefault -> field_to_stream E n f VDefault ctx d = field_to_stream E n f w ctx d).
Proof.
  destruct f as [c k]. cbn [conf]. unfold field_to_stream, field_to_stream_with, to_stream_with. split; [destruct n; reflexivity|].
  split.
  - intros e H. cbn [is_default conf]. unfold default_of. rewrite H. reflexivity.
  - intros w H Hw.
    assert (Hd : default_of c = Ok w) by (unfold default_of; destruct H as [->|[-> ->]]; reflexivity).
    cbn [is_default conf]. rewrite Hd. destruct (is_default w) eqn:Hi; [destruct w; try discriminate; contradiction|].
    reflexivity.
Qed.
