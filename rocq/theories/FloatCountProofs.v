(** Proofs about arrays whose count is a float (C103). *)
From Coq Require Import QArith Qround Lqa Lia.
From Verif Require Import Tac FloatProofs FloatMore EqProofs.
From Verif Require Export SpecFloatCounts.
Open Scope list_scope.
Open Scope Z_scope.

Lemma finite_class x : is_finite double x <-> classify binary64 x = FFinite.
Proof. pose proof (classify_finite double x double_ok) as [H1 _]. rewrite fmt_double in H1. split; intros; apply H1; auto. Qed.

Lemma nan_class x : is_nan double x <-> classify binary64 x = FNan.
Proof. pose proof (classify_nan double x double_ok) as H. rewrite fmt_double in H. exact H. Qed.

Lemma sign_class x : pattern double x -> (sign_of binary64 x = true <-> sign_bit double x <> 0).
Proof. intros Hp. pose proof (sign_bit_of double x double_ok Hp) as H. rewrite fmt_double in H. rewrite H. destruct (sign_of binary64 x); split; intros; try reflexivity; try discriminate; congruence. Qed.

Lemma rat_le n d z : 0 < d -> (n <=? z * d = true <-> (frac n d <= inject_Z z)%Q).
Proof.
  intros Hd. pose proof (inj_pos d Hd) as Hi. pose proof (frac_mul n d Hd) as F. rewrite Z.leb_le. split; intros H.
  - apply (Qmult_le_r _ _ (inject_Z d)); [lra|]. rewrite F, <- inject_Z_mult. rewrite <- Zle_Qle. exact H.
  - apply (Qmult_le_r _ _ (inject_Z d)) in H; [|lra]. rewrite F, <- inject_Z_mult, <- Zle_Qle in H. exact H.
Qed.

Lemma rat_lt n d z : 0 < d -> (z * d <? n = true <-> (inject_Z z < frac n d)%Q).
Proof.
  intros Hd. pose proof (rat_le n d z Hd) as H. rewrite Z.ltb_lt, Z.leb_le in *. split; intros Hx.
  - apply Qnot_le_lt. intros Hq. apply H in Hq. lia.
  - apply Qlt_not_le in Hx. rewrite <- H in Hx. lia.
Qed.

Lemma le_iff x z : pattern double x -> is_finite double x -> (float_le_int x z = true <-> (double_value x <= inject_Z z)%Q).
Proof.
  intros Hp Hf. unfold float_le_int. rewrite (proj1 (finite_class x) Hf). destruct (float_rat x) as [n d] eqn:Hr.
  destruct (float_rat_value x n d Hr Hp) as [Hd Hv]. cbn [fst snd]. rewrite (rat_le n d z Hd), Hv. reflexivity.
Qed.

Lemma lt_iff x z : pattern double x -> is_finite double x -> (int_lt_float z x = true <-> (inject_Z z < double_value x)%Q).
Proof.
  intros Hp Hf. unfold int_lt_float. rewrite (proj1 (finite_class x) Hf). destruct (float_rat x) as [n d] eqn:Hr.
  destruct (float_rat_value x n d Hr Hp) as [Hd Hv]. cbn [fst snd]. rewrite (rat_lt n d z Hd), Hv. reflexivity.
Qed.

Lemma short_iff x z : pattern double x -> (int_lt_float z x = true <-> falls_short z x).
Proof.
  intros Hp. unfold falls_short, plus_infinity. pose proof (finite_class x) as Hf. pose proof (nan_class x) as Hn. pose proof (sign_class x Hp) as Hs.
  destruct (classify binary64 x) eqn:Hc.
  - unfold int_lt_float. rewrite Hc. split; [discriminate|]. intros [(_ & H & _)|(H & _)]; [tauto|]. apply Hf in H. discriminate.
  - unfold int_lt_float. rewrite Hc. split.
    + intros H. left. split; [intros F; apply Hf in F; discriminate|]. split; [intros F; apply Hn in F; discriminate|].
      destruct (Z.eq_dec (sign_bit double x) 0) as [E|E]; [exact E|]. apply Hs in E. rewrite E in H. discriminate.
    + intros [(_ & _ & H)|(H & _)]; [|apply Hf in H; discriminate]. destruct (sign_of binary64 x); [|reflexivity]. exfalso. apply (proj1 Hs); auto.
  - assert (Hx : is_finite double x) by (apply Hf; reflexivity). rewrite (lt_iff x z Hp Hx). split; [auto|]. intros [(H & _)|(_ & H)]; [tauto|exact H].
Qed.

Lemma whole_iff x k : pattern double x -> (int_float_eqb k x = true <-> whole x k).
Proof.
  intros Hp. rewrite (int_float_eqb_iff k x Hp). unfold whole. split; intros H.
  - apply same_int_float_inv in H. destruct H as [H1 H2]. split; [exact H1|]. rewrite H2. reflexivity.
  - destruct H as [H1 H2]. eapply same_number; [constructor|constructor; exact H1|]. rewrite H2. reflexivity.
Qed.

(** ** Loading *)
Lemma array_load_halts halt halt' (load1 : loader value) : (forall s vs, halt s vs = halt' s vs) ->
  forall fuel vs s, array_load fuel halt load1 vs s = array_load fuel halt' load1 vs s.
Proof.
  intros H. induction fuel as [|fuel IH]; intros vs s; [reflexivity|]. cbn [array_load]. rewrite H. destruct (halt' s vs) as [[[|] vs']|e|]; try reflexivity.
  destruct (load1 s) as [s1 [v|e|]]; auto.
Qed.

Lemma ceiling_iff x z : pattern double x -> is_finite double x -> float_le_int x z = (rounded_up x <=? z).
Proof.
  intros Hp Hf. apply eq_true_iff_eq. rewrite (le_iff x z Hp Hf), Z.leb_le. unfold rounded_up. split; intros H.
  - rewrite <- (Qceiling_Z z). apply Qceiling_resp_le. exact H.
  - eapply Qle_trans; [apply Qle_ceiling|]. rewrite <- Zle_Qle. exact H.
Qed.

Lemma float_loads x fuel load1 name ctx d s : pattern double x -> is_finite double x ->
  f_array_load x fuel load1 s = array_load fuel (array_halt (CntInt (rounded_up x)) None name ctx d) load1 [] s.
Proof.
  intros Hp Hf. unfold f_array_load. apply array_load_halts. intros s1 vs. cbn [array_halt should_halt get_final_element_count bind count_at_most].
  unfold f_should_halt. rewrite (ceiling_iff x _ Hp Hf). reflexivity.
Qed.

Lemma never_halts x z : pattern double x -> is_nan double x \/ plus_infinity x -> float_le_int x z = false.
Proof.
  intros Hp H. unfold float_le_int. destruct (classify binary64 x) eqn:Hc; [reflexivity| |].
  - destruct H as [H|(_ & _ & H)]; [apply nan_class in H; congruence|]. destruct (sign_of binary64 x) eqn:Hs; [|reflexivity]. exfalso. apply (proj1 (sign_class x Hp)); auto.
  - destruct H as [H|(H & _)]; [apply nan_class in H; congruence|]. apply finite_class in Hc. tauto.
Qed.

Lemma endless_count x fuel load1 s s' v : pattern double x -> is_nan double x \/ plus_infinity x -> f_array_load x fuel load1 s <> (s', Ok v).
Proof.
  intros Hp H. unfold f_array_load. generalize (@nil value). revert s. induction fuel as [|fuel IH]; intros s vs; [discriminate|]. cbn [array_load].
  unfold f_should_halt. rewrite (never_halts x _ Hp H). destruct (load1 s) as [s1 [w|e|]]; [apply IH|discriminate|discriminate].
Qed.

Lemma no_elements x fuel load1 s : pattern double x -> minus_infinity x -> f_array_load x (S fuel) load1 s = (s, Ok (VList [])).
Proof.
  intros Hp (Hf & Hn & Hs). unfold f_array_load. cbn [array_load]. unfold f_should_halt, float_le_int.
  destruct (classify binary64 x) eqn:Hc; [apply nan_class in Hc; tauto| |apply finite_class in Hc; tauto].
  apply (proj2 (sign_class x Hp)) in Hs. rewrite Hs. reflexivity.
Qed.

(** ** Dumping *)
Lemma whole_one x k k' : whole x k -> whole x k' -> k = k'.
Proof. intros [_ H1] [_ H2]. rewrite H1 in H2. apply inject_Z_injective. exact H2. Qed.

Lemma whole_eqb x k z : pattern double x -> whole x k -> int_float_eqb z x = (z =? k).
Proof.
  intros Hp Hw. apply eq_true_iff_eq. rewrite (whole_iff x z Hp), Z.eqb_eq. split; [intros H; exact (whole_one x z k H Hw)|intros ->; exact Hw].
Qed.

Lemma whole_lt x k z : pattern double x -> whole x k -> int_lt_float z x = (z <? k).
Proof.
  intros Hp [Hf Hw]. apply eq_true_iff_eq. rewrite (lt_iff x z Hp Hf), Hw, Z.ltb_lt, <- Zlt_Qlt. reflexivity.
Qed.

Lemma dbind_lift {A B} (a : A) (k : A -> dumped B) : dbind (dlift (Ok a)) k = k a.
Proof. unfold dbind, dlift. destruct (k a). reflexivity. Qed.

Lemma whole_dump dump1 x k name v d : pattern double x -> whole x k ->
  f_array_dump dump1 (fun n => EArraySize name k (Some n)) x v = array_dump dump1 name (CntInt k) v d.
Proof.
  intros Hp Hw. unfold f_array_dump, array_dump. cbn [get_final_element_count]. rewrite dbind_lift.
  destruct (sized_items v) as [l|].
  - cbn [count_is array_size_error]. rewrite (whole_eqb x k _ Hp Hw). reflexivity.
  - destruct v as [| | | |z|y|b|t|u|us aw|l|g|e|cid e]; try reflexivity. generalize 0. induction g as [|a l IH]; intros w; cbn [f_dump_unsized dump_unsized].
    + rewrite (whole_lt x k w Hp Hw). cbn [count_above array_size_error]. rewrite dbind_lift. reflexivity.
    + rewrite (whole_eqb x k w Hp Hw), IH. reflexivity.
Qed.

Lemma broken_dump dump1 err x v l : pattern double x -> not_whole x -> sized_items v = Some l -> f_array_dump dump1 err x v = ([], Raise (err (zlen l))).
Proof.
  intros Hp Hn Hl. unfold f_array_dump. rewrite Hl. destruct (int_float_eqb (zlen l) x) eqn:He; [|reflexivity]. apply (whole_iff x _ Hp) in He. destruct (Hn _ He).
Qed.

Lemma broken_generator dump1 err x l out : pattern double x -> not_whole x -> dump_items dump1 l = (out, Ok tt) ->
  (falls_short (zlen l) x -> f_array_dump dump1 err x (VGen l) = (out, Raise (err (zlen l))))
  /\ (~ falls_short (zlen l) x -> f_array_dump dump1 err x (VGen l) = (out, Ok tt)).
Proof.
  intros Hp Hn Hd. unfold f_array_dump. cbn [sized_items].
  assert (Hg : forall w out, dump_items dump1 l = (out, Ok tt) ->
    f_dump_unsized dump1 err x w l = (out, if int_lt_float (w + zlen l) x then Raise (err (w + zlen l)) else Ok tt)).
  { clear Hd out. induction l as [|a l IH]; intros w out Hd.
    - cbn [dump_items] in Hd. injection Hd as <-. cbn [f_dump_unsized]. replace (w + zlen []) with w by (unfold zlen; cbn [length]; lia). destruct (int_lt_float w x); reflexivity.
    - cbn [f_dump_unsized]. destruct (int_float_eqb w x) eqn:He; [apply (whole_iff x _ Hp) in He; destruct (Hn _ He)|].
      cbn [dump_items] in Hd. unfold dbind in Hd |- *. destruct (dump1 a) as [o [u|e|]]; try discriminate Hd. destruct (dump_items dump1 l) as [o2 r2] eqn:Hl. injection Hd as <- ->.
      rewrite (IH (w + 1) o2 eq_refl). replace (w + zlen (a :: l)) with (w + 1 + zlen l) by (unfold zlen; cbn [length]; lia). reflexivity. }
  rewrite (Hg 0 out Hd), Z.add_0_l. pose proof (short_iff x (zlen l) Hp) as Hs. split; intros H.
  - apply Hs in H. rewrite H. reflexivity.
  - destruct (int_lt_float (zlen l) x); [exfalso; apply H; apply Hs; reflexivity|reflexivity].
Qed.
