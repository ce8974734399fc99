(** Equality of structs. *)
From Coq Require Import QArith Qpower Lqa.
From Verif Require Export SpecEq.
From Verif Require Import Tac FloatProofs FloatMore FuelProofs ToDictProofs StructProofs FieldMore.
Open Scope Z_scope.

(** ** Numbers *)
Lemma float_rat_value x n d : float_rat x = (n, d) -> pattern double x ->
  0 < d /\ (frac n d == double_value x)%Q.
Proof.
  unfold float_rat. destruct (unpack_mag binary64 (magnitude binary64 x)) as [m e] eqn:Hu.
  destruct (dyadic m e) as [a b] eqn:Hd. intros [= <- <-] Hp.
  pose proof (dyadic_frac m e a b Hd) as [Hb Hv].
  pose proof (unpack_value double x m e double_ok) as Hx. rewrite fmt_double in Hx. specialize (Hx Hu).
  split; auto. unfold double_value. rewrite (sign_bit_of double x double_ok Hp), fmt_double.
  destruct (sign_of binary64 x).
  - cbn [Z.eqb]. rewrite Hx, <- Hv. pose proof (inj_pos b Hb).
    pose proof (frac_mul a b Hb) as F1. pose proof (frac_mul (- a) b Hb) as F2.
    rewrite inject_Z_opp in F2. apply (Qmult_inj_r _ _ (inject_Z b)); [lra|]. rewrite F2, <- F1. ring.
  - cbn [Z.eqb]. rewrite Hx, Hv. reflexivity.
Qed.

Lemma rat_eqb_iff n d n' d' : 0 < d -> 0 < d' -> (rat_eqb (n, d) (n', d') = true <-> (frac n d == frac n' d')%Q).
Proof.
  intros Hd Hd'. unfold rat_eqb. cbn [fst snd]. rewrite Z.eqb_eq.
  pose proof (inj_pos d Hd). pose proof (inj_pos d' Hd').
  pose proof (frac_mul n d Hd) as F1. pose proof (frac_mul n' d' Hd') as F2.
  split; intros H1.
  - assert (HQ : (inject_Z n * inject_Z d' == inject_Z n' * inject_Z d)%Q) by (rewrite <- !inject_Z_mult, H1; reflexivity).
    rewrite <- F1, <- F2 in HQ.
    apply (Qmult_inj_r _ _ (inject_Z d * inject_Z d')); [nra|].
    rewrite Qmult_assoc. rewrite HQ. ring.
  - apply inject_Z_injective. rewrite !inject_Z_mult, <- F1, <- F2, H1. ring.
Qed.

Lemma same_float_inv x y : same (VFloat x) (VFloat y) ->
  (is_finite double x /\ is_finite double y /\ (double_value x == double_value y)%Q)
  \/ (~ is_finite double x /\ ~ is_finite double y /\ sign_bit double x = sign_bit double y).
Proof.
  intros H. inversion H as [v Ha|a b p q Ha Hb Hq| | |]; subst.
  - destruct Ha.
  - inversion Ha; subst. inversion Hb; subst. auto.
  - auto.
Qed.

Lemma same_int_float_inv z x : same (VInt z) (VFloat x) ->
  is_finite double x /\ (inject_Z z == double_value x)%Q.
Proof.
  intros H. inversion H as [|a b p q Ha Hb Hq| | |]; subst.
  inversion Ha; subst. inversion Hb; subst. auto.
Qed.

Lemma float_eqb_iff x y : pattern double x -> pattern double y -> ~ is_nan double x -> ~ is_nan double y ->
  (float_eqb x y = true <-> same (VFloat x) (VFloat y)).
Proof.
  intros Px Py Nx Ny. unfold float_eqb.
  pose proof (classify_finite double x double_ok) as [Fx _]. pose proof (classify_finite double y double_ok) as [Fy _].
  pose proof (classify_nan double x double_ok) as Gx. pose proof (classify_nan double y double_ok) as Gy.
  pose proof (sign_bit_of double x double_ok Px) as Sx. pose proof (sign_bit_of double y double_ok Py) as Sy.
  rewrite fmt_double in *.
  destruct (float_rat x) as [n d] eqn:Rx. destruct (float_rat y) as [n' d'] eqn:Ry.
  destruct (float_rat_value x n d Rx Px) as [Hd Vx]. destruct (float_rat_value y n' d' Ry Py) as [Hd' Vy].
  destruct (classify binary64 x) eqn:Cx; [tauto| |];
  (destruct (classify binary64 y) eqn:Cy; [tauto| |]).
  all: assert (Ix : ~ is_finite double x \/ is_finite double x) by (rewrite Fx; solve [left; discriminate|right; reflexivity]).
  all: assert (Iy : ~ is_finite double y \/ is_finite double y) by (rewrite Fy; solve [left; discriminate|right; reflexivity]).
  - destruct Ix as [Ix|Ix]; [|apply Fx in Ix; discriminate]. destruct Iy as [Iy|Iy]; [|apply Fy in Iy; discriminate].
    rewrite eqb_true_iff. split.
    + intros He. apply same_infinity; auto. rewrite Sx, Sy, He. reflexivity.
    + intros H. apply same_float_inv in H. destruct H as [(? & _)|(_ & _ & H)]; [contradiction|].
      rewrite Sx, Sy in H. destruct (sign_of binary64 x), (sign_of binary64 y); auto; discriminate.
  - destruct Ix as [Ix|Ix]; [|apply Fx in Ix; discriminate]. destruct Iy as [Iy|Iy]; [exfalso; apply Iy, Fy; auto|].
    split; [discriminate|]. intros H. apply same_float_inv in H. tauto.
  - destruct Ix as [Ix|Ix]; [exfalso; apply Ix, Fx; auto|]. destruct Iy as [Iy|Iy]; [|apply Fy in Iy; discriminate].
    split; [discriminate|]. intros H. apply same_float_inv in H. tauto.
  - destruct Ix as [Ix|Ix]; [exfalso; apply Ix, Fx; auto|]. destruct Iy as [Iy|Iy]; [exfalso; apply Iy, Fy; auto|].
    rewrite rat_eqb_iff by auto. rewrite Vx, Vy. split.
    + intros H. eapply same_number; [constructor; auto|constructor; auto|auto].
    + intros H. apply same_float_inv in H. tauto.
Qed.

Lemma int_float_eqb_iff z x : pattern double x ->
  (int_float_eqb z x = true <-> same (VInt z) (VFloat x)).
Proof.
  intros Px. unfold int_float_eqb.
  pose proof (classify_finite double x double_ok) as [Fx _]. rewrite fmt_double in *.
  destruct (float_rat x) as [n d] eqn:Rx. destruct (float_rat_value x n d Rx Px) as [Hd Vx].
  destruct (classify binary64 x) eqn:Cx.
  1,2: split; [discriminate|]; intros H; apply same_int_float_inv in H; destruct H as [H _];
       apply Fx in H; discriminate.
  rewrite rat_eqb_iff by lia. rewrite Vx, frac_1. split.
  - intros H. eapply same_number; [constructor|constructor; apply Fx; auto|auto].
  - intros H. apply same_int_float_inv in H. tauto.
Qed.

Lemma same_sym a b : same a b -> same b a.
Proof.
  induction 1 as [v H|a b p q Ha Hb Hq|x y|l m Hl _ IH|d e Hk _ IH].
  - apply same_atom; auto.
  - eapply same_number; eauto. symmetry. auto.
  - apply same_infinity; auto.
  - apply same_list; auto. intros. eapply IH; eauto.
  - apply same_dict; [intros; symmetry; auto|]. intros. eapply IH; eauto.
Qed.

Lemma number_det v p q : number v p -> number v q -> p = q.
Proof. intros H1 H2. inversion H1; subst; inversion H2; subst; auto. Qed.

Lemma same_trans a b : same a b -> forall c, same b c -> same a c.
Proof.
  induction 1 as [v H|a b p q Ha Hb Hq|x y Fx Fy Nx Ny Hs|l m Hl _ IH|d e Hk _ IH]; intros c Hc.
  - auto.
  - inversion Hc; subst.
    + destruct Hb; destruct H.
    + pose proof (number_det _ _ _ Hb H). subst. eapply same_number; eauto. rewrite Hq. auto.
    + inversion Hb; subst. contradiction.
    + inversion Hb.
    + inversion Hb.
  - inversion Hc; subst.
    + destruct H.
    + inversion H; subst. contradiction.
    + apply same_infinity; auto. congruence.
  - inversion Hc; subst.
    + destruct H.
    + inversion H.
    + apply same_list; [congruence|]. intros i x z Hx Hz.
      destruct (nth_error m i) as [y|] eqn:Hy.
      * eapply IH; eauto.
      * apply nth_error_None in Hy. assert (nth_error l i = None) by (apply nth_error_None; lia). congruence.
  - inversion Hc; subst.
    + destruct H.
    + inversion H.
    + apply same_dict; [intros; rewrite Hk; auto|]. intros k x z Hx Hz.
      destruct (dget e k) as [y|] eqn:Hy; [eapply IH; eauto|]. apply Hk in Hy. congruence.
Qed.

Lemma dget_In d k x : dget d k = Some x -> In (k, x) d.
Proof.
  induction d as [|[k' x'] d IH]; cbn [dget]; [discriminate|].
  destruct (String.eqb_spec k' k); [intros [= <-]; subst; left; auto|right; auto].
Qed.

Lemma same_refl a : comparable a -> same a a.
Proof.
  induction 1 as [v H|z|x Hp Hn|l _ IH|d Hnd _ IH].
  - apply same_atom; auto.
  - eapply same_number; constructor.
  - apply float_eqb_iff; auto. unfold float_eqb.
    pose proof (classify_nan double x double_ok) as G. rewrite fmt_double in G.
    destruct (classify binary64 x) eqn:C; [tauto|apply eqb_reflx|].
    destruct (float_rat x) as [n d]. unfold rat_eqb. apply Z.eqb_refl.
  - apply same_list; auto. intros i x y Hx Hy. replace y with x by congruence. apply IH.
    eapply nth_error_In; eauto.
  - apply same_dict; [tauto|]. intros k x y Hx Hy. replace y with x by congruence.
    apply (IH k). apply dget_In; auto.
Qed.

(** ** The recursive comparison *)
Lemma list_eq_iff eqv l : forall m r, 
  (forall x y r, In x l -> In y m -> eqv x y = Ok r -> (r = true <-> same x y)) ->
  list_eq_with eqv l m = Ok r ->
  (r = true <-> length l = length m /\
     forall i x y, nth_error l i = Some x -> nth_error m i = Some y -> same x y).
Proof.
  induction l as [|x l IH]; intros [|y m] r He H; cbn [list_eq_with] in H.
  - injection H as <-. split; auto. intros _. split; auto. intros [|i]; discriminate.
  - injection H as <-. split; [discriminate|]. intros [Hl _]; discriminate.
  - injection H as <-. split; [discriminate|]. intros [Hl _]; discriminate.
  - destruct (eqv x y) as [b|e|] eqn:Hb; cbn [bind] in H; try discriminate.
    pose proof (He x y b (or_introl eq_refl) (or_introl eq_refl) Hb) as Hxy.
    destruct b.
    + apply IH in H; [|intros; apply He; auto; right; auto]. rewrite H. cbn [length]. split.
      * intros [Hl Hi]. split; [lia|]. intros [|i] a b; cbn [nth_error]; [intros [= <-] [= <-]; tauto|apply Hi].
      * intros [Hl Hi]. split; [lia|]. intros i a b. apply (Hi (S i)).
    + injection H as <-. split; [discriminate|]. intros [_ Hi].
      apply Hxy, (Hi O); reflexivity.
Qed.

Lemma dget_none_keys d k : dget d k = None <-> ~ In k (dkeys d).
Proof.
  induction d as [|[k' x] d IH]; cbn [dget dkeys map fst In]; [tauto|].
  destruct (String.eqb_spec k' k); [subst; split; [discriminate|tauto]|].
  unfold dkeys in IH. rewrite IH. tauto.
Qed.

Lemma In_dget d k x : NoDup (dkeys d) -> In (k, x) d -> dget d k = Some x.
Proof.
  induction d as [|[k' x'] d IH]; cbn [dget dkeys map fst]; [contradiction|].
  intros Hn [[= -> ->]|Hin]; [rewrite String.eqb_refl; auto|].
  inversion Hn; subst. destruct (String.eqb_spec k' k); [|apply IH; auto].
  subst. exfalso. apply H1. apply in_map_iff. exists (k, x). auto.
Qed.

Lemma dict_eq_iff eqv d e : forall r,
  (forall k x y r, In (k, x) d -> dget e k = Some y -> eqv x y = Ok r -> (r = true <-> same x y)) ->
  dict_eq_with eqv d e = Ok r ->
  (r = true <-> forall k x, In (k, x) d -> exists y, dget e k = Some y /\ same x y).
Proof.
  induction d as [|[k x] d IH]; intros r He H; cbn [dict_eq_with] in H.
  - injection H as <-. split; auto. intros _ k x [].
  - destruct (dget e k) as [y|] eqn:Hy.
    + destruct (eqv x y) as [b|ex|] eqn:Hb; cbn [bind] in H; try discriminate.
      pose proof (He k x y b (or_introl eq_refl) Hy Hb) as Hxy. destruct b.
      * apply IH in H; [|intros k0 x0 y0 r0 Hin; apply He; right; auto]. rewrite H. split.
        -- intros Hall k0 x0 [[= <- <-]|Hin]; [exists y; tauto|auto].
        -- intros Hall k0 x0 Hin. apply Hall. right; auto.
      * injection H as <-. split; [discriminate|]. intros Hall.
        destruct (Hall k x (or_introl eq_refl)) as (y' & Hy' & Hs). apply Hxy. congruence.
    + injection H as <-. split; [discriminate|]. intros Hall.
      destruct (Hall k x (or_introl eq_refl)) as (y' & Hy' & _). congruence.
Qed.

Lemma same_dict_inv d e : same (VDict d) (VDict e) ->
  (forall k, dget d k = None <-> dget e k = None)
  /\ (forall k x y, dget d k = Some x -> dget e k = Some y -> same x y).
Proof.
  intros H. inversion H as [v Ha|a b p q Ha Hb Hq| | |]; subst; auto; [destruct Ha|inversion Ha].
Qed.

Lemma same_list_inv l m : same (VList l) (VList m) ->
  length l = length m
  /\ (forall i x y, nth_error l i = Some x -> nth_error m i = Some y -> same x y).
Proof.
  intros H. inversion H as [v Ha|a b p q Ha Hb Hq| | |]; subst; auto; [destruct Ha|inversion Ha].
Qed.

Lemma dict_same_iff d e : NoDup (dkeys d) -> NoDup (dkeys e) -> length d = length e ->
  ((forall k x, In (k, x) d -> exists y, dget e k = Some y /\ same x y) <-> same (VDict d) (VDict e)).
Proof.
  intros Hd He Hl. split.
  - intros Hall.
    assert (Hincl : incl (dkeys d) (dkeys e)).
    { intros k Hk. apply in_map_iff in Hk. destruct Hk as ([k' x] & <- & Hin).
      destruct (Hall k' x Hin) as (y & Hy & _). apply in_map_iff. exists (k', y). split; auto. apply dget_In; auto. }
    assert (Hback : incl (dkeys e) (dkeys d)).
    { apply NoDup_length_incl; auto. unfold dkeys. rewrite !map_length. lia. }
    apply same_dict.
    + intros k. rewrite !dget_none_keys. split; auto.
    + intros k x y Hx Hy. destruct (Hall k x (dget_In _ _ _ Hx)) as (y' & Hy' & Hs). congruence.
  - intros H k x Hin. apply same_dict_inv in H. destruct H as [H1 H3].
    pose proof (In_dget d k x Hd Hin) as Hx. destruct (dget e k) as [y|] eqn:Hy.
    + exists y. split; auto. eapply H3; eauto.
    + apply H1 in Hy. congruence.
Qed.

Lemma same_dict_length d e : NoDup (dkeys d) -> NoDup (dkeys e) -> same (VDict d) (VDict e) -> length d = length e.
Proof.
  intros Hd He H. apply same_dict_inv in H. destruct H as [H1 _].
  assert (Hk : forall k, In k (dkeys d) <-> In k (dkeys e)).
  { intros k. specialize (H1 k). rewrite !dget_none_keys in H1.
    destruct (in_dec string_dec k (dkeys d)), (in_dec string_dec k (dkeys e)); tauto. }
  assert (length (dkeys d) = length (dkeys e)).
  { apply Nat.le_antisymm; apply NoDup_incl_length; auto; intros k; apply Hk. }
  unfold dkeys in *. rewrite !map_length in *. auto.
Qed.

(** On comparable data [==] decides [same]. *)
Lemma py_eq_same E n : forall a b r, comparable a -> comparable b -> py_eq E n a b = Ok r ->
  (r = true <-> same a b).
Proof.
  induction n as [|n IH]; intros a b r Ha Hb H; [discriminate|].
  assert (Hat : forall v w, same v w -> atom v -> v = w).
  { intros v w Hs Hv. inversion Hs as [? Hw|? ? p q Hp Hq| | |]; subst; auto; try destruct Hv.
    inversion Hp; subst; destruct Hv. }
  destruct a as [| | | |z|x|bs|cs|u|us aw|l|l|d|cid vals].
  all: try (inversion Ha as [? Hv| | | | ]; subst; destruct Hv; fail).
  all: destruct b as [| | | |z'|x'|bs'|cs'|u'|us' aw'|l'|l'|d'|cid' vals'].
  all: try (inversion Hb as [? Hv| | | | ]; subst; destruct Hv; fail).
  all: cbn [py_eq] in H.
  all: try (injection H as <-; split; [discriminate|];
            intros Hs; first [discriminate (Hat _ _ Hs I)
                             |discriminate (Hat _ _ (same_sym _ _ Hs) I)
                             |inversion Hs as [|? ? p q Hp Hq| | |]; subst; solve [inversion Hp|inversion Hq]]; fail).
  all: try (injection H as <-; split; auto; intros _; apply same_atom; exact I).
  - injection H as <-. rewrite Z.eqb_eq. split.
    + intros ->. eapply same_number; constructor.
    + intros Hs. inversion Hs as [? Hv|? ? p q Hp Hq Heq| | |]; subst; auto.
      inversion Hp; subst. inversion Hq; subst. apply inject_Z_injective. auto.
  - injection H as <-. inversion Hb; subst; [match goal with h : atom _ |- _ => destruct h end|].
    apply int_float_eqb_iff; auto.
  - injection H as <-. inversion Ha; subst; [match goal with h : atom _ |- _ => destruct h end|].
    rewrite int_float_eqb_iff by auto. split; apply same_sym.
  - injection H as <-. inversion Ha; subst; [match goal with h : atom _ |- _ => destruct h end|].
    inversion Hb; subst; [match goal with h : atom _ |- _ => destruct h end|]. apply float_eqb_iff; auto.
  - injection H as <-. rewrite bytes_eqb_eq. split; [intros ->; apply same_atom; exact I|].
    intros Hs. pose proof (Hat _ _ Hs I). congruence.
  - injection H as <-. rewrite bytes_eqb_eq. split; [intros ->; apply same_atom; exact I|].
    intros Hs. pose proof (Hat _ _ Hs I). congruence.
  - injection H as <-. rewrite Z.eqb_eq. split; [intros ->; apply same_atom; exact I|].
    intros Hs. pose proof (Hat _ _ Hs I). congruence.
  - injection H as <-. rewrite andb_true_iff, eqb_true_iff, Z.eqb_eq.
    split; [intros [-> ->]; apply same_atom; exact I|].
    intros Hs. pose proof (Hat _ _ Hs I) as He. injection He as -> ->. auto.
  - inversion Ha as [? Hv| | |? Hl|]; subst; [destruct Hv|].
    inversion Hb as [? Hv| | |? Hl'|]; subst; [destruct Hv|].
    unfold zlen in H. destruct (Z.eqb_spec (Z.of_nat (length l)) (Z.of_nat (length l'))) as [He|He]; cbn [negb] in H.
    + apply list_eq_iff in H; [|intros x y r0 Hx Hy; apply IH; auto].
      rewrite H. split; [intros [? ?]; apply same_list; auto|apply same_list_inv].
    + injection H as <-. split; [discriminate|]. intros Hs. apply same_list_inv in Hs. destruct Hs as [Hs _]. lia.
  - inversion Ha as [? Hv| | | |? Hn Hl]; subst; [destruct Hv|].
    inversion Hb as [? Hv| | | |? Hn' Hl']; subst; [destruct Hv|].
    unfold zlen in H. destruct (Z.eqb_spec (Z.of_nat (length d)) (Z.of_nat (length d'))) as [He|He]; cbn [negb] in H.
    + apply dict_eq_iff in H.
      * rewrite H. apply dict_same_iff; auto. lia.
      * intros k x y r0 Hx Hy. apply IH; [eapply Hl; eauto|]. eapply Hl'. apply dget_In. eauto.
    + injection H as <-. split; [discriminate|]. intros Hs. pose proof (same_dict_length _ _ Hn Hn' Hs). lia.
Qed.

(** Fuel needed to compare with a value. *)
Fixpoint depth (v : value) : nat :=
  match v with
  | VList l => S (fold_right (fun x m => Nat.max (depth x) m) O l)
  | VDict d => S (fold_right (fun kv m => Nat.max (depth (snd kv)) m) O d)
  | _ => O
  end.

Lemma depth_list x l : In x l -> (depth x < depth (VList l))%nat.
Proof.
  intros H. cbn [depth]. induction l as [|y l IH]; [destruct H|].
  cbn [fold_right]. destruct H as [->|H]; [lia|]. apply IH in H. lia.
Qed.
Lemma depth_dict k x d : In (k, x) d -> (depth x < depth (VDict d))%nat.
Proof.
  intros H. cbn [depth]. induction d as [|y l IH]; [destruct H|].
  cbn [fold_right]. destruct H as [->|H]; [cbn [snd]; lia|]. apply IH in H. lia.
Qed.

Lemma list_eq_total eqv l : forall m, (forall x y, In x l -> In y m -> exists r, eqv x y = Ok r) ->
  exists r, list_eq_with eqv l m = Ok r.
Proof.
  induction l as [|x l IH]; intros [|y m] He; cbn [list_eq_with]; eauto.
  destruct (He x y (or_introl eq_refl) (or_introl eq_refl)) as (r & ->). cbn [bind]. destruct r; eauto.
  apply IH. intros. apply He; right; auto.
Qed.

Lemma dict_eq_total eqv d e : (forall k x y, In (k, x) d -> In (k, y) e -> exists r, eqv x y = Ok r) ->
  exists r, dict_eq_with eqv d e = Ok r.
Proof.
  induction d as [|[k x] d IH]; intros He; cbn [dict_eq_with]; eauto.
  destruct (dget e k) as [y|] eqn:Hy; eauto.
  destruct (He k x y (or_introl eq_refl) (dget_In _ _ _ Hy)) as (r & ->). cbn [bind]. destruct r; eauto.
  apply IH. intros. eapply He; [right|]; eauto.
Qed.

Inductive no_struct : value -> Prop :=
| ns_leaf : forall v, match v with VList _ | VDict _ | VStruct _ _ => False | _ => True end -> no_struct v
| ns_list : forall l, (forall x, In x l -> no_struct x) -> no_struct (VList l)
| ns_dict : forall d, (forall k x, In (k, x) d -> no_struct x) -> no_struct (VDict d).

Lemma free_no_struct v : struct_free v -> no_struct v.
Proof.
  revert v. fix IH 2. intros v [w Hw|l Hl|d Hd].
  - apply ns_leaf; auto.
  - apply ns_list. induction Hl as [|x l Hx _ IHl]; [intros x []|].
    intros y [<-|Hy]; [apply IH; auto|apply IHl; auto].
  - apply ns_dict. induction Hd as [|[k x] l Hx _ IHl]; [intros k x []|].
    intros k' y [[= <- <-]|Hy]; [apply IH; auto|eapply IHl; eauto].
Qed.

Lemma py_eq_total E n : forall a b, no_struct a -> no_struct b -> (depth a < n)%nat ->
  exists r, py_eq E n a b = Ok r.
Proof.
  induction n as [|n IH]; intros a b Ha Hb Hd; [lia|].
  destruct a as [| | | |z|x|bs|cs|u|us aw|l|l|d|cid vals].
  14: inversion Ha as [? Hv| |]; subst; destruct Hv.
  all: destruct b as [| | | |z'|x'|bs'|cs'|u'|us' aw'|l'|l'|d'|cid' vals'].
  all: try (inversion Hb as [? Hv| |]; subst; destruct Hv; fail).
  all: cbn [py_eq]; eauto.
  - inversion Ha as [? Hv|? Hl|]; subst; [destruct Hv|]. inversion Hb as [? Hv|? Hl'|]; subst; [destruct Hv|].
    destruct (negb _); eauto. apply list_eq_total. intros x y Hx Hy. apply IH; auto.
    apply depth_list in Hx. lia.
  - inversion Ha as [? Hv| |? Hl]; subst; [destruct Hv|]. inversion Hb as [? Hv| |? Hl']; subst; [destruct Hv|].
    destruct (negb _); eauto. apply dict_eq_total. intros k x y Hx Hy. apply IH; eauto.
    apply depth_dict in Hx. lia.
Qed.

(** ** Structs *)
Lemma set_values_get E n cid vals : instance_of E cid vals ->
  mapM (fun k => do v <- struct_get E n cid vals k; Ok (k, v)) (struct_keys vals) = Ok (set_values vals).
Proof.
  intros (Hwf & Hnd & Hincl).
  assert (Hsub : forall k v, In (k, v) (set_values vals) -> struct_get E n cid vals k = Ok v).
  { intros k v Hin. unfold set_values in Hin. apply filter_In in Hin. destruct Hin as [Hin _].
    assert (Hk : In k (map fst (comps E cid))) by (apply Hincl, in_map_iff; exists (k, v); auto).
    pose proof (In_dget vals k v Hnd Hin) as Hg. destruct Hwf as (Hc & Hn & _).
    apply in_map_iff in Hk. destruct Hk as ([k' f] & Hk' & Hf). cbn [fst] in Hk'. subst k'.
    apply (struct_get_stored E n cid vals k f v); auto.
    - apply in_assoc; auto.
    - rewrite Forall_forall in Hn. apply (Hn _ Hf). }
  unfold struct_keys. fold (set_values vals). clear -Hsub.
  induction (set_values vals) as [|[k v] l IH]; cbn [map mapM fst]; auto.
  rewrite (Hsub k v (or_introl eq_refl)). cbn [bind]. rewrite IH; auto. intros; apply Hsub; right; auto.
Qed.

Lemma defined_view E n cid vals d : instance_of E cid vals -> defined_values E n cid vals = Ok d ->
  view E n (VStruct cid vals) d.
Proof.
  intros Hi H. unfold defined_values in H. rewrite set_values_get in H by auto.
  destruct (struct_len E n cid vals) as [z|[]|]; cbn [bind] in H; try discriminate; constructor; auto.
Qed.

Lemma eq_views E n a b r : mapping E a -> mapping E b -> is_struct a \/ is_struct b ->
  py_eq E (S n) a b = Ok r ->
  exists da db, view E n a da /\ view E n b db
    /\ (py_eq E n (VDict da) (VDict db) = Ok r \/ py_eq E n (VDict db) (VDict da) = Ok r).
Proof.
  intros Ha Hb Hs H. destruct a; try contradiction; destruct b; try contradiction; cbn [py_eq] in H.
  - destruct Hs as [[]|[]].
  - destruct (defined_values E n cid d0) as [mine|e|] eqn:Hm; cbn [bind] in H; try discriminate.
    destruct (dicts_of E n d) as [theirs|e|] eqn:Ht; cbn [bind] in H; try discriminate.
    exists theirs, mine. split; [constructor; auto|]. split; [apply defined_view; auto|auto].
  - destruct (defined_values E n cid d) as [mine|e|] eqn:Hm; cbn [bind] in H; try discriminate.
    destruct (dicts_of E n d0) as [theirs|e|] eqn:Ht; cbn [bind] in H; try discriminate.
    exists mine, theirs. split; [apply defined_view; auto|]. split; [constructor; auto|auto].
  - destruct (defined_values E n cid d) as [mine|e|] eqn:Hm; cbn [bind] in H; try discriminate.
    destruct (defined_values E n cid0 d0) as [theirs|e|] eqn:Ht; cbn [bind] in H; try discriminate.
    exists mine, theirs. split; [apply defined_view; auto|]. split; [apply defined_view; auto|auto].
Qed.

Lemma view_mono E n m v d : (n <= m)%nat -> view E n v d -> view E m v d.
Proof.
  intros Hle H. inversion H; subst; constructor;
    match goal with h : dicts_of E n ?x = _ |- _ => destruct (dicts_of_mono E n m x Hle); congruence end.
Qed.

Lemma view_det E n m v d d' : view E n v d -> view E m v d' -> d = d'.
Proof.
  intros H H'. apply (view_mono E n (Nat.max n m)) in H; [|lia]. apply (view_mono E m (Nat.max n m)) in H'; [|lia].
  inversion H; subst; inversion H'; subst; congruence.
Qed.

Lemma eq_iff E n a b r : mapping E a -> mapping E b -> is_struct a \/ is_struct b ->
  py_eq E n a b = Ok r ->
  exists da db, view E n a da /\ view E n b db
    /\ (comparable (VDict da) -> comparable (VDict db) -> (r = true <-> same (VDict da) (VDict db))).
Proof.
  intros Ha Hb Hs H. destruct n as [|n]; [discriminate|].
  destruct (eq_views E n a b r Ha Hb Hs H) as (da & db & Va & Vb & Hr).
  exists da, db. split; [apply (view_mono E n); auto|]. split; [apply (view_mono E n); auto|].
  intros Ca Cb. destruct Hr as [Hr|Hr].
  - apply (py_eq_same E n); auto.
  - rewrite (py_eq_same E n _ _ r Cb Ca Hr). split; apply same_sym.
Qed.

Lemma eq_reflexive E n a r : mapping E a -> is_struct a -> tame E a -> py_eq E n a a = Ok r -> r = true.
Proof.
  intros Ha Hs (m & d & Hv & Hc) H.
  destruct (eq_iff E n a a r Ha Ha (or_introl Hs) H) as (da & db & Va & Vb & Hiff).
  rewrite (view_det _ _ _ _ _ _ Va Hv), (view_det _ _ _ _ _ _ Vb Hv) in Hiff.
  apply Hiff; auto. apply same_refl; auto.
Qed.

Lemma eq_symmetric E n m a b r r' : mapping E a -> mapping E b -> is_struct a \/ is_struct b ->
  tame E a -> tame E b -> py_eq E n a b = Ok r -> py_eq E m b a = Ok r' -> r = r'.
Proof.
  intros Ha Hb Hs (ka & da & Va & Ca) (kb & db & Vb & Cb) H H'.
  destruct (eq_iff E n a b r Ha Hb Hs H) as (d1 & d2 & V1 & V2 & Hiff).
  destruct (eq_iff E m b a r' Hb Ha ltac:(tauto) H') as (d3 & d4 & V3 & V4 & Hiff').
  rewrite (view_det _ _ _ _ _ _ V1 Va), (view_det _ _ _ _ _ _ V2 Vb) in Hiff.
  rewrite (view_det _ _ _ _ _ _ V3 Vb), (view_det _ _ _ _ _ _ V4 Va) in Hiff'.
  specialize (Hiff Ca Cb). specialize (Hiff' Cb Ca).
  assert (same (VDict da) (VDict db) <-> same (VDict db) (VDict da)) by (split; apply same_sym).
  destruct r, r'; auto; [symmetry; apply Hiff'|apply Hiff]; tauto.
Qed.

Lemma eq_transitive E n1 n2 n3 a b c r : mapping E a -> mapping E b -> mapping E c ->
  is_struct a \/ is_struct b -> is_struct b \/ is_struct c -> is_struct a \/ is_struct c ->
  tame E a -> tame E b -> tame E c ->
  py_eq E n1 a b = Ok true -> py_eq E n2 b c = Ok true -> py_eq E n3 a c = Ok r -> r = true.
Proof.
  intros Ha Hb Hc S1 S2 S3 (ka & da & Va & Ca) (kb & db & Vb & Cb) (kc & dc & Vc & Cc) H1 H2 H3.
  destruct (eq_iff E n1 a b true Ha Hb S1 H1) as (d1 & d2 & V1 & V2 & I1).
  destruct (eq_iff E n2 b c true Hb Hc S2 H2) as (d3 & d4 & V3 & V4 & I2).
  destruct (eq_iff E n3 a c r Ha Hc S3 H3) as (d5 & d6 & V5 & V6 & I3).
  rewrite (view_det _ _ _ _ _ _ V1 Va), (view_det _ _ _ _ _ _ V2 Vb) in I1.
  rewrite (view_det _ _ _ _ _ _ V3 Vb), (view_det _ _ _ _ _ _ V4 Vc) in I2.
  rewrite (view_det _ _ _ _ _ _ V5 Va), (view_det _ _ _ _ _ _ V6 Vc) in I3.
  apply I3; auto. eapply same_trans; [apply I1|apply I2]; auto.
Qed.

(** Instances holding the same set values are equal, whatever their class and the order in
    which the values were stored. *)
Lemma eq_same_values E n cid cid' vals vals' r :
  instance_of E cid vals -> instance_of E cid' vals' -> tame E (VStruct cid vals) ->
  (forall k, dget (set_values vals) k = dget (set_values vals') k) ->
  py_eq E n (VStruct cid vals) (VStruct cid' vals') = Ok r -> r = true.
Proof.
  intros Hi Hi' (k & d & Hv & Hc) Hsame H.
  destruct (eq_iff E n (VStruct cid vals) (VStruct cid' vals') r Hi Hi' (or_introl I) H) as (da & db & Va & Vb & Hiff).
  assert (da = d) by exact (view_det _ _ _ _ _ _ Va Hv). subst da.
  inversion Va as [? ? ? D1|]; subst. inversion Vb as [? ? ? D2|]; subst.
  assert (Hget : forall name, dget d name = dget db name).
  { intros name. pose proof (dicts_of_get _ _ _ _ D1 name) as G1. pose proof (dicts_of_get _ _ _ _ D2 name) as G2.
    rewrite <- Hsame in G2. destruct (dget (set_values vals) name) as [v|].
    - destruct G1 as (v1 & R1 & ->). destruct G2 as (v2 & R2 & ->). congruence.
    - congruence. }
  inversion Hc as [? Hat| | | |? Hnd Hin]; subst; [destruct Hat|].
  assert (Hndb : NoDup (dkeys db)).
  { rewrite (dicts_of_keys _ _ _ _ D2). destruct Hi' as (_ & Hn & _).
    apply nodup_filter_keys. auto. }
  assert (Cb : comparable (VDict db)).
  { apply cmp_dict; auto. intros name x Hx. apply (Hin name). apply dget_In. rewrite Hget. apply In_dget; auto. }
  apply Hiff; auto. apply same_dict.
  - intros name. rewrite Hget. tauto.
  - intros name x y Hx Hy. assert (x = y) by congruence. subst y. apply same_refl. apply (Hin name), dget_In; auto.
Qed.

(** Comparison terminates with an answer whenever both conversions succeed and [len()] does
    not raise (or raises TypeError, which Python ignores here). *)
Lemma eq_answers E m a b da db : mapping E a -> mapping E b -> is_struct a \/ is_struct b ->
  view E m a da -> view E m b db -> measured E m a -> measured E m b ->
  exists N, forall n, (N <= n)%nat -> exists r, py_eq E n a b = Ok r.
Proof.
  intros Ha Hb Hs Va Vb Ma Mb.
  assert (Hfree : forall v d, view E m v d -> no_struct (VDict d)).
  { intros v d H. apply free_no_struct, free_dict. inversion H; subst; eapply dicts_of_free; eauto. }
  assert (Hdef : forall cid vals d n, (m <= n)%nat -> instance_of E cid vals -> view E m (VStruct cid vals) d ->
            measured E m (VStruct cid vals) -> defined_values E n cid vals = Ok d).
  { intros cid vals d n Hle Hi Hv Hm. destruct (defined_values_mono E m n cid vals Hle) as [H|H].
    - exfalso. revert H. unfold defined_values. rewrite set_values_get by auto. inversion Hv; subst.
      destruct Hm as [[z ->]| ->]; cbn [bind]; congruence.
    - rewrite <- H. unfold defined_values. rewrite set_values_get by auto. inversion Hv; subst.
      destruct Hm as [[z ->]| ->]; cbn [bind]; auto. }
  assert (Hdic : forall x d n, (m <= n)%nat -> view E m (VDict x) d -> dicts_of E n x = Ok d).
  { intros x d n Hle Hv. apply (view_mono E m n) in Hv; auto. inversion Hv; subst; auto. }
  exists (S (S (Nat.max m (Nat.max (depth (VDict da)) (depth (VDict db)))))). intros n Hn.
  destruct n as [|n]; [lia|].
  pose proof (Hfree _ _ Va) as Fa. pose proof (Hfree _ _ Vb) as Fb.
  destruct (py_eq_total E n (VDict da) (VDict db) Fa Fb ltac:(lia)) as (r1 & R1).
  destruct (py_eq_total E n (VDict db) (VDict da) Fb Fa ltac:(lia)) as (r2 & R2).
  destruct a; try contradiction; destruct b; try contradiction; cbn [py_eq].
  - destruct Hs as [[]|[]].
  - rewrite (Hdef cid d0 db n), (Hdic d da n) by (auto; lia). cbn [bind]. eauto.
  - rewrite (Hdef cid d da n), (Hdic d0 db n) by (auto; lia). cbn [bind]. eauto.
  - rewrite (Hdef cid d da n), (Hdef cid0 d0 db n) by (auto; lia). cbn [bind]. eauto.
Qed.

(** The exceptions of [len()] other than TypeError come out of [==]. *)
Lemma eq_len_raises E n cid vals b e : instance_of E cid vals -> b <> VUndefined ->
  struct_len E n cid vals = Raise e -> e <> ETypeErr ->
  py_eq E (S n) (VStruct cid vals) b = Raise e.
Proof.
  intros Hi Hb Hl He. assert (Hd : defined_values E n cid vals = Raise e).
  { unfold defined_values. rewrite Hl. destruct e; cbn [bind]; auto. congruence. }
  destruct b; cbn [py_eq]; rewrite ?Hd; cbn [bind]; auto. congruence.
Qed.

Lemma eq_undefined E n cid vals :
  py_eq E (S n) (VStruct cid vals) VUndefined = Ok true <-> Forall (fun kv => snd kv = VUndefined) vals.
Proof.
  cbn [py_eq]. split.
  - intros [= H]. rewrite forallb_forall in H. rewrite Forall_forall. intros kv Hin.
    specialize (H kv Hin). destruct (snd kv); try discriminate; auto.
  - intros H. f_equal. apply forallb_forall. intros kv Hin. rewrite Forall_forall in H. rewrite (H kv Hin). auto.
Qed.

Lemma eq_other E n cid vals b r : match b with VUndefined | VDict _ | VStruct _ _ => False | _ => True end ->
  py_eq E n (VStruct cid vals) b = Ok r -> r = false.
Proof.
  intros Hb H. destruct n as [|n]; [discriminate|]. destruct b; try contradiction; cbn [py_eq] in H;
    (destruct (defined_values E n cid vals); cbn [bind] in H; try discriminate; congruence).
Qed.
