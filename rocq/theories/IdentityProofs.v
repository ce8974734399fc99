(** Proofs about comparing structs with identity (C110). *)
From Coq Require Import Lia QArith.
From Verif Require Import Tac EqProofs FloatCountProofs.
From Verif Require Export SpecIdentity.
Open Scope Z_scope.

Section ThingInduction.
Variable P : thing -> Prop.
Hypothesis P_leaf : forall x, without_parts x -> P x.
Hypothesis P_list : forall l, Forall P l -> P (TList l).
Hypothesis P_dict : forall d, Forall (fun kv => P (snd kv)) d -> P (TDict d).
Fixpoint thing_induct (x : thing) : P x :=
  match x with
  | TList l => P_list l ((fix each (l : list thing) : Forall P l :=
      match l with [] => Forall_nil _ | x :: l' => Forall_cons x (thing_induct x) (each l') end) l)
  | TDict d => P_dict d ((fix each (l : list (string * thing)) : Forall (fun kv => P (snd kv)) l :=
      match l with [] => Forall_nil _ | x :: l' => Forall_cons x (thing_induct (snd x)) (each l') end) d)
  | x => P_leaf x I
  end.
End ThingInduction.

Section Proofs.
Variable floats : nat -> Z.
Variable gens : nat -> list value.
Local Notation bare := (bare floats gens).
Local Notation i_eq := (i_eq floats gens).
Local Notation sound := (sound floats).
Local Notation alike := (alike floats gens).
Local Notation odd := (odd floats).
Local Notation unshared := (unshared floats).

Definition inside (x y : thing) : bool := same_object x y || i_eq x y.

Fixpoint list_items (l m : list thing) : bool :=
  match l, m with
  | [], [] => true
  | x :: l', y :: m' => inside x y && list_items l' m'
  | _, _ => false
  end.
Fixpoint dict_items (e d : list (string * thing)) : bool :=
  match d with
  | [] => true
  | (k, x) :: d' => match assoc e k with None => false | Some y => inside x y && dict_items e d' end
  end.

Lemma eq_list l m : i_eq (TList l) (TList m) = list_items l m.
Proof. reflexivity. Qed.
Lemma eq_dict d e : i_eq (TDict d) (TDict e) = Nat.eqb (length d) (length e) && dict_items e d.
Proof.
  cbn [Identity.i_eq]. f_equal. induction d as [|[k x] d IH]; [reflexivity|]. cbn [dict_items]. destruct (assoc e k); [|reflexivity].
  unfold inside. f_equal. exact IH.
Qed.

Lemma assoc_In {A} (d : list (string * A)) k x : assoc d k = Some x -> In (k, x) d.
Proof. induction d as [|[k' y] d IH]; cbn [assoc]; [discriminate|]. destruct (String.eqb_spec k' k); [intros [= <-]; subst; left; auto|right; auto]. Qed.
Lemma In_assoc {A} (d : list (string * A)) k x : NoDup (map fst d) -> In (k, x) d -> assoc d k = Some x.
Proof.
  induction d as [|[k' y] d IH]; cbn [assoc map fst]; [contradiction|]. intros Hn [[= -> ->]|Hi]; [rewrite String.eqb_refl; auto|].
  inversion Hn; subst. destruct (String.eqb_spec k' k); [|auto]. subst. exfalso. apply H1. apply in_map_iff. exists (k, x). auto.
Qed.
Lemma assoc_keys {A} (d : list (string * A)) k : assoc d k = None <-> ~ In k (map fst d).
Proof.
  induction d as [|[k' y] d IH]; cbn [assoc map fst In]; [tauto|]. destruct (String.eqb_spec k' k); [subst; split; [discriminate|tauto]|].
  rewrite IH. tauto.
Qed.

(** ** Leaves *)
Lemma nan_not_finite x : is_nan double x -> is_finite double x -> False.
Proof. unfold is_nan, is_finite. lia. Qed.

Lemma nan_not_same x v : is_nan double x -> ~ same (VFloat x) v /\ ~ same v (VFloat x).
Proof.
  intros Hn. split; intros H; inversion H as [w Ha|a b p q Ha Hb Hq|? ? ? ? ? ?| |]; subst; auto.
  - inversion Ha; subst. eapply nan_not_finite; eauto.
  - inversion Hb; subst. eapply nan_not_finite; eauto.
Qed.

Lemma nan_dec x : is_nan double x \/ ~ is_nan double x.
Proof. rewrite nan_class. destruct (classify binary64 x); auto; right; discriminate. Qed.

Lemma nan_differs E n x v : is_nan double x -> (match v with VStruct _ _ => False | _ => True end) ->
  py_eq E (S n) (VFloat x) v = Ok false /\ py_eq E (S n) v (VFloat x) = Ok false.
Proof.
  intros Hn Hv. apply nan_class in Hn. destruct v; try contradiction; cbn [py_eq]; auto; unfold float_eqb, int_float_eqb; rewrite Hn; auto.
  destruct (classify binary64 bits); auto.
Qed.

Definition plain_leaf (x : thing) : Prop := match x with TAtom v => atom v | TInt _ => True | TFloat a => pattern double (floats a) | _ => False end.

Lemma leaf_scalar x : plain_leaf x -> match bare x with VStruct _ _ | VList _ | VDict _ | VGen _ => False | _ => True end.
Proof. destruct x as [v|z|a|a|l|d]; cbn; auto. destruct v; cbn; auto. Qed.

Lemma plain_eq E n x y : plain_leaf x -> plain_leaf y -> exists r, py_eq E (S n) (bare x) (bare y) = Ok r /\ (r = true <-> same (bare x) (bare y)).
Proof.
  intros Hx Hy.
  assert (Hr : exists r, py_eq E (S n) (bare x) (bare y) = Ok r).
  { pose proof (leaf_scalar x Hx) as H1. pose proof (leaf_scalar y Hy) as H2. destruct (bare x), (bare y); try contradiction; cbn [py_eq]; eauto. }
  destruct Hr as [r Hr]. exists r. split; auto.
  assert (Hc : forall z, plain_leaf z -> comparable (bare z) \/ exists a, z = TFloat a /\ is_nan double (floats a)).
  { intros w Hz. destruct w as [v|z|a|a|l|d]; try contradiction.
    - left. constructor. exact Hz.
    - left. apply cmp_int.
    - destruct (nan_dec (floats a)) as [Hn|Hn]; [right; exists a; split; auto|left; apply cmp_float; auto]. }
  destruct (Hc x Hx) as [Cx|(a & -> & Ha)].
  - destruct (Hc y Hy) as [Cy|(a & -> & Ha)]; [eapply py_eq_same; eauto|]. cbn [Identity.bare] in *.
    destruct (nan_differs E n (floats a) (bare x) Ha) as [_ H]; [pose proof (leaf_scalar x Hx); destruct (bare x); auto|].
    rewrite H in Hr. injection Hr as <-. split; [discriminate|]. intros Hs. apply (nan_not_same _ (bare x)) in Ha. tauto.
  - cbn [Identity.bare] in *. destruct (nan_differs E n (floats a) (bare y) Ha) as [H _]; [pose proof (leaf_scalar y Hy); destruct (bare y); auto|].
    rewrite H in Hr. injection Hr as <-. split; [discriminate|]. intros Hs. apply (nan_not_same _ (bare y)) in Ha. tauto.
Qed.

Lemma sound_leaf x : sound x -> without_parts x -> plain_leaf x \/ exists a, x = TGen a.
Proof. intros H Hw. destruct x; try contradiction; inversion H; subst; cbn; eauto. Qed.

Lemma leaf_eq_plain x y : plain_leaf x -> plain_leaf y -> (leaf_eq floats gens x y = true <-> same (bare x) (bare y)).
Proof.
  intros Hx Hy. destruct (plain_eq [] 0 x y Hx Hy) as (r & Hr & Hs).
  assert (H : leaf_eq floats gens x y = r) by (unfold leaf_eq; destruct x, y; try contradiction; rewrite Hr; reflexivity). rewrite H. exact Hs.
Qed.

Lemma gen_not_same l v : ~ same (VGen l) v /\ ~ same v (VGen l).
Proof. split; intros H; inversion H as [w Ha|a b p q Ha Hb Hq| | |]; subst; first [contradiction|inversion Ha; fail|inversion Hb; fail]. Qed.

Lemma leaf_i_eq x y : without_parts x -> without_parts y -> i_eq x y = leaf_eq floats gens x y.
Proof. destruct x, y; intros H1 H2; try contradiction; reflexivity. Qed.

Lemma alike_leaf_inv x y : without_parts x -> alike x y -> without_parts y /\ (x = y \/ same (bare x) (bare y)).
Proof. intros Hw H. inversion H; subst; cbn in *; auto; contradiction. Qed.

Lemma gen_leaf a y : sound y -> without_parts y -> (leaf_eq floats gens (TGen a) y = true <-> y = TGen a) /\ (leaf_eq floats gens y (TGen a) = true <-> y = TGen a).
Proof.
  intros Hs Hw. destruct (sound_leaf y Hs Hw) as [Hy|[b ->]].
  - pose proof (leaf_scalar y Hy) as Hv. split; split; intros H; subst; try contradiction; exfalso; unfold leaf_eq in H;
      destruct y as [v|z|b|b|l|d]; try contradiction; cbn [Identity.bare] in *; try (destruct v; try contradiction); discriminate.
  - cbn [leaf_eq]. rewrite !Nat.eqb_eq. split; split; congruence.
Qed.

Lemma leaf_inside x y : sound x -> sound y -> without_parts x -> without_parts y -> (inside x y = true <-> alike x y).
Proof.
  intros Sx Sy Wx Wy. unfold inside. rewrite leaf_i_eq by auto.
  destruct (sound_leaf x Sx Wx) as [Px|[a ->]].
  - destruct (sound_leaf y Sy Wy) as [Py|[b ->]].
    + rewrite orb_true_iff, leaf_eq_plain by auto. split.
      * intros [H|H]; [|apply alike_leaf; auto]. destruct x, y; try discriminate; try contradiction. apply Nat.eqb_eq in H as ->. constructor.
      * intros H. destruct (alike_leaf_inv x y Wx H) as [_ [->|Hs]]; auto. inversion H; subst; cbn; rewrite ?Nat.eqb_refl; auto.
    + rewrite orb_true_iff. destruct (gen_leaf b x Sx Wx) as [_ Hg]. rewrite Hg. split.
      * intros [H| ->]; [destruct x; try discriminate; contradiction|constructor].
      * intros H. destruct (alike_leaf_inv _ _ Wx H) as [_ [->|Hs]]; auto. cbn [Identity.bare] in Hs. apply (gen_not_same (gens b)) in Hs. contradiction.
  - rewrite orb_true_iff. destruct (gen_leaf a y Sy Wy) as [Hg _]. rewrite Hg. split.
    + intros [H| ->]; [destruct y; try discriminate; cbn in H; apply Nat.eqb_eq in H as ->|]; constructor.
    + intros H. destruct (alike_leaf_inv _ _ Wx H) as [_ [<-|Hs]]; auto. cbn [Identity.bare] in Hs. apply (gen_not_same (gens a)) in Hs. contradiction.
Qed.

(** ** Containers *)
Lemma parts_dec x : without_parts x \/ (exists l, x = TList l) \/ (exists d, x = TDict d).
Proof. destruct x; cbn; eauto. Qed.

Lemma list_items_iff l : forall m, (forall x y, In x l -> In y m -> (inside x y = true <-> alike x y)) ->
  (list_items l m = true <-> length l = length m /\ forall i x y, nth_error l i = Some x -> nth_error m i = Some y -> alike x y).
Proof.
  induction l as [|x l IH]; intros [|y m] He; cbn [list_items].
  - split; auto. intros _. split; auto. intros [|i]; discriminate.
  - split; [discriminate|]. intros [H _]; discriminate.
  - split; [discriminate|]. intros [H _]; discriminate.
  - rewrite andb_true_iff, IH, He by (auto; try (left; auto); intros; apply He; right; auto). cbn [length]. split.
    + intros [H (Hl & Hi)]. split; [lia|]. intros [|i] a b; cbn [nth_error]; [intros [= <-] [= <-]; auto|apply Hi].
    + intros [Hl Hi]. split; [apply (Hi O); reflexivity|]. split; [lia|]. intros i a b. apply (Hi (S i)).
Qed.

Lemma dict_items_iff e d : (forall k x y, In (k, x) d -> assoc e k = Some y -> (inside x y = true <-> alike x y)) ->
  (dict_items e d = true <-> forall k x, In (k, x) d -> exists y, assoc e k = Some y /\ alike x y).
Proof.
  induction d as [|[k x] d IH]; intros He; cbn [dict_items].
  - split; auto. intros _ k x [].
  - destruct (assoc e k) as [y|] eqn:Hy.
    + rewrite andb_true_iff, IH by (intros k0 x0 y0 Hin; apply He; right; auto). rewrite (He k x y (or_introl eq_refl) Hy). split.
      * intros [H Hall] k0 x0 [[= <- <-]|Hin]; eauto.
      * intros Hall. destruct (Hall k x (or_introl eq_refl)) as (y' & Hy' & Ha). split; [congruence|]. intros k0 x0 Hin. apply Hall. right. auto.
    + split; [discriminate|]. intros Hall. destruct (Hall k x (or_introl eq_refl)) as (y' & Hy' & _). congruence.
Qed.

Lemma dict_alike_iff d e : NoDup (map fst d) -> NoDup (map fst e) ->
  ((length d = length e /\ forall k x, In (k, x) d -> exists y, assoc e k = Some y /\ alike x y) <-> alike (TDict d) (TDict e)).
Proof.
  intros Hd He. split.
  - intros [Hl Hall]. assert (Hincl : incl (map fst d) (map fst e)).
    { intros k Hk. apply in_map_iff in Hk. destruct Hk as ([k' x] & <- & Hin). destruct (Hall k' x Hin) as (y & Hy & _).
      apply in_map_iff. exists (k', y). split; auto. apply assoc_In; auto. }
    assert (Hback : incl (map fst e) (map fst d)) by (apply NoDup_length_incl; auto; rewrite !map_length; lia).
    apply alike_dict.
    + intros k. rewrite !assoc_keys. split; auto.
    + intros k x y Hx Hy. destruct (Hall k x (assoc_In _ _ _ Hx)) as (y' & Hy' & Hs). congruence.
  - intros H. assert (H1 : forall k, assoc d k = None <-> assoc e k = None) by (inversion H; subst; auto; contradiction).
    assert (H2 : forall k x y, assoc d k = Some x -> assoc e k = Some y -> alike x y) by (inversion H; subst; auto; contradiction). split.
    + assert (Hk : forall k, In k (map fst d) <-> In k (map fst e)).
      { intros k. specialize (H1 k). rewrite !assoc_keys in H1.
        destruct (in_dec string_dec k (map fst d)), (in_dec string_dec k (map fst e)); tauto. }
      assert (Hl : length (map fst d) = length (map fst e)) by (apply Nat.le_antisymm; apply NoDup_incl_length; auto; intros k; apply Hk).
      rewrite !map_length in Hl. auto.
    + intros k x Hin. apply In_assoc in Hin; auto. destruct (assoc e k) as [y|] eqn:Hy; [eauto|]. apply H1 in Hy. congruence.
Qed.

(** Items are taken to be equal exactly if they are alike. *)
Lemma inside_iff : forall x y, sound x -> sound y -> (inside x y = true <-> alike x y).
Proof.
  induction x as [x Wx|l IH|d IH] using thing_induct; intros y Sx Sy.
  - destruct (parts_dec y) as [Wy|[[m ->]|[e ->]]]; [apply leaf_inside; auto| |]; split; intros H.
    + destruct x; try contradiction; discriminate.
    + apply alike_leaf_inv in H; auto. destruct H as [[] _].
    + destruct x; try contradiction; discriminate.
    + apply alike_leaf_inv in H; auto. destruct H as [[] _].
  - destruct y as [| | | |m|e]; try (split; intros H; [discriminate|inversion H; subst; contradiction]).
    unfold inside. cbn [same_object orb]. rewrite eq_list. inversion Sx as [| | | |l0 Hl|]; subst. inversion Sy as [| | | |m0 Hm|]; subst.
    rewrite list_items_iff by (rewrite Forall_forall in IH; auto). split; [intros [? ?]; apply alike_list; auto|].
    intros H. inversion H; subst; auto. contradiction.
  - destruct y as [| | | |m|e]; try (split; intros H; [discriminate|inversion H; subst; contradiction]).
    unfold inside. cbn [same_object orb]. rewrite eq_dict. inversion Sx as [| | | | |d0 Hn Hd]; subst. inversion Sy as [| | | | |e0 Hn' He]; subst.
    rewrite <- dict_alike_iff by auto. rewrite andb_true_iff, Nat.eqb_eq, dict_items_iff; [reflexivity|].
    intros k x y Hin Hy. rewrite Forall_forall in IH. apply (IH (k, x) Hin); [apply (Hd k); auto|]. apply (He k). apply assoc_In. auto.
Qed.

Lemma dict_eq_alike d e : sound (TDict d) -> sound (TDict e) -> (i_eq (TDict d) (TDict e) = true <-> alike (TDict d) (TDict e)).
Proof. intros Hd He. rewrite <- inside_iff by auto. reflexivity. Qed.

(** ** An equivalence *)
Lemma alike_refl x : sound x -> alike x x.
Proof.
  induction 1 as [v Hv|z|a Ha|a|l H IH|d Hn H IH].
  - apply alike_leaf; cbn; auto. apply same_atom. auto.
  - apply alike_leaf; cbn; auto. eapply same_number; [constructor|constructor|reflexivity].
  - constructor.
  - constructor.
  - apply alike_list; auto. intros i x y Hx Hy. assert (x = y) as <- by congruence. apply IH. eapply nth_error_In; eauto.
  - apply alike_dict; [tauto|]. intros k x y Hx Hy. assert (x = y) as <- by congruence. apply (IH k). apply assoc_In. auto.
Qed.

Lemma alike_sym x y : alike x y -> alike y x.
Proof.
  induction 1 as [a|a|x y Hx Hy Hs|l m Hl Hi IH|d e Hk Hi IH].
  - constructor.
  - constructor.
  - apply alike_leaf; auto. apply same_sym. auto.
  - apply alike_list; auto. intros i x y Hx Hy. eapply IH; eauto.
  - apply alike_dict; [intros k; symmetry; auto|]. intros k x y Hx Hy. eapply IH; eauto.
Qed.

Lemma alike_trans x y : alike x y -> forall z, alike y z -> alike x z.
Proof.
  induction 1 as [a|a|x y Hx Hy Hs|l m Hl Hi IH|d e Hk Hi IH]; intros z H; auto.
  - destruct (alike_leaf_inv _ _ Hy H) as [Hz [->|Hs']]; [apply alike_leaf; auto|]. apply alike_leaf; auto. eapply same_trans; eauto.
  - inversion H as [| | |m0 k Hl' Hi'|]; subst; [contradiction|]. apply alike_list; [congruence|]. intros i x z Hx Hz.
    destruct (nth_error m i) as [y|] eqn:Hy; [eapply IH; eauto|]. apply nth_error_None in Hy. assert (Hz' : nth_error k i <> None) by congruence. apply nth_error_Some in Hz'. lia.
  - inversion H as [| | | |e0 f Hk' Hi']; subst; [contradiction|]. apply alike_dict; [intros k; rewrite Hk; auto|]. intros k x z Hx Hz.
    destruct (assoc e k) as [y|] eqn:Hy; [eapply IH; eauto|]. apply Hk in Hy. congruence.
Qed.

(** ** Compared with [py_eq] *)
Lemma bare_keys d : dkeys (map (fun kv => (fst kv, bare (snd kv))) d) = map fst d.
Proof. unfold dkeys. rewrite map_map. reflexivity. Qed.
Lemma bare_get (d : list (string * thing)) k : dget (map (fun kv => (fst kv, bare (snd kv))) d) k = option_map bare (assoc d k).
Proof. induction d as [|[k' x] d IH]; [reflexivity|]. cbn. destruct (String.eqb k' k); auto. Qed.

Lemma unshared_object x y : sound x -> unshared x y -> same_object x y = true -> plain_leaf x /\ x = y /\ exists a, x = TFloat a /\ ~ is_nan double (floats a).
Proof.
  intros Hs Hu H. destruct x, y; try discriminate; apply Nat.eqb_eq in H as ->.
  - inversion Hs; subst. split; auto. split; auto. exists a0. split; auto. intros Hn. apply (Hu (TFloat a0)); constructor; auto.
  - exfalso. apply (Hu (TGen a0)); constructor.
Qed.

Lemma leaf_against E n x y r : sound x -> sound y -> without_parts x -> py_eq E n (bare x) (bare y) = Ok r ->
  (r = true -> i_eq x y = true) /\ (unshared x y -> inside x y = r).
Proof.
  intros Sx Sy Wx H. destruct n as [|n]; [discriminate|].
  destruct (parts_dec y) as [Wy|Hp].
  2: { assert (r = false) as ->.
       { destruct (sound_leaf x Sx Wx) as [Px|[a ->]].
         - pose proof (leaf_scalar x Px) as Hv. destruct Hp as [[m ->]|[e ->]]; cbn [Identity.bare] in H; destruct (bare x); try contradiction; cbn [py_eq] in H; congruence.
         - destruct Hp as [[m ->]|[e ->]]; cbn [Identity.bare py_eq] in H; congruence. }
       split; [discriminate|]. intros _. destruct Hp as [[m ->]|[e ->]]; destruct x; try contradiction; reflexivity. }
  destruct (sound_leaf x Sx Wx) as [Px|[a ->]].
  - destruct (sound_leaf y Sy Wy) as [Py|[b ->]].
    + destruct (plain_eq E n x y Px Py) as (r' & Hr & Hs). rewrite H in Hr. injection Hr as <-.
      assert (Hl : i_eq x y = r).
      { rewrite leaf_i_eq by auto. pose proof (leaf_eq_plain x y Px Py). destruct (leaf_eq floats gens x y), r; auto; try tauto; symmetry; tauto. }
      split; [intros ->; auto|]. intros Hu. unfold inside. rewrite Hl. destruct (same_object x y) eqn:Ho; auto. cbn [orb]. symmetry.
      destruct (unshared_object x y Sx Hu Ho) as (_ & <- & a & -> & Hn). apply Hs. apply same_refl. cbn [Identity.bare]. apply cmp_float; auto.
    + assert (r = false) as -> by (pose proof (leaf_scalar x Px) as Hv; cbn [Identity.bare] in H; destruct (bare x); try contradiction; cbn [py_eq] in H; congruence).
      split; [discriminate|]. intros Hu. unfold inside. destruct x; try contradiction; cbn [same_object orb]; rewrite leaf_i_eq by auto;
        match goal with |- ?b = false => destruct b eqn:Hb; auto end; apply gen_leaf in Hb; auto; discriminate.
  - assert (r = false) as ->.
    { destruct (sound_leaf y Sy Wy) as [Py|[b ->]]; [|cbn [Identity.bare py_eq] in H; congruence].
      pose proof (leaf_scalar y Py) as Hv. cbn [Identity.bare] in H. destruct (bare y); try contradiction; cbn [py_eq] in H; congruence. }
    split; [discriminate|]. intros Hu. destruct (inside (TGen a) y) eqn:Hi; auto. exfalso.
    assert (Hy : y = TGen a).
    { unfold inside in Hi. rewrite leaf_i_eq in Hi by auto. apply orb_true_iff in Hi as [Hi|Hi]; [|apply gen_leaf in Hi; auto].
      destruct y; try discriminate. apply Nat.eqb_eq in Hi as ->. reflexivity. }
    subst y. apply (Hu (TGen a)); constructor.
Qed.

Lemma against E : forall x y n r, sound x -> sound y -> py_eq E n (bare x) (bare y) = Ok r ->
  (r = true -> inside x y = true) /\ (unshared x y -> inside x y = r).
Proof.
  induction x as [x Wx|l IH|d IH] using thing_induct; intros y n r Sx Sy H.
  - destruct (leaf_against E n x y r Sx Sy Wx H) as [H1 H2]. split; auto. intros Hr. unfold inside. rewrite (H1 Hr). apply orb_true_r.
  - destruct n as [|n]; [discriminate|]. destruct y as [v|z|a|a|m|e].
    5: { unfold inside. cbn [same_object orb]. rewrite eq_list. cbn [Identity.bare py_eq] in H. unfold zlen in H. rewrite !map_length in H.
         inversion Sx as [| | | |l0 Hl|]; subst. inversion Sy as [| | | |m0 Hm|]; subst.
         destruct (Z.eqb_spec (Z.of_nat (length l)) (Z.of_nat (length m))) as [He|He]; cbn [negb] in H.
         - clear Sx Sy He. unfold SpecIdentity.unshared.
           assert (Hu : forall x y, (forall o, odd (TList l) o -> ~ odd (TList m) o) -> In x l -> In y m -> unshared x y).
           { intros x y Hu Hx Hy o Ho Ho'. apply (Hu o); econstructor; eauto. }
           assert (Hg : forall l m r, Forall (fun x => In x l -> True) l -> Forall (fun x => forall y n r, sound x -> sound y -> py_eq E n (bare x) (bare y) = Ok r ->
                      (r = true -> inside x y = true) /\ (unshared x y -> inside x y = r)) l ->
                    (forall x, In x l -> sound x) -> (forall x, In x m -> sound x) -> list_eq_with (py_eq E n) (map bare l) (map bare m) = Ok r ->
                    (r = true -> list_items l m = true) /\ ((forall x y, In x l -> In y m -> unshared x y) -> list_items l m = r)).
           { clear. intros l m r _ HF. revert m r. induction HF as [|x l Hx HF IH]; intros [|y m] r Hl Hm H; cbn [map list_eq_with list_items] in *; try (injection H as <-; split; auto; discriminate).
             destruct (py_eq E n (bare x) (bare y)) as [b|ex|] eqn:Hb; cbn [bind] in H; try discriminate.
             destruct (Hx y n b (Hl x (or_introl eq_refl)) (Hm y (or_introl eq_refl)) Hb) as [G1 G2]. destruct b.
             - destruct (IH m r (fun z Hz => Hl z (or_intror Hz)) (fun z Hz => Hm z (or_intror Hz)) H) as [K1 K2]. rewrite (G1 eq_refl). cbn [andb]. split; auto.
               intros Hu. apply K2. intros a b Ha Hb'. apply Hu; right; auto.
             - injection H as <-. split; [discriminate|]. intros Hu. rewrite G2; [reflexivity|]. apply Hu; left; auto. }
           apply (Hg l m r) in H; auto; [|rewrite Forall_forall; auto]. destruct H as [K1 K2]. split; auto.
         - injection H as <-. split; [discriminate|]. intros _.
           destruct (list_items l m) eqn:Hi; auto. exfalso. apply He. clear - Hi. revert m Hi. induction l as [|x l IHl]; intros [|y m] Hi; cbn in Hi; try discriminate; auto.
           apply andb_true_iff in Hi as [_ Hi]. cbn [length]. rewrite !Nat2Z.inj_succ. f_equal. auto. }
    all: assert (r = false) as -> by (inversion Sy; subst; cbn [Identity.bare] in H; try (destruct v; try contradiction); cbn [py_eq] in H; congruence).
    all: split; [discriminate|reflexivity].
  - destruct n as [|n]; [discriminate|]. destruct y as [v|z|a|a|m|e].
    6: { unfold inside. cbn [same_object orb]. rewrite eq_dict. cbn [Identity.bare py_eq] in H. unfold zlen in H. rewrite !map_length in H.
         inversion Sx as [| | | | |d0 Hn Hd]; subst. inversion Sy as [| | | | |e0 Hn' He]; subst.
         destruct (Z.eqb_spec (Z.of_nat (length d)) (Z.of_nat (length e))) as [Hz|Hz]; cbn [negb] in H.
         - assert (Hlen : (length d =? length e)%nat = true) by (apply Nat.eqb_eq; lia). rewrite Hlen. cbn [andb]. clear Sx Sy Hz Hlen Hn.
           assert (Hu : forall k k' x y, unshared (TDict d) (TDict e) -> In (k, x) d -> In (k', y) e -> unshared x y).
           { intros k k' x y Hu Hx Hy o Ho Ho'. apply (Hu o); econstructor; eauto. }
           assert (Hg : (r = true -> dict_items e d = true) /\ ((forall k k' x y, In (k, x) d -> In (k', y) e -> unshared x y) -> dict_items e d = r)).
           { clear Hu. revert r H. induction IH as [|[k x] d Hx HF IH]; intros r H; cbn [map fst snd dict_eq_with dict_items] in *; [injection H as <-; auto|].
             rewrite bare_get in H. destruct (assoc e k) as [y|] eqn:Hy; cbn [option_map] in H; [|injection H as <-; split; auto; discriminate].
             apply assoc_In in Hy as Hin.
             destruct (py_eq E n (bare x) (bare y)) as [b|ex|] eqn:Hb; cbn [bind] in H; try discriminate.
             destruct (Hx y n b (Hd k x (or_introl eq_refl)) (He k y Hin) Hb) as [G1 G2]. destruct b.
             - destruct (IH (fun k z Hz => Hd k z (or_intror Hz)) r H) as [K1 K2]. rewrite (G1 eq_refl). cbn [andb]. split; auto.
               intros Hu. apply K2. intros k1 k2 a b Ha Hb'. apply (Hu k1 k2); auto. right. auto.
             - injection H as <-. split; [discriminate|]. intros Hu. rewrite G2; [reflexivity|]. apply (Hu k k); auto. left. auto. }
           destruct Hg as [K1 K2]. split; auto. intros Hs. apply K2. intros k k' x y Hx Hy. eapply Hu; eauto.
         - injection H as <-. split; [discriminate|]. intros _. assert (Hlen : (length d =? length e)%nat = false) by (apply Nat.eqb_neq; lia). rewrite Hlen. reflexivity. }
    all: assert (r = false) as -> by (inversion Sy; subst; cbn [Identity.bare] in H; try (destruct v; try contradiction); cbn [py_eq] in H; congruence).
    all: split; [discriminate|reflexivity].
Qed.

(** ** Copies *)
Lemma copies_alike : forall x y, sound x -> sound y -> (forall o, ~ odd x o) -> bare x = bare y -> alike x y.
Proof.
  assert (Hleaf : forall x y, sound x -> sound y -> without_parts x -> without_parts y -> (forall o, ~ odd x o) -> bare x = bare y -> alike x y).
  { intros x y Sx Sy Wx Wy Ho Hb. apply alike_leaf; auto. rewrite <- Hb. apply same_refl.
    destruct x as [v|z|a|a|l|d]; try contradiction; inversion Sx; subst.
    - apply cmp_atom. auto.
    - apply cmp_int.
    - apply cmp_float; auto. intros Hn. apply (Ho (TFloat a)). constructor. auto.
    - exfalso. apply (Ho (TGen a)). constructor. }
  assert (Hat : forall v, sound (TAtom v) -> (forall l, v <> VList l) /\ (forall d, v <> VDict d)).
  { intros v Hv. inversion Hv as [w Ha| | | | |]; subst. split; intros l ->; destruct Ha. }
  induction x as [x Wx|l IH|d IH] using thing_induct; intros y Sx Sy Ho Hb.
  - destruct (parts_dec y) as [Wy|[[m ->]|[e ->]]]; [auto| |]; exfalso; destruct x as [v|z|a|a|l|d]; try contradiction; try discriminate;
      destruct (Hat v Sx) as [H1 H2]; cbn [Identity.bare] in Hb; [eapply H1|eapply H2]; exact Hb.
  - destruct y as [v|z|a|a|m|e]; try discriminate.
    + exfalso. destruct (Hat v Sy) as [H1 _]. cbn [Identity.bare] in Hb. symmetry in Hb. exact (H1 _ Hb).
    + cbn [Identity.bare] in Hb. injection Hb as Hb. inversion Sx as [| | | |l0 Hl|]; subst. inversion Sy as [| | | |m0 Hm|]; subst.
      apply alike_list; [rewrite <- (map_length bare l), Hb, map_length; reflexivity|]. intros i x y Hx Hy.
      rewrite Forall_forall in IH. apply nth_error_In in Hx as Hix. apply nth_error_In in Hy as Hiy. apply IH; auto.
      * intros o Hox. apply (Ho o). eapply odd_list; eauto.
      * apply (map_nth_error bare) in Hx. apply (map_nth_error bare) in Hy. rewrite Hb in Hx. congruence.
  - destruct y as [v|z|a|a|m|e]; try discriminate.
    + exfalso. destruct (Hat v Sy) as [_ H2]. cbn [Identity.bare] in Hb. symmetry in Hb. exact (H2 _ Hb).
    + cbn [Identity.bare] in Hb. injection Hb as Hb. inversion Sx as [| | | | |d0 Hn Hd]; subst. inversion Sy as [| | | | |e0 Hn' He]; subst.
      assert (Hg : forall k, option_map bare (assoc d k) = option_map bare (assoc e k)) by (intros k; rewrite <- !bare_get, Hb; reflexivity).
      apply alike_dict.
      * intros k. specialize (Hg k). destruct (assoc d k), (assoc e k); cbn in Hg; split; congruence.
      * intros k x y Hx Hy. specialize (Hg k). rewrite Hx, Hy in Hg. injection Hg as Hg. rewrite Forall_forall in IH.
        apply assoc_In in Hx as Hix. apply assoc_In in Hy as Hiy. apply (IH (k, x) Hix); eauto.
        intros o Hox. apply (Ho o). eapply odd_dict; eauto.
Qed.

(** ** Structs *)
Lemma i_eq_refl d : sound (TDict d) -> i_eq (TDict d) (TDict d) = true.
Proof. intros H. apply dict_eq_alike; auto. apply alike_refl. auto. Qed.
Lemma i_eq_sym d e : sound (TDict d) -> sound (TDict e) -> i_eq (TDict d) (TDict e) = i_eq (TDict e) (TDict d).
Proof.
  intros Hd He. pose proof (dict_eq_alike d e Hd He) as H1. pose proof (dict_eq_alike e d He Hd) as H2.
  pose proof (alike_sym (TDict d) (TDict e)) as H3. pose proof (alike_sym (TDict e) (TDict d)) as H4.
  destruct (i_eq (TDict d) (TDict e)), (i_eq (TDict e) (TDict d)); auto; tauto || (symmetry; tauto).
Qed.
Lemma i_eq_trans d e f : sound (TDict d) -> sound (TDict e) -> sound (TDict f) ->
  i_eq (TDict d) (TDict e) = true -> i_eq (TDict e) (TDict f) = true -> i_eq (TDict d) (TDict f) = true.
Proof. intros Hd He Hf H1 H2. apply dict_eq_alike in H1, H2; auto. apply dict_eq_alike; auto. eapply alike_trans; eauto. Qed.
Lemma i_eq_copies d e : sound (TDict d) -> sound (TDict e) -> (forall o, ~ odd (TDict d) o) -> bare (TDict d) = bare (TDict e) ->
  i_eq (TDict d) (TDict e) = true.
Proof. intros Hd He Ho Hb. apply dict_eq_alike; auto. apply copies_alike; auto. Qed.

Lemma structs_against E n a b r ta tb : mapping E a -> mapping E b -> is_struct a \/ is_struct b -> py_eq E n a b = Ok r ->
  contents floats gens E a ta -> contents floats gens E b tb ->
  (r = true -> i_eq (TDict tb) (TDict ta) = true) /\ (unshared (TDict ta) (TDict tb) -> i_eq (TDict tb) (TDict ta) = r).
Proof.
  intros Ma Mb Hs H (Sa & na & da & Va & Ba) (Sb & nb & db & Vb & Bb). destruct n as [|n]; [discriminate|].
  destruct (eq_views E n a b r Ma Mb Hs H) as (da' & db' & Va' & Vb' & Heq).
  rewrite (view_det _ _ _ _ _ _ Va' Va), (view_det _ _ _ _ _ _ Vb' Vb), <- Ba, <- Bb in Heq.
  destruct Heq as [Heq|Heq].
  - rewrite i_eq_sym by auto. exact (against E _ _ _ _ Sa Sb Heq).
  - destruct (against E _ _ _ _ Sb Sa Heq) as [H1 H2]. split; auto. intros Hu. apply H2. intros o Ho Ho'. exact (Hu o Ho' Ho).
Qed.
End Proofs.
