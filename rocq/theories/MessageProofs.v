(** Proofs about the messages of exceptions (C91). *)
From Coq Require Import String List Sorted.
From Verif Require Import Tac SpecMessages FieldMore.
Open Scope list_scope.
Open Scope Z_scope.

(** ** Literals *)

Lemma hex_digit_value d : 0 <= d < 16 -> hex_value (hex_digit d) d.
Proof. intros H. unfold hex_digit, hex_value. destruct (Z.ltb_spec d 10); lia. Qed.

Lemma escape_denotes q ch t s : q = 34 \/ q = 39 -> 0 <= ch < 128 -> denotes q t s ->
  denotes q (escape q ch ++ t) (ch :: s).
Proof.
  intros Hq Hc H. unfold escape.
  destruct (Z.eqb_spec ch q) as [->|H1]; cbn [orb]; [apply dn_itself; auto; destruct Hq; auto|].
  destruct (Z.eqb_spec ch 92) as [->|H2]; cbn [app]; [apply dn_itself; auto|].
  destruct (Z.eqb_spec ch 9) as [->|H3]; [apply dn_tab; auto|].
  destruct (Z.eqb_spec ch 10) as [->|H4]; [apply dn_newline; auto|].
  destruct (Z.eqb_spec ch 13) as [->|H5]; [apply dn_return; auto|].
  destruct ((ch <? 32) || (ch =? 127)) eqn:E; cbn [app].
  - pose proof (dn_hex q _ _ _ _ t s (hex_digit_value (ch / 16) ltac:(dmlia)) (hex_digit_value (ch mod 16) ltac:(dmlia)) H) as Hd.
    replace (16 * (ch / 16) + ch mod 16) with ch in Hd by dmlia. exact Hd.
  - apply dn_plain; auto. lia.
Qed.

Lemma escapes_denote q s : q = 34 \/ q = 39 -> ascii_text s -> denotes q (flat_map (escape q) s) s.
Proof.
  intros Hq. induction 1 as [|ch s Hc Hs IH]; [constructor|]. cbn [flat_map]. apply escape_denotes; auto.
Qed.

Lemma repr_literal s : ascii_text s -> literal s (repr_str s).
Proof.
  intros H. assert (Hq : quote_for s = 34 \/ quote_for s = 39) by (unfold quote_for; destruct (_ && _); auto).
  apply literal_for; auto. apply escapes_denote; auto.
Qed.

Lemma hex_value_one a x y : hex_value a x -> hex_value a y -> x = y.
Proof. unfold hex_value. lia. Qed.

Lemma hex_value_char a x : hex_value a x -> 48 <= a <= 102 /\ 0 <= x < 16.
Proof. unfold hex_value. lia. Qed.

Lemma denotes_ends q t1 s1 : q = 34 \/ q = 39 -> denotes q t1 s1 -> forall t2 s2 r1 r2, denotes q t2 s2 ->
  t1 ++ q :: r1 = t2 ++ q :: r2 -> t1 = t2 /\ s1 = s2 /\ r1 = r2.
Proof.
  intros Hq. induction 1 as [|ch t s Hp Hc1 Hc2 H IH|ch t s Hc H IH|t s H IH|t s H IH|t s H IH|a b x y t s Ha Hb H IH];
    intros t2 s2 r1 r2 H2 He;
    destruct H2 as [|ch' t' s' Hp' Hc1' Hc2' H'|ch' t' s' Hc' H'|t' s' H'|t' s' H'|t' s' H'|a' b' x' y' t' s' Ha' Hb' H'];
    cbn [app] in He;
    repeat match goal with E : _ :: _ = _ :: _ |- _ => injection E; clear E; intros end; subst; try lia; auto.
  all: match goal with E : _ ++ _ = _ ++ _ |- _ => destruct (IH _ _ _ _ H' E) as (-> & -> & ->) end; auto.
  rewrite (hex_value_one _ _ _ Ha Ha'), (hex_value_one _ _ _ Hb Hb'); auto.
Qed.

Lemma literal_ends s1 s2 l1 l2 r1 r2 : literal s1 l1 -> literal s2 l2 -> l1 ++ r1 = l2 ++ r2 ->
  s1 = s2 /\ l1 = l2 /\ r1 = r2.
Proof.
  intros [q t Hq H] [q' t' Hq' H'] He. cbn [app] in He. rewrite <- !app_assoc in He. injection He as -> He.
  destruct (denotes_ends _ _ _ Hq' H _ _ _ _ H' He) as (-> & -> & ->). auto.
Qed.

Lemma denotes_printable q t s : denotes q t s -> printable t.
Proof.
  induction 1 as [|ch t s Hp Hc1 Hc2 H IH|ch t s Hc H IH|t s H IH|t s H IH|t s H IH|a b x y t s Ha Hb H IH];
    repeat (constructor; [lia|]); auto; try constructor; auto.
  - apply hex_value_char in Ha. lia.
  - apply hex_value_char in Hb. constructor; auto. lia.
Qed.

Lemma literal_printable s l : literal s l -> printable l.
Proof.
  intros [q t Hq H]. constructor; [lia|]. apply Forall_app. split; [eapply denotes_printable; eauto|].
  constructor; [lia|constructor].
Qed.

(** ** Numbers *)

Definition digit_first (t : text) : Prop := exists d t', t = 48 + d :: t' /\ 0 <= d < 10.

Lemma digits_end ds1 : forall ds2 r1 r2, Forall (fun d => 0 <= d < 10) ds1 -> Forall (fun d => 0 <= d < 10) ds2 ->
  ~ digit_first r1 -> ~ digit_first r2 ->
  map (fun d => 48 + d) ds1 ++ r1 = map (fun d => 48 + d) ds2 ++ r2 -> ds1 = ds2 /\ r1 = r2.
Proof.
  induction ds1 as [|d ds1 IH]; intros [|d2 ds2] r1 r2 H1 H2 Hr1 Hr2 He; cbn [map app] in He.
  - auto.
  - exfalso. apply Hr1. inversion H2; subst. eexists _, _; split; eauto.
  - exfalso. apply Hr2. inversion H1; subst. eexists _, _; split; eauto.
  - inversion H1; subst. inversion H2; subst.
    pose proof (f_equal (hd 0) He) as Hd. cbn [hd] in Hd. apply (f_equal (@tl Z)) in He. cbn [tl] in He.
    destruct (IH _ _ _ H4 H6 Hr1 Hr2 He) as (-> & ->). split; auto. f_equal. lia.
Qed.

Lemma decimal_ends z1 z2 t1 t2 r1 r2 : decimal z1 t1 -> decimal z2 t2 -> ~ digit_first r1 -> ~ digit_first r2 ->
  t1 ++ r1 = t2 ++ r2 -> z1 = z2 /\ t1 = t2 /\ r1 = r2.
Proof.
  intros [z ds Hz (Hf & Hv & Hne & _)|z ds Hz (Hf & Hv & Hne & _)] [z' ds' Hz' (Hf' & Hv' & Hne' & _)|z' ds' Hz' (Hf' & Hv' & Hne' & _)]
    Hr1 Hr2 He; cbn [app] in He.
  - destruct (digits_end _ _ _ _ Hf Hf' Hr1 Hr2 He) as (-> & ->). split; [congruence|auto].
  - destruct ds as [|d ds]; [contradiction|]. cbn [map app] in He. apply (f_equal (hd 0)) in He. cbn [hd] in He. inversion Hf; lia.
  - destruct ds' as [|d ds']; [contradiction|]. cbn [map app] in He. apply (f_equal (hd 0)) in He. cbn [hd] in He. inversion Hf'; lia.
  - injection He as He. destruct (digits_end _ _ _ _ Hf Hf' Hr1 Hr2 He) as (-> & ->). split; [lia|auto].
Qed.

Lemma int_text_ends z1 z2 r1 r2 : ~ digit_first r1 -> ~ digit_first r2 ->
  int_text z1 ++ r1 = int_text z2 ++ r2 -> z1 = z2 /\ r1 = r2.
Proof.
  intros H1 H2 He.
  destruct (decimal_ends _ _ _ _ _ _ (int_text_decimal z1) (int_text_decimal z2) H1 H2 He) as (? & _ & ?). auto.
Qed.

Ltac no_digit := let H := fresh in intros (? & ? & H & ?); vm_compute lit in H; cbn [app] in H; apply (f_equal (hd 0)) in H; cbn [hd] in H; lia.

(** ** Order *)

Lemma text_ltb_iff a : forall b, text_ltb a b = true <-> text_lt a b.
Proof.
  induction a as [|x a IH]; intros [|y b]; cbn [text_ltb].
  - split; [discriminate|inversion 1].
  - split; auto. constructor.
  - split; [discriminate|inversion 1].
  - rewrite orb_true_iff, andb_true_iff, IH, Z.ltb_lt, Z.eqb_eq. split.
    + intros [H|[-> H]]; [apply tl_head; auto|apply tl_tail; auto].
    + inversion 1; subst; auto.
Qed.

Lemma text_lt_trans a b c : text_lt a b -> text_lt b c -> text_lt a c.
Proof.
  intros H. revert c. induction H as [ch t|x y s t Hxy|x s t H IH]; intros c Hc; inversion Hc; subst.
  - constructor. - constructor. - apply tl_head. lia. - apply tl_head. lia.
  - apply tl_head. lia. - apply tl_tail. auto.
Qed.

Lemma text_lt_total a : forall b, ~ text_lt a b -> ~ text_lt b a -> a = b.
Proof.
  induction a as [|x a IH]; intros [|y b] H1 H2; auto.
  - destruct H1. constructor. - destruct H2. constructor.
  - destruct (Ztrichotomy x y) as [H|[H|H]].
    + destruct H1. apply tl_head. auto.
    + subst. f_equal. apply IH; intros H; [apply H1|apply H2]; apply tl_tail; auto.
    + destruct H2. apply tl_head. lia.
Qed.

Lemma text_lt_irrefl a : ~ text_lt a a.
Proof. induction a as [|x a IH]; inversion 1; subst; [lia|auto]. Qed.

Lemma insert_in t l x : In x (insert_text t l) <-> x = t \/ In x l.
Proof.
  induction l as [|u l IH]; cbn [insert_text].
  - cbn [In]. intuition.
  - destruct (text_ltb t u) eqn:E1; [cbn [In]; intuition|].
    destruct (text_ltb u t) eqn:E2; [cbn [In]; rewrite IH; intuition|].
    assert (t = u) as ->. { apply text_lt_total; rewrite <- text_ltb_iff; congruence. }
    cbn [In]. intuition.
Qed.

Lemma insert_sorted t l : StronglySorted text_lt l -> StronglySorted text_lt (insert_text t l).
Proof.
  induction 1 as [|u l Hs IH Hf]; cbn [insert_text]; [repeat constructor|].
  destruct (text_ltb t u) eqn:E1.
  - apply text_ltb_iff in E1. constructor; [constructor; auto|]. constructor; auto.
    eapply Forall_impl; [|exact Hf]. intros x. apply text_lt_trans. auto.
  - destruct (text_ltb u t) eqn:E2; [|constructor; auto]. apply text_ltb_iff in E2.
    constructor; auto. apply Forall_forall. intros x Hx. apply insert_in in Hx as [->|Hx]; auto.
    rewrite Forall_forall in Hf. auto.
Qed.

Lemma sorted_set_in l x : In x (sorted_set l) <-> In x l.
Proof.
  induction l as [|u l IH]; cbn [sorted_set fold_right]; [reflexivity|].
  rewrite insert_in. fold (sorted_set l). rewrite IH. cbn [In]. intuition.
Qed.

Lemma sorted_set_sorted l : StronglySorted text_lt (sorted_set l).
Proof. induction l as [|u l IH]; cbn [sorted_set fold_right]; [constructor|]. apply insert_sorted. auto. Qed.

Lemma sorted_same l1 : forall l2, StronglySorted text_lt l1 -> StronglySorted text_lt l2 ->
  (forall x, In x l1 <-> In x l2) -> l1 = l2.
Proof.
  induction l1 as [|x l1 IH]; intros [|y l2] H1 H2 Hi; auto.
  - destruct (proj2 (Hi y)); left; auto.
  - destruct (proj1 (Hi x)); left; auto.
  - inversion H1 as [|? ? Hs1 Hf1]; subst. inversion H2 as [|? ? Hs2 Hf2]; subst.
    rewrite Forall_forall in Hf1, Hf2.
    assert (x = y) as ->.
    { destruct (proj1 (Hi x) (or_introl eq_refl)) as [->|Hx]; auto.
      destruct (proj2 (Hi y) (or_introl eq_refl)) as [->|Hy]; auto.
      exfalso. eapply text_lt_irrefl. eapply text_lt_trans; [apply Hf1; exact Hy|apply Hf2; exact Hx]. }
    f_equal. apply IH; auto. intros z. split; intros Hz.
    + destruct (proj1 (Hi z) (or_intror Hz)) as [<-|H]; auto. exfalso. eapply text_lt_irrefl, Hf1; eauto.
    + destruct (proj2 (Hi z) (or_intror Hz)) as [<-|H]; auto. exfalso. eapply text_lt_irrefl, Hf2; eauto.
Qed.

(** ** Lists of names *)

Lemma join_separated x l : comma_separated (x :: l) (join (lit ", ") (x :: l)).
Proof.
  revert x. induction l as [|y l IH]; intros x; cbn [join]; [constructor|]. apply cs_more. apply IH.
Qed.

Lemma separated_ends l1 t1 : comma_separated l1 t1 -> forall n1 n2 l2, Forall2 literal n1 l1 -> Forall2 literal n2 l2 ->
  comma_separated l2 t1 -> n1 = n2.
Proof.
  induction 1 as [x|x l t H IH]; intros n1 n2 l2 H1 H2 Hc.
  - inversion H1 as [|a ? ? ? Ha Hn]; subst. inversion Hn; subst. inversion Hc as [|y l' t' Hc' E1 E2]; subst.
    + inversion H2 as [|b ? ? ? Hb Hn']; subst. inversion Hn'; subst.
      destruct (literal_ends _ _ _ _ [] [] Ha Hb eq_refl) as (-> & _). auto.
    + inversion H2 as [|b ? ? ? Hb Hn']; subst.
      destruct (literal_ends _ _ _ _ [] (lit ", " ++ t') Ha Hb) as (_ & _ & E); [apply app_nil_r|discriminate].
  - inversion H1 as [|a ? ? ? Ha Hn]; subst. inversion Hc as [y E1 E2|y l' t' Hc' E1 E2]; subst.
    + inversion H2 as [|b ? ? ? Hb Hn']; subst.
      destruct (literal_ends _ _ _ _ [] (lit ", " ++ t) Hb Ha) as (_ & _ & E); [apply app_nil_r|discriminate].
    + inversion H2 as [|b ? ? ? Hb Hn']; subst.
      destruct (literal_ends _ _ _ _ _ _ Hb Ha E2) as (-> & _ & E).
      injection E as ->. f_equal. eapply IH; eauto.
Qed.

(** ** The messages *)

(** What separates the pieces is fixed text. *)
Lemma eof_message_text size offset : exists t1 t2, decimal size t1 /\ decimal offset t2
  /\ eof_message size offset
     = lit "Unexpected EOF while trying to read " ++ t1 ++ lit " bytes at offset " ++ t2 ++ lit ".".
Proof. exists (int_text size), (int_text offset). repeat split; auto using int_text_decimal. Qed.

Lemma eof_message_inj size offset size' offset' : eof_message size offset = eof_message size' offset' ->
  size = size' /\ offset = offset'.
Proof.
  unfold eof_message. intros H. apply app_inv_head in H.
  apply int_text_ends in H as [-> H]; [|no_digit|no_digit]. apply app_inv_head in H.
  apply int_text_ends in H as [-> _]; [|no_digit|no_digit]. auto.
Qed.

Lemma array_message_text n g : exists t, decimal n t
  /\ (g = None -> array_message n g = lit "Expected " ++ t ++ lit " values.")
  /\ (forall z, g = Some z -> exists u, decimal z u
      /\ (z <= n -> array_message n g = lit "Expected " ++ t ++ lit " values, got " ++ u ++ lit ".")
      /\ (n < z -> array_message n g = lit "Expected " ++ t ++ lit " values, got at least " ++ u ++ lit ".")).
Proof.
  exists (int_text n). split; [apply int_text_decimal|]. split; [intros ->; reflexivity|].
  intros z ->. exists (int_text z). split; [apply int_text_decimal|]. unfold array_message.
  split; intros H; destruct (Z.ltb_spec n z); auto; lia.
Qed.

Lemma array_message_inj n g n' g' : array_message n g = array_message n' g' -> n = n' /\ g = g'.
Proof.
  intros H. unfold array_message in H.
  assert (Hs : forall z, decimal z (int_text z)) by apply int_text_decimal.
  assert (Ha : forall z r x, lit "at least " ++ x <> int_text z ++ r).
  { intros z r x E. destruct (Hs z) as [z ds Hz (Hf & _ & Hne & _)|z ds Hz _]; [|discriminate].
    destruct ds as [|d ds]; [contradiction|]. inversion Hf; subst. vm_compute lit in E. apply (f_equal (hd 0)) in E. cbn [hd map app] in E. lia. }
  destruct g as [z|], g' as [z'|].
  - destruct (Z.ltb_spec n z), (Z.ltb_spec n' z').
    + apply app_inv_head, int_text_ends in H as [-> H]; [|no_digit|no_digit].
      apply app_inv_head, int_text_ends in H as [-> _]; [|no_digit|no_digit]. auto.
    + apply app_inv_head, int_text_ends in H as [-> H]; [|no_digit|no_digit].
      change (lit " values, got at least ") with (lit " values, got " ++ lit "at least ") in H.
      rewrite <- app_assoc in H. apply app_inv_head in H. destruct (Ha _ _ _ H).
    + apply app_inv_head, int_text_ends in H as [-> H]; [|no_digit|no_digit].
      change (lit " values, got at least ") with (lit " values, got " ++ lit "at least ") in H.
      rewrite <- app_assoc in H. apply app_inv_head in H. symmetry in H. destruct (Ha _ _ _ H).
    + apply app_inv_head, int_text_ends in H as [-> H]; [|no_digit|no_digit].
      apply app_inv_head, int_text_ends in H as [-> _]; [|no_digit|no_digit]. auto.
  - exfalso. destruct (n <? z); apply app_inv_head, int_text_ends in H as [-> H]; try no_digit; discriminate.
  - exfalso. destruct (n' <? z'); apply app_inv_head, int_text_ends in H as [-> H]; try no_digit; discriminate.
  - apply app_inv_head, int_text_ends in H as [-> _]; [|no_digit|no_digit]. auto.
Qed.

Lemma reprs_literal l : Forall ascii_text l -> Forall2 literal l (map repr_str l).
Proof. induction 1; cbn [map]; constructor; auto using repr_literal. Qed.

Lemma unexpected_message_text cls names : names <> [] -> Forall ascii_text names ->
  exists shown k lits t, StronglySorted text_lt shown /\ (forall x, In x shown <-> In x names)
    /\ decimal (zlen shown) k /\ Forall2 literal shown lits /\ comma_separated lits t
    /\ unexpected_message cls names
       = k ++ lit " unrecognized field(s) given to " ++ cls ++ lit " for serialization: " ++ t.
Proof.
  intros Hne Ha. exists (sorted_set names), (int_text (zlen (sorted_set names))).
  exists (map repr_str (sorted_set names)). eexists.
  split; [apply sorted_set_sorted|]. split; [apply sorted_set_in|]. split; [apply int_text_decimal|].
  split. { apply reprs_literal. rewrite Forall_forall in *. intros x Hx. apply Ha. apply sorted_set_in. auto. }
  split; [|reflexivity].
  destruct (sorted_set names) as [|x l] eqn:E; [|apply join_separated].
  destruct names as [|y names]; [contradiction|]. exfalso.
  assert (H : In y (sorted_set (y :: names))) by (apply sorted_set_in; left; auto). rewrite E in H. destruct H.
Qed.

Definition no_space (t : text) : Prop := ~ In 32 t.

Lemma space_ends c1 : forall c2 r1 r2, no_space c1 -> no_space c2 -> c1 ++ 32 :: r1 = c2 ++ 32 :: r2 -> c1 = c2 /\ r1 = r2.
Proof.
  unfold no_space. induction c1 as [|x c1 IH]; intros [|y c2] r1 r2 H1 H2 He; cbn [app In] in *.
  - injection He as ->. auto.
  - injection He as <- He. tauto.
  - injection He as -> He. tauto.
  - injection He as -> He. destruct (IH c2 r1 r2) as [-> ->]; auto.
Qed.

Lemma unexpected_message_inj cls names cls' names' : names <> [] -> names' <> [] ->
  Forall ascii_text names -> Forall ascii_text names' -> no_space cls -> no_space cls' ->
  unexpected_message cls names = unexpected_message cls' names' ->
  cls = cls' /\ forall x, In x names <-> In x names'.
Proof.
  intros Hn Hn' Ha Ha' Hc Hc' He.
  destruct (unexpected_message_text cls names Hn Ha) as (sh & k & ls & t & Hs & Hi & Hk & Hl & Ht & E).
  destruct (unexpected_message_text cls' names' Hn' Ha') as (sh' & k' & ls' & t' & Hs' & Hi' & Hk' & Hl' & Ht' & E').
  rewrite E, E' in He. clear E E'.
  assert (Hd : forall r, ~ digit_first (lit " unrecognized field(s) given to " ++ r)) by (intros r; no_digit).
  destruct (decimal_ends _ _ _ _ _ _ Hk Hk' (Hd _) (Hd _) He) as (_ & _ & He1). clear He. rename He1 into He.
  apply app_inv_head in He.
  apply (space_ends cls cls' (tl (lit " for serialization: ") ++ t) (tl (lit " for serialization: ") ++ t') Hc Hc') in He as [-> He].
  apply app_inv_head in He. subst t'. split; auto. intros x. rewrite <- Hi, <- Hi'.
  rewrite (separated_ends _ _ Ht _ _ _ Hl Hl' Ht'). tauto.
Qed.

(** ** Fields *)

Definition no_paren (t : text) : Prop := ~ In 40 t.

Lemma paren_ends c1 : forall c2 r1 r2, no_paren c1 -> no_paren c2 -> c1 ++ 40 :: r1 = c2 ++ 40 :: r2 -> c1 = c2 /\ r1 = r2.
Proof.
  unfold no_paren. induction c1 as [|x c1 IH]; intros [|y c2] r1 r2 H1 H2 He; cbn [app In] in *.
  - injection He as ->. auto.
  - injection He as <- He. tauto.
  - injection He as -> He. tauto.
  - injection He as -> He. destruct (IH c2 r1 r2) as [-> ->]; auto.
Qed.

Definition name_ok (o : option text) : Prop := match o with Some s => ascii_text s | None => True end.

Lemma repr_opt_ends o1 o2 r1 r2 : name_ok o1 -> name_ok o2 -> repr_opt o1 ++ r1 = repr_opt o2 ++ r2 -> o1 = o2 /\ r1 = r2.
Proof.
  assert (Hn : forall s r r', lit "None" ++ r <> repr_str s ++ r').
  { intros s r r' E. apply (f_equal (hd 0)) in E. unfold repr_str, quote_for in E. vm_compute lit in E.
    cbn [app hd] in E. destruct (_ && _); discriminate. }
  destruct o1 as [s1|], o2 as [s2|]; cbn [name_ok repr_opt]; intros H1 H2 He.
  - destruct (literal_ends _ _ _ _ _ _ (repr_literal _ H1) (repr_literal _ H2) He) as (-> & _ & ->). auto.
  - symmetry in He. destruct (Hn _ _ _ He).
  - destruct (Hn _ _ _ He).
  - apply app_inv_head in He. auto.
Qed.

Lemma field_str_text f : name_ok (sf_name f) -> exists t,
  (forall s, sf_name f = Some s -> literal s t) /\ (sf_name f = None -> t = lit "None")
  /\ field_str f = sf_class f ++ lit "(name=" ++ t ++ lit ")"
  /\ field_repr f = lit "<" ++ sf_module f ++ lit "." ++ field_str f ++ lit ">".
Proof.
  intros H. exists (repr_opt (sf_name f)). split; [|split; [intros ->; auto|auto]].
  intros s E. rewrite E in *. apply repr_literal. auto.
Qed.

Lemma field_str_ends f g r1 r2 : no_paren (sf_class f) -> no_paren (sf_class g) -> name_ok (sf_name f) -> name_ok (sf_name g) ->
  field_str f ++ r1 = field_str g ++ r2 -> sf_class f = sf_class g /\ sf_name f = sf_name g /\ r1 = r2.
Proof.
  unfold field_str. intros Hf Hg Nf Ng He. rewrite <- !app_assoc in He.
  apply (paren_ends _ _ (tl (lit "(name=") ++ repr_opt (sf_name f) ++ lit ")" ++ r1)
                        (tl (lit "(name=") ++ repr_opt (sf_name g) ++ lit ")" ++ r2) Hf Hg) in He as [-> He].
  apply app_inv_head, repr_opt_ends in He as [-> He]; auto. apply app_inv_head in He. auto.
Qed.

Lemma field_str_inj f g : no_paren (sf_class f) -> no_paren (sf_class g) -> name_ok (sf_name f) -> name_ok (sf_name g) ->
  field_str f = field_str g -> sf_class f = sf_class g /\ sf_name f = sf_name g.
Proof.
  intros Hf Hg Nf Ng He. destruct (field_str_ends f g [] [] Hf Hg Nf Ng) as (? & ? & _); [congruence|auto].
Qed.

Lemma field_repr_inj f g : no_paren (sf_class f) -> no_paren (sf_class g) -> no_paren (sf_module f) -> no_paren (sf_module g) ->
  name_ok (sf_name f) -> name_ok (sf_name g) -> field_repr f = field_repr g ->
  sf_module f ++ lit "." ++ sf_class f = sf_module g ++ lit "." ++ sf_class g /\ sf_name f = sf_name g.
Proof.
  intros Hf Hg Mf Mg Nf Ng He. unfold field_repr in He. apply app_inv_head in He.
  set (f' := mkShown (sf_module f ++ lit "." ++ sf_class f) [] (sf_name f)).
  set (g' := mkShown (sf_module g ++ lit "." ++ sf_class g) [] (sf_name g)).
  assert (Hp : forall a b, no_paren a -> no_paren b -> no_paren (a ++ lit "." ++ b)).
  { unfold no_paren. intros a b Ha Hb Hin. apply in_app_iff in Hin as [Hin|Hin]; auto.
    apply in_app_iff in Hin as [Hin|Hin]; auto. destruct Hin as [Hin|[]]. discriminate. }
  destruct (field_str_ends f' g' (lit ">") (lit ">")) as (? & ? & _); cbn [f' g' sf_class sf_name]; auto.
  subst f' g'. unfold field_str in *. cbn [sf_class sf_name]. rewrite <- !app_assoc in *. exact He.
Qed.

Lemma reference_message_inj n1 n2 : ascii_text n1 -> ascii_text n2 ->
  reference_message None n1 = reference_message None n2 -> n1 = n2.
Proof.
  intros H1 H2 E. unfold reference_message in E. cbn [no_message] in E.
  apply (f_equal (fun o => match o with Some t => t | None => [] end)) in E. apply app_inv_head in E.
  destruct (literal_ends _ _ _ _ [] [] (repr_literal _ H1) (repr_literal _ H2)) as (-> & _); auto.
  rewrite !app_nil_r. exact E.
Qed.

(** ** Defaults *)

Lemma first_line_spec s : exists rest, s = first_line s ++ rest
  /\ Forall (fun ch => line_break ch = false) (first_line s)
  /\ (forall ch r, rest = ch :: r -> line_break ch = true).
Proof.
  induction s as [|ch s (rest & E & Hf & Hr)]; cbn [first_line].
  - exists []. repeat split; auto. discriminate.
  - destruct (line_break ch) eqn:Hb.
    + exists (ch :: s). repeat split; auto. intros ? ? [= <- _]. auto.
    + exists rest. cbn [app]. rewrite <- E. repeat split; auto.
Qed.

Lemma error_message_given m doc : error_message (Some m) doc = Some m.
Proof. reflexivity. Qed.

Lemma error_message_doc doc : doc <> [] -> exists line rest, error_message None (Some doc) = Some line
  /\ doc = line ++ rest /\ Forall (fun ch => line_break ch = false) line
  /\ (forall ch r, rest = ch :: r -> line_break ch = true).
Proof.
  intros H. destruct doc as [|ch d]; [contradiction|].
  destruct (first_line_spec (ch :: d)) as (rest & E & Hf & Hr).
  exists (first_line (ch :: d)), rest. auto.
Qed.

Lemma config_message_error m f s o : config_message m f s o = Raise EValueErr
  <-> truthy f = false /\ truthy s = false /\ truthy o = false.
Proof.
  unfold config_message. destruct (truthy f), (truthy s), (truthy o); cbn [negb orb];
    destruct (no_message m); split; try discriminate; try (intros (? & ? & ?); discriminate); auto.
Qed.

Lemma config_message_given t f s o : t <> [] -> truthy f || truthy s || truthy o = true ->
  config_message (Some t) f s o = Ok (Some t).
Proof.
  intros Ht H. unfold config_message. rewrite H. cbn [negb]. destruct t; [contradiction|]. reflexivity.
Qed.

Lemma config_message_generic m f s o : m = None \/ m = Some [] ->
  (truthy f = true -> truthy s = true ->
     config_message m f s o = Ok (Some (lit "Field " ++ arg_repr f ++ lit " in struct " ++ arg_repr s ++ lit " was misconfigured.")))
  /\ (truthy f = true -> truthy s = false ->
     config_message m f s o = Ok (Some (lit "The field " ++ arg_repr f ++ lit " was misconfigured.")))
  /\ (truthy f = false -> truthy s = true ->
     config_message m f s o = Ok (Some (lit "The struct " ++ arg_repr s ++ lit " was misconfigured.")))
  /\ (truthy f = false -> truthy s = false -> truthy o = true ->
     config_message m f s o = Ok (Some (lit "The object " ++ arg_repr o ++ lit " was misconfigured."))).
Proof.
  intros Hm. unfold config_message.
  assert (Hn : no_message m = true) by (destruct Hm as [->| ->]; auto). rewrite Hn.
  split; [|split; [|split]]; intros Hf Hs; [| | |intros Ho; rewrite Ho]; rewrite Hf, Hs; reflexivity.
Qed.

(** ** Where the library raises them *)

Lemma init_message E cid vals e cls : struct_init E cid vals = Raise e ->
  (forall nm, In nm (dkeys vals) -> ascii_text (lit nm)) ->
  exists names shown k lits t, e = EUnexpectedValue names
    /\ (forall x, In x shown <-> exists nm, x = lit nm /\ In nm (dkeys vals) /\ assoc (comps E cid) nm = None)
    /\ StronglySorted text_lt shown /\ decimal (zlen shown) k /\ Forall2 literal shown lits /\ comma_separated lits t
    /\ unexpected_message cls (map lit names)
       = k ++ lit " unrecognized field(s) given to " ++ cls ++ lit " for serialization: " ++ t.
Proof.
  unfold struct_init. intros H Ha.
  set (ex := filter _ _) in H.
  assert (Hex : forall nm, In nm ex <-> In nm (dkeys vals) /\ assoc (comps E cid) nm = None).
  { intros nm. unfold ex. rewrite filter_In. destruct (assoc (comps E cid) nm); intuition discriminate. }
  destruct ex as [|x0 ex0] eqn:Ee; [discriminate|]. injection H as <-. rewrite <- Ee in *.
  assert (Hne : map lit ex <> []) by (rewrite Ee; discriminate).
  assert (Hasc : Forall ascii_text (map lit ex)).
  { apply Forall_forall. intros t Ht. apply in_map_iff in Ht as (nm & <- & Hin). apply Ha, Hex. auto. }
  destruct (unexpected_message_text cls _ Hne Hasc) as (shown & k & lits & t & Hs & Hi & Hk & Hl & Ht & Hm).
  exists ex, shown, k, lits, t. split; auto. split; [|auto 6]. intros x. rewrite Hi, in_map_iff. split.
  - intros (nm & <- & Hin). exists nm. split; auto. apply Hex. auto.
  - intros (nm & -> & Hin). exists nm. split; auto. apply Hex. auto.
Qed.

Lemma field_extraneous E n f data ctx d s' v : field_from_stream E n f ctx d (mkStream data 0) = (s', Ok v) ->
  tell s' < zlen data ->
  field_from_bytes E n f data ctx true d = Raise (EExtraneous None)
  /\ exists t, decimal (zlen data - tell s') t
     /\ field_extraneous_message (zlen data - tell s') = lit "The input has " ++ t ++ lit " extra byte(s).".
Proof.
  intros H Hl. split.
  - unfold field_from_bytes. rewrite H. cbn [andb]. destruct (Z.ltb_spec 0 (zlen data - tell s')); auto. lia.
  - eexists. split; [apply int_text_decimal|reflexivity].
Qed.

Lemma struct_extraneous E n cid data ctx kw s' vals :
  struct_from_stream E n cid ctx kw (mkStream data 0) = (s', Ok vals) -> 2 <= zlen data - tell s' ->
  struct_from_bytes E n cid data ctx true kw = Raise (EExtraneous None)
  /\ exists t u, decimal (tell s' + 1) t /\ decimal (zlen data) u
     /\ struct_extraneous_message (tell s') (zlen data)
        = lit "Read " ++ t ++ lit " bytes, but there are " ++ u ++ lit " in the input data.".
Proof.
  intros H Hl. split; [apply (struct_from_bytes_leftover _ _ _ _ _ _ _ _ H); auto|].
  eexists _, _. split; [apply int_text_decimal|]. split; [apply int_text_decimal|reflexivity].
Qed.

Lemma struct_extraneous_wrong here len t r : decimal here t -> ~ digit_first r ->
  struct_extraneous_message here len <> lit "Read " ++ t ++ r.
Proof.
  intros Ht Hr E. unfold struct_extraneous_message in E. apply app_inv_head in E.
  assert (Hd : forall x, ~ digit_first (lit " bytes, but there are " ++ x)) by (intros x; no_digit).
  destruct (decimal_ends _ _ _ _ _ _ (int_text_decimal (here + 1)) Ht (Hd _) Hr E) as (Hz & _). lia.
Qed.

Lemma recursion_message_blind m q v v' : recursion_message m q v = recursion_message m q v'.
Proof. reflexivity. Qed.

Lemma multiple_inheritance_blind c c' : multiple_inheritance_message c = multiple_inheritance_message c'
  /\ multiple_inheritance_message c = Ok (Some (lit "The struct 'StructMetadata' was misconfigured.")).
Proof. split; reflexivity. Qed.
