(** Annotations as written and decorators for validators (C92). *)
From Coq Require Import String List.
From Verif Require Import Tac Annotations SpecDecl PepProofs.
Open Scope string_scope.
Open Scope list_scope.
Open Scope Z_scope.

(** ** What the annotations and decorators should mean *)

(** The pieces of an annotation that are looked at. *)
Inductive piece : hint -> hint -> Prop :=
| piece_meta inner meta h : In h meta -> piece (HAnnotated inner meta) h
| piece_whole h : (forall inner meta, h <> HAnnotated inner meta) -> piece h h.

(** Everything in the union but one part is None. *)
Inductive apart_from_none : list hint -> hint -> bool -> Prop :=
| only h : h <> HNone -> apart_from_none [h] h false
| with_none l1 h l2 : h <> HNone -> Forall (eq HNone) (l1 ++ l2) -> l1 ++ l2 <> [] -> apart_from_none (l1 ++ h :: l2) h true.

(** The piece stands for [core], which may be None if [nullable]. *)
Inductive stands_for : hint -> hint -> bool -> Prop :=
| stands_itself h : (forall args, h <> HUnion args) -> stands_for h h false
| stands_union args h b : apart_from_none args h b -> stands_for (HUnion args) h b.

(** [@validates] with these arguments names these fields. *)
Definition spelled (args : list name_arg) (names : list string) : Prop := args = map NName names /\ names <> [].

(** The decorator next to the function; the others have usable arguments. *)
Inductive innermost : decorated -> method -> list string -> Prop :=
| in_validates args names m : spelled args names -> innermost (Validates args (Def m)) m names
| in_struct m : innermost (ValidatesStruct (Def m)) m []
| in_outer_validates args names d m l : spelled args names -> innermost d m l -> innermost (Validates args d) m l
| in_outer_struct d m l : innermost d m l -> innermost (ValidatesStruct d) m l.

(** Some [@validates] has no argument, or one that is no string. *)
Inductive misused : decorated -> Prop :=
| misused_here args d : args = [] \/ (exists a, In a args /\ forall s, a <> NName s) -> misused (Validates args d)
| misused_below args d : misused d -> misused (Validates args d)
| misused_below_struct d : misused d -> misused (ValidatesStruct d).

(** ** Proofs *)

Lemma none_dec h : {h = HNone} + {h <> HNone}.
Proof. destruct h; auto; right; discriminate. Qed.

Lemma filter_nones l : Forall (eq HNone) l -> filter (fun a => negb (hint_none a)) l = [].
Proof. induction 1 as [|x l <- H IH]; auto. Qed.

Lemma nones_exist l : Forall (eq HNone) l -> l <> [] -> existsb hint_none l = true.
Proof. intros [|x l' <- H] Hne; [contradiction|reflexivity]. Qed.

Lemma filter_nones_inv l : filter (fun a => negb (hint_none a)) l = [] -> Forall (eq HNone) l.
Proof.
  induction l as [|x l IH]; cbn [filter]; [constructor|]. destruct (none_dec x) as [->|Hn].
  - intros H. constructor; auto.
  - destruct x; cbn [hint_none negb]; try discriminate; contradiction.
Qed.

Lemma filter_one args h : filter (fun a => negb (hint_none a)) args = [h] <-> exists b, apart_from_none args h b /\ existsb hint_none args = b.
Proof.
  split.
  - intros H. assert (exists l1 l2, args = l1 ++ h :: l2 /\ Forall (eq HNone) (l1 ++ l2) /\ h <> HNone) as (l1 & l2 & -> & Hf & Hn).
    { induction args as [|x args IH]; cbn [filter] in H; [discriminate|]. destruct (none_dec x) as [->|Hn].
      - destruct (IH H) as (l1 & l2 & -> & Hf & Hn). exists (HNone :: l1), l2. repeat split; auto. constructor; auto.
      - assert (hint_none x = false) as E by (destruct x; auto; contradiction). rewrite E in H. cbn [negb] in H.
        injection H as -> H. apply filter_nones_inv in H. exists [], args. auto. }
    destruct (l1 ++ l2) as [|y l] eqn:El.
    + apply app_eq_nil in El as [-> ->]. exists false. split; [constructor; auto|].
      destruct h; auto; contradiction.
    + exists true. split; [constructor; auto; [rewrite El; auto|rewrite El; discriminate]|].
      rewrite existsb_app. cbn [existsb].
      assert (Hx : existsb hint_none (l1 ++ l2) = true) by (apply nones_exist; [rewrite El; auto|rewrite El; discriminate]).
      rewrite existsb_app in Hx. apply orb_true_iff in Hx as [->| ->]; rewrite ?orb_true_r; auto.
  - intros (b & [h' Hn|l1 h' l2 Hn Hf Hne] & _).
    + destruct h'; auto; contradiction.
    + apply Forall_app in Hf as [Hf1 Hf2]. rewrite filter_app, (filter_nones _ Hf1). cbn [filter app].
      rewrite (filter_nones _ Hf2). destruct h'; auto; contradiction.
Qed.

Lemma apart_flag args h b : apart_from_none args h b -> existsb hint_none args = b.
Proof.
  intros [h' Hn|l1 h' l2 Hn Hf Hne].
  - destruct h'; auto; contradiction.
  - pose proof (nones_exist _ Hf Hne) as Hx. rewrite existsb_app in *. cbn [existsb].
    apply orb_true_iff in Hx as [->| ->]; rewrite ?orb_true_r; auto.
Qed.

Lemma flatten_piece h p : In p (flatten_annotations h) <-> piece h p.
Proof.
  destruct h; cbn [flatten_annotations];
    try (split; [intros [<-|[]]; constructor; discriminate|intros H; inversion H; subst; left; auto]).
  split; [constructor; auto|]. intros H. inversion H as [|? Hn]; subst; auto. destruct (Hn _ _ eq_refl).
Qed.

Lemma from_stands p core b : stands_for p core b -> from_annotation p = annot_of core b.
Proof.
  intros [h Hn|args h b' H]; [destruct h; auto; destruct (Hn _ eq_refl)|].
  cbn [from_annotation]. rewrite (proj2 (filter_one args h)) by (exists b'; split; [eauto|eapply apart_flag; eauto]).
  rewrite (apart_flag _ _ _ H). auto.
Qed.

Lemma from_cases p : (exists core b, stands_for p core b /\ from_annotation p = annot_of core b)
  \/ (exists args, p = HUnion args /\ from_annotation p = AUnion /\ forall h b, ~ apart_from_none args h b).
Proof.
  destruct p as [fc|cid|d| |args|args|inner meta|];
    try (left; eexists _, false; split; [apply stands_itself; discriminate|reflexivity]).
  cbn [from_annotation]. destruct (filter _ args) as [|h [|h2 l]] eqn:Hf.
  - right. exists args. split; auto. split; auto. intros h b H.
    assert (filter (fun a => negb (hint_none a)) args = [h]) by (apply filter_one; exists b; split; [eauto|eapply apart_flag; eauto]). congruence.
  - left. apply filter_one in Hf as (b & H & <-). exists h, (existsb hint_none args). split; auto. constructor; auto.
  - right. exists args. split; auto. split; auto. intros h' b H.
    assert (filter (fun a => negb (hint_none a)) args = [h']) by (apply filter_one; exists b; split; [eauto|eapply apart_flag; eauto]). congruence.
Qed.

(** Field classes, struct classes and field instances are recognised ... *)
Lemma annots_field h fc b : In (AFieldClass fc b) (annots_of h) <-> exists p, piece h p /\ stands_for p (HField fc) b.
Proof.
  unfold annots_of. rewrite in_map_iff. split.
  - intros (p & E & Hp). apply flatten_piece in Hp. exists p. split; auto.
    destruct (from_cases p) as [(core & b' & Hs & Ef)|(args & -> & Ef & _)]; [|congruence].
    rewrite Ef in E. destruct core; try discriminate. injection E as -> ->. auto.
  - intros (p & Hp & Hs). exists p. split; [apply (from_stands _ _ _ Hs)|apply flatten_piece; auto].
Qed.

Lemma annots_struct h cid : In (AStructClass cid) (annots_of h) <-> exists p b, piece h p /\ stands_for p (HStruct cid) b.
Proof.
  unfold annots_of. rewrite in_map_iff. split.
  - intros (p & E & Hp). apply flatten_piece in Hp. exists p.
    destruct (from_cases p) as [(core & b' & Hs & Ef)|(args & -> & Ef & _)]; [|congruence].
    exists b'. split; auto. rewrite Ef in E. destruct core; try discriminate. injection E as ->. auto.
  - intros (p & b & Hp & Hs). exists p. split; [apply (from_stands _ _ _ Hs)|apply flatten_piece; auto].
Qed.

Lemma annots_instance h d : In (AInstance d) (annots_of h) <-> exists p b, piece h p /\ stands_for p (HInstance d) b.
Proof.
  unfold annots_of. rewrite in_map_iff. split.
  - intros (p & E & Hp). apply flatten_piece in Hp. exists p.
    destruct (from_cases p) as [(core & b' & Hs & Ef)|(args & -> & Ef & _)]; [|congruence].
    exists b'. split; auto. rewrite Ef in E. destruct core; try discriminate. injection E as ->. auto.
  - intros (p & b & Hp & Hs). exists p. split; [apply (from_stands _ _ _ Hs)|apply flatten_piece; auto].
Qed.

(** ... unions of anything else than one type and None are rejected, ... *)
Lemma annots_union h : In AUnion (annots_of h) <-> exists args, piece h (HUnion args) /\ forall c b, ~ apart_from_none args c b.
Proof.
  unfold annots_of. rewrite in_map_iff. split.
  - intros (p & E & Hp). apply flatten_piece in Hp.
    destruct (from_cases p) as [(core & b' & Hs & Ef)|(args & -> & Ef & H)]; [|eauto].
    rewrite Ef in E. destruct core; discriminate.
  - intros (args & Hp & H). exists (HUnion args). split; [|apply flatten_piece; auto].
    destruct (from_cases (HUnion args)) as [(core & b' & Hs & Ef)|(args' & _ & Ef & _)]; auto.
    inversion Hs as [? Hn|? ? ? Ha]; subst; [destruct (Hn _ eq_refl)|destruct (H _ _ Ha)].
Qed.

(** ... and the rest stands for no field. *)
Lemma annots_other h : Forall (eq AOther) (annots_of h) <->
  forall p, piece h p -> exists core b, stands_for p core b
    /\ (forall fc, core <> HField fc) /\ (forall cid, core <> HStruct cid) /\ (forall d, core <> HInstance d).
Proof.
  unfold annots_of. rewrite Forall_forall. split.
  - intros H p Hp. apply flatten_piece in Hp.
    pose proof (H _ (in_map from_annotation _ _ Hp)) as E.
    destruct (from_cases p) as [(core & b' & Hs & Ef)|(args & -> & Ef & _)]; [|congruence].
    exists core, b'. split; auto. rewrite Ef in E. destruct core; try discriminate; repeat split; discriminate.
  - intros H a Ha. apply in_map_iff in Ha as (p & <- & Hp). apply flatten_piece in Hp.
    destruct (H p Hp) as (core & b & Hs & H1 & H2 & H3). rewrite (from_stands _ _ _ Hs).
    destruct core; auto; [destruct (H1 _ eq_refl)|destruct (H2 _ eq_refl)|destruct (H3 _ eq_refl)].
Qed.

(** ** Decorators *)

Lemma validates_args_ok args names : validates_args args = Ok names <-> spelled args names.
Proof.
  assert (Hall : forall l names, forallb (fun a => match a with NName _ => true | _ => false end) l = true ->
            flat_map (fun a => match a with NName s => [s] | _ => [] end) l = names -> l = map NName names).
  { induction l as [|[s| |] l IH]; cbn [forallb flat_map]; intros ns H <-; auto; try discriminate.
    cbn [app map]. f_equal. auto. }
  assert (Hmap : forall l, forallb (fun a => match a with NName _ => true | _ => false end) (map NName l) = true
            /\ flat_map (fun a => match a with NName s => [s] | _ => [] end) (map NName l) = l).
  { induction l as [|s l [IH1 IH2]]; auto. cbn [map forallb flat_map app]. rewrite IH2. auto. }
  unfold spelled. split.
  - destruct args as [|a args]; [discriminate|]. unfold validates_args. intros H.
    assert (E : forallb (fun a => match a with NName _ => true | _ => false end) (a :: args) = true
              /\ flat_map (fun a => match a with NName s => [s] | _ => [] end) (a :: args) = names).
    { destruct a; [|destruct args; discriminate|discriminate].
      destruct (forallb _ _) eqn:Ef; [|discriminate]. injection H as H. auto. }
    destruct E as [E1 E2]. pose proof (Hall _ _ E1 E2) as El. split; auto.
    intros ->. discriminate.
  - intros (-> & Hne). destruct names as [|s names]; [contradiction|]. unfold validates_args. cbn [map].
    destruct (Hmap (s :: names)) as [E1 E2]. cbn [map] in E1, E2. rewrite E1, E2. auto.
Qed.

Lemma validates_args_bad args : validates_args args = Raise ETypeErr
  <-> args = [] \/ exists a, In a args /\ forall s, a <> NName s.
Proof.
  split.
  - destruct args as [|a args]; auto. intros H. right.
    destruct (forallb (fun a => match a with NName _ => true | _ => false end) (a :: args)) eqn:Ef.
    + exfalso. destruct a; try discriminate. unfold validates_args in H. rewrite Ef in H. discriminate.
    + destruct (existsb (fun a => match a with NName _ => false | _ => true end) (a :: args)) eqn:Ee.
      * apply existsb_exists in Ee as (x & Hx & E). exists x. split; auto. intros s ->. discriminate.
      * exfalso. assert (forallb (fun a => match a with NName _ => true | _ => false end) (a :: args) = true); [|congruence].
        apply forallb_forall. intros x Hx. destruct x; auto;
          (assert (existsb (fun a => match a with NName _ => false | _ => true end) (a :: args) = true); [|congruence];
           apply existsb_exists; eexists; split; [exact Hx|auto]).
  - intros H. destruct (validates_args args) as [names|e|] eqn:E.
    + apply validates_args_ok in E as (-> & Hne). destruct H as [H|(a & Ha & Hn)].
      * destruct names; [contradiction|discriminate].
      * apply in_map_iff in Ha as (s & <- & _). destruct (Hn s eq_refl).
    + unfold validates_args in E. destruct args as [|[]]; [congruence| |destruct args|]; try congruence;
        destruct (forallb _ _); congruence.
    + unfold validates_args in E. destruct args as [|[]]; [congruence| |destruct args|]; try congruence;
        destruct (forallb _ _); congruence.
Qed.

Lemma validates_args_cases args : (exists names, spelled args names /\ validates_args args = Ok names)
  \/ ((args = [] \/ exists a, In a args /\ forall s, a <> NName s) /\ validates_args args = Raise ETypeErr).
Proof.
  destruct (validates_args args) as [names|e|] eqn:E.
  - left. exists names. split; auto. apply validates_args_ok. auto.
  - right. assert (e = ETypeErr) as ->.
    { unfold validates_args in E. destruct args as [|[]]; [congruence| |destruct args|]; try congruence; destruct (forallb _ _); congruence. }
    split; auto. apply validates_args_bad. auto.
  - exfalso. unfold validates_args in E. destruct args as [|[]]; [congruence| |destruct args|]; try congruence; destruct (forallb _ _); congruence.
Qed.

Lemma decorators_cases d : (misused d /\ apply_decorators d = Raise ETypeErr)
  \/ (exists m, d = Def m /\ apply_decorators d = Ok (Plain m))
  \/ (exists m l, innermost d m l /\ apply_decorators d = Ok (Wrapper m l)).
Proof.
  induction d as [m|args d IH|d IH]; cbn [apply_decorators].
  - right. left. eauto.
  - destruct (validates_args_cases args) as [(names & Hs & ->)|(Hb & ->)]; cbn [bind].
    + destruct IH as [(Hm & ->)|[(m & -> & ->)|(m & l & Hi & ->)]].
      * left. split; [apply misused_below; auto|reflexivity].
      * right. right. exists m, names. split; [constructor; auto|reflexivity].
      * right. right. exists m, l. split; [econstructor; eauto|reflexivity].
    + left. split; [constructor; auto|reflexivity].
  - destruct IH as [(Hm & ->)|[(m & -> & ->)|(m & l & Hi & ->)]].
    + left. split; [apply misused_below_struct; auto|reflexivity].
    + right. right. exists m, []. split; [constructor|reflexivity].
    + right. right. exists m, l. split; [constructor; auto|reflexivity].
Qed.

Lemma innermost_fine d m l : innermost d m l -> ~ misused d.
Proof.
  assert (Hs : forall args names, spelled args names -> ~ (args = [] \/ exists a, In a args /\ forall s, a <> NName s)).
  { intros args names (-> & Hne) [H|(a & Ha & Hn)].
    - destruct names; [contradiction|discriminate].
    - apply in_map_iff in Ha as (s & <- & _). destruct (Hn s eq_refl). }
  induction 1 as [args names m H|m|args names d m l H Hi IH|d m l Hi IH]; intros Hm; inversion Hm; subst; eauto;
    try (eapply Hs; eauto; fail); match goal with H : misused (Def _) |- _ => inversion H end.
Qed.

Lemma innermost_one d m l : innermost d m l -> forall m' l', innermost d m' l' -> m' = m /\ l' = l.
Proof.
  induction 1 as [args names m H|m|args names d m l H Hi IH|d m l Hi IH]; intros m' l' H'; inversion H'; subst; auto;
    try match goal with Hd : innermost (Def _) _ _ |- _ => inversion Hd end.
  split; auto. destruct H as (-> & _). match goal with Hs : spelled _ _ |- _ => destruct Hs as (E & _) end.
  assert (Hj : forall x y, map NName x = map NName y -> x = y).
  { induction x as [|a x IHx]; intros [|b y] Ex; try discriminate; auto. injection Ex as -> Ex. f_equal. auto. }
  symmetry. apply Hj. auto.
Qed.

Lemma decorators_innermost d m l : apply_decorators d = Ok (Wrapper m l) <-> innermost d m l.
Proof.
  split.
  - intros H. destruct (decorators_cases d) as [(_ & E)|[(m' & -> & E)|(m' & l' & Hi & E)]]; congruence.
  - intros Hi. destruct (decorators_cases d) as [(Hm & _)|[(m' & -> & E)|(m' & l' & Hi' & E)]].
    + destruct (innermost_fine _ _ _ Hi Hm). + inversion Hi.
    + destruct (innermost_one _ _ _ Hi _ _ Hi') as [-> ->]. auto.
Qed.

Lemma decorators_misused d : apply_decorators d = Raise ETypeErr <-> misused d.
Proof.
  split.
  - intros H. destruct (decorators_cases d) as [(Hm & _)|[(m' & -> & E)|(m' & l' & Hi & E)]]; congruence.
  - intros Hm. destruct (decorators_cases d) as [(_ & E)|[(m' & -> & E)|(m' & l' & Hi & E)]]; auto.
    + inversion Hm. + destruct (innermost_fine _ _ _ Hi Hm).
Qed.

(** A decorator on top of another one changes nothing. *)
Lemma outer_nothing d f : apply_decorators d = Ok f -> (forall m, d <> Def m) ->
  apply_decorators (ValidatesStruct d) = Ok f
  /\ forall args names, spelled args names -> apply_decorators (Validates args d) = Ok f.
Proof.
  intros H Hd. destruct (decorators_cases d) as [(_ & E)|[(m & -> & _)|(m & l & Hi & E)]]; [congruence|destruct (Hd m eq_refl)|].
  rewrite E in H. injection H as <-. split.
  - apply decorators_innermost. constructor. auto.
  - intros args names Hs. apply decorators_innermost. econstructor; eauto.
Qed.

(** ** In the class *)

Lemma methods_for_app ns1 ns2 x : methods_for (ns1 ++ ns2) x = methods_for ns1 x ++ methods_for ns2 x.
Proof.
  induction ns1 as [|[y i] ns1 IH]; auto. cbn [app methods_for]. rewrite IH. destruct i; auto. apply app_assoc.
Qed.

Lemma struct_methods_app ns1 ns2 : struct_methods (ns1 ++ ns2) = struct_methods ns1 ++ struct_methods ns2.
Proof.
  induction ns1 as [|[y i] ns1 IH]; auto. cbn [app struct_methods]. rewrite IH. destruct i; auto.
Qed.

Lemma body_methods d m l pre name o post : innermost d m l ->
  exists f, apply_decorators d = Ok f
  /\ (forall x, methods_for (pre ++ (name, item_of f o) :: post) x
        = methods_for pre x ++ repeat (m_field m) (count_occ string_dec l x) ++ methods_for post x)
  /\ struct_methods (pre ++ (name, item_of f o) :: post)
     = struct_methods pre ++ (match l with [] => [m_struct m] | _ => [] end) ++ struct_methods post.
Proof.
  intros H. exists (Wrapper m l). split; [apply decorators_innermost; auto|]. split.
  - intros x. rewrite methods_for_app. f_equal. destruct l; auto.
  - rewrite struct_methods_app. f_equal. destruct l; auto.
Qed.

Lemma silently_ignored native E n k attr pre name post fc :
  dataclass native E n k (pre ++ (name, annots_of (HPipe [HField fc; HNone])) :: post) attr
  = dataclass native E n k (pre ++ post) attr
  /\ dataclass native E n k (pre ++ (name, annots_of (HUnion [HAnnotated HOther [HField fc]; HNone])) :: post) attr
  = dataclass native E n k (pre ++ post) attr
  /\ annots_of (HAnnotated (HUnion [HOther; HNone]) [HField fc]) = annots_of (HField fc).
Proof.
  split; [|split]; [apply dataclass_ignored; repeat constructor|apply dataclass_ignored; repeat constructor|reflexivity].
Qed.
