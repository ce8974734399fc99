(** Class creation (C37, C38, C53). *)
From Coq Require Import Permutation.
From Verif Require Import Tac.
From Verif Require Export SpecDecl SizeProofs.

Ltac bind_ok H :=
  match type of H with
  | bind ?x _ = Ok _ => destruct x eqn:?; cbn [bind] in H; [|discriminate H|discriminate H]
  end.

Tactic Notation "bind_res" hyp(H) "as" ident(x) ident(Hx) :=
  match type of H with
  | bind ?y _ = Ok _ => destruct y as [x| |] eqn:Hx; cbn [bind] in H; [|discriminate H|discriminate H]
  end.

(** ---------------------------------------------------------------- binding *)
Lemma assign_name_ok existing name nm : maybe_assign_name existing (Some name) = Ok nm ->
  nm = Some name /\ (existing = None \/ existing = Some name).
Proof.
  unfold maybe_assign_name. destruct existing as [x|].
  - destruct (String.eqb_spec name x); [|discriminate]. intros [= <-]. subst. auto.
  - intros [= <-]. auto.
Qed.

Lemma bind_index defaults name i o d f : bind_to_container defaults name i o d = Ok f ->
  c_name (conf f) = Some name /\ c_index (conf f) = Some i /\ c_offset (conf f) = o.
Proof.
  unfold bind_to_container. destruct (d_field d) as [c k].
  intros H. bind_ok H. injection H as <-. apply assign_name_ok in Heqr as [-> _]. auto.
Qed.

Lemma bind_size defaults name i o d f : bind_to_container defaults name i o d = Ok f ->
  c_size (conf f) = c_size (conf (d_field d)).
Proof.
  unfold bind_to_container. destruct (d_field d) as [c k].
  intros H. bind_ok H. injection H as <-. reflexivity.
Qed.

Lemma bind_order defaults name i o d f sg e0 : bind_to_container defaults name i o d = Ok f ->
  kind (d_field d) = KInt sg e0 ->
  exists e, kind f = KInt sg e /\ byte_order defaults (d_class d) (d_endian_given d) e0 e.
Proof.
  unfold bind_to_container. destruct (d_field d) as [c k].
  intros H Hk. bind_ok H. injection H as <-. cbn [kind] in *. subst k.
  destruct (d_endian_given d) eqn:Hg; [eexists; split; [reflexivity|constructor; auto]|].
  unfold endian_default. destruct (assoc defaults _) eqn:H1.
  - eexists; split; [reflexivity|]. eapply order_class; eauto.
  - destruct (assoc defaults "endian") eqn:H2; eexists; (split; [reflexivity|]).
    + eapply order_generic; eauto.
    + eapply order_constructor; eauto.
Qed.

Lemma bind_other defaults name i o d f : bind_to_container defaults name i o d = Ok f ->
  (forall sg e, kind (d_field d) <> KInt sg e) -> kind f = kind (d_field d).
Proof.
  unfold bind_to_container. destruct (d_field d) as [c k].
  intros H Hk. bind_ok H. injection H as <-. cbn [kind] in *. destruct k; auto. destruct (Hk signed e). auto.
Qed.

Lemma bind_kept defaults name i o d f : bind_to_container defaults name i o d = Ok f ->
  attributes_kept (d_field d) f.
Proof.
  intros H. pose proof H as H0. unfold bind_to_container in H. unfold attributes_kept.
  destruct (d_field d) as [[] k] eqn:Hd. bind_ok H.
  injection H as <-. cbn. split; [repeat split; auto|].
  destruct k; auto. destruct (d_endian_given d); auto. destruct (endian_default _ _); auto.
Qed.

Lemma bind_bound defaults name i o d f : bind_to_container defaults name i o d = Ok f ->
  bound_as defaults (name, d) (name, f).
Proof.
  intros H. split; [auto|]. split; [apply (bind_index _ _ _ _ _ _ H)|]. split; [eapply bind_kept; eauto|].
  cbn [snd]. intros sg e0 sg' e H1 H2. destruct (bind_order _ _ _ _ _ _ _ _ H H1) as (e' & H3 & H4). congruence.
Qed.

Lemma bind_mismatch defaults name i o d other : c_name (conf (d_field d)) = Some other -> other <> name ->
  bind_to_container defaults name i o d = Raise (EConfig (Some other)).
Proof.
  intros H Hne. unfold bind_to_container. destruct (d_field d) as [c k]. cbn [conf] in H. rewrite H.
  unfold maybe_assign_name. destruct (String.eqb_spec name other); [congruence|]. reflexivity.
Qed.

Lemma bind_total defaults name i o d :
  c_name (conf (d_field d)) = None \/ c_name (conf (d_field d)) = Some name ->
  exists f, bind_to_container defaults name i o d = Ok f.
Proof.
  unfold bind_to_container. destruct (d_field d) as [c k]. cbn [conf].
  intros [-> | ->]; cbn [maybe_assign_name bind]; [eauto|]. rewrite String.eqb_refl. cbn [bind]. eauto.
Qed.

(** ---------------------------------------------------------------- offsets *)
Lemma fixed_app fs gs zs ys : fixed_sizes fs zs -> fixed_sizes gs ys -> fixed_sizes (fs ++ gs) (zs ++ ys).
Proof. apply Forall2_app. Qed.

Lemma sum_app l m : sum (l ++ m) = sum l + sum m.
Proof. unfold sum. rewrite fold_right_app. induction l; cbn [fold_right app]; lia. Qed.

Lemma offset_nil start : offset_rule start [] start.
Proof.
  destruct start as [z|].
  - left. exists z, []. repeat split; [constructor|]. cbn. f_equal. lia.
  - right. auto.
Qed.

Lemma fixed_snoc fs name f zs : fixed_sizes (fs ++ [(name, f)]) zs ->
  exists ys z, zs = ys ++ [z] /\ fixed_sizes fs ys /\ c_size (conf f) = SInt z.
Proof.
  intros H. apply Forall2_app_inv_l in H as (ys & l & H1 & H2 & ->).
  inversion H2 as [|? z ? ? Hz H3]; subst. inversion H3; subst. exists ys, z. auto.
Qed.

Lemma offset_snoc start pre o name f : offset_rule start pre o ->
  offset_rule start (pre ++ [(name, f)]) (next_offset o f).
Proof.
  intros [(s & zs & -> & Hz & ->)|[Hn ->]].
  - unfold next_offset. destruct (c_size (conf f)) as [|z|nm] eqn:Hs.
    + right. split; auto. right. intros (ys & Hy). apply fixed_snoc in Hy as (? & ? & _ & _ & ?). congruence.
    + left. exists s, (zs ++ [z]). split; auto. split; [apply fixed_app; auto; repeat constructor; auto|].
      rewrite sum_app. cbn. f_equal. lia.
    + right. split; auto. right. intros (ys & Hy). apply fixed_snoc in Hy as (? & ? & _ & _ & ?). congruence.
  - right. split; [|reflexivity]. destruct Hn as [-> |Hn]; auto.
    right. intros (ys & Hy). apply fixed_snoc in Hy as (ys' & ? & _ & ? & ?). eauto.
Qed.

(** ---------------------------------------------------------------- collecting *)
(** What one pass adds: [own] fields, numbered from [i], placed from [start]. *)
Definition added (defaults : list (string * endian)) (i : Z) (start : option Z)
    (ds : list (string * decl)) (own : list (string * field)) : Prop :=
  Forall2 (bound_as defaults) ds own
  /\ (forall pre name f post, own = pre ++ (name, f) :: post ->
        c_name (conf f) = Some name /\ c_index (conf f) = Some (i + zlen pre)
        /\ offset_rule start pre (c_offset (conf f))).

Lemma offset_cons start name f pre o : offset_rule (next_offset start f) pre o ->
  offset_rule start ((name, f) :: pre) o.
Proof.
  unfold next_offset. intros [(s & zs & Hs & Hz & ->)|[Hn ->]].
  - destruct start as [a|]; [|discriminate]. destruct (c_size (conf f)) eqn:Hf; try discriminate.
    injection Hs as <-. left. exists a, (n :: zs). split; auto. split; [constructor; auto|].
    cbn. f_equal. unfold sum. lia.
  - right. split; auto. destruct start as [a|]; auto. right. intros (zs & Hz). inversion Hz as [|? ? ? ? H1 H2]; subst.
    cbn [snd] in H1. rewrite H1 in Hn. destruct Hn as [Hn|Hn]; [discriminate|]. apply Hn. eauto.
Qed.

Lemma added_cons defaults i start name d ds f own :
  bind_to_container defaults name i start d = Ok f ->
  added defaults (i + 1) (next_offset start f) ds own ->
  added defaults i start ((name, d) :: ds) ((name, f) :: own).
Proof.
  intros Hb (H1 & H2). split; [constructor; auto; eapply bind_bound; eauto|].
  intros pre nm g post Heq. destruct pre as [|p pre].
  - injection Heq as <- <- <-. destruct (bind_index _ _ _ _ _ _ Hb) as (Ha & Hc & Hd).
    split; auto. split; [rewrite Hc; f_equal; cbn; lia|]. rewrite Hd. apply offset_nil.
  - injection Heq as <- Heq. destruct (H2 _ _ _ _ Heq) as (Ha & Hc & Hd). split; auto. split.
    + rewrite Hc. f_equal. unfold zlen. cbn [length]. lia.
    + apply offset_cons. auto.
Qed.

Lemma added_nil defaults i start : added defaults i start [] [].
Proof. split; [constructor|]. intros pre name f post H. destruct pre; discriminate. Qed.

Lemma assoc_app {A} (l m : list (string * A)) name : assoc (l ++ m) name =
  match assoc l name with Some x => Some x | None => assoc m name end.
Proof. induction l as [|[k v] l IH]; auto. cbn [assoc app]. destruct (String.eqb k name); auto. Qed.

Lemma assoc_none_iff {A} (l : list (string * A)) name : assoc l name = None <-> ~ In name (map fst l).
Proof.
  induction l as [|[k v] l IH]; cbn [assoc map In fst]; [tauto|].
  destruct (String.eqb_spec k name); subst; [|tauto]. split; [discriminate|]. tauto.
Qed.

Lemma collect_ok defaults ns : forall comps i start found cs m,
  collect_assigned_fields defaults ns comps i start found = Ok (cs, m) ->
  exists own, cs = comps ++ own /\ m = found + zlen own /\ added defaults i start (body_fields ns) own
    /\ (NoDup (map fst comps) -> NoDup (map fst cs)).
Proof.
  induction ns as [|[name it] ns IH]; intros comps i start found cs m H.
  - injection H as <- <-. exists []. rewrite app_nil_r. split; auto. split; [cbn; lia|].
    split; [apply added_nil|auto].
  - destruct it; cbn [collect_assigned_fields body_fields] in *; try (apply IH in H; exact H).
    destruct (assoc comps name) eqn:Ha; [discriminate|]. bind_res H as f Hf.
    apply IH in H as (own & -> & -> & Hadd & Hnd). exists ((name, f) :: own). rewrite <- app_assoc.
    split; auto. split; [unfold zlen; cbn [length]; lia|].
    split; [eapply added_cons; eauto|].
    intros Hn. rewrite <- app_assoc in Hnd. apply Hnd. rewrite map_app. cbn [map fst].
    apply assoc_none_iff in Ha.
    apply Permutation_NoDup with (l := name :: map fst comps); [|constructor; auto].
    apply Permutation_cons_append.
Qed.

(** Which error the collection ends with, when the names fit. *)
Lemma collect_redefined defaults ns : forall comps i start found pre name d post,
  body_fields ns = pre ++ (name, d) :: post -> names_fit (body_fields ns) ->
  NoDup (map fst (body_fields ns)) -> In name (map fst comps) ->
  (forall x, In x (map fst pre) -> ~ In x (map fst comps)) ->
  collect_assigned_fields defaults ns comps i start found = Raise (EFieldRedefined name).
Proof.
  induction ns as [|[nm it] ns IH]; intros comps i start found pre name d post Hb Hf Hnd Hin Hpre.
  - destruct pre; discriminate.
  - destruct it; cbn [collect_assigned_fields body_fields] in *; try (eapply IH; eauto; fail).
    destruct pre as [|p pre].
    + injection Hb as -> _ _. destruct (assoc comps name) eqn:Ha; auto.
      apply assoc_none_iff in Ha. contradiction.
    + injection Hb as <- Hb. cbn [map fst In] in *.
      destruct (assoc comps nm) as [g|] eqn:Ha.
      { exfalso. apply (Hpre nm); auto. apply assoc_in in Ha. apply in_map_iff. exists (nm, g). auto. }
      destruct (bind_total defaults nm i start d0) as [f Hfb]; [apply Hf; left; auto|].
      rewrite Hfb. cbn [bind]. inversion Hnd as [|? ? Hni Hnd']; subst.
      apply (IH _ _ _ _ pre name d post); auto.
      * intros x y Hxy. apply Hf. right. auto.
      * rewrite map_app. apply in_or_app. auto.
      * intros x Hx. rewrite map_app, in_app_iff. cbn. intros [H|[<-|[]]]; [eapply Hpre; eauto|].
        apply Hni. rewrite Hb, map_app. apply in_or_app. auto.
Qed.

(** ---------------------------------------------------------------- the validator table *)
Lemma set_fvals_assoc t name l x : assoc (set_fvals t name l) x = if String.eqb name x then Some l else assoc t x.
Proof.
  induction t as [|[k v] t IH]; cbn [set_fvals assoc]; auto.
  destruct (String.eqb_spec k name) as [->|Hk]; cbn [assoc].
  - destruct (String.eqb name x); auto.
  - destruct (String.eqb_spec k x) as [->|]; auto. destruct (String.eqb_spec name x); congruence.
Qed.

Lemma own_fvals_assoc ns : forall t name, assoc (own_fvals ns t) name =
  if existsb (String.eqb name) (map fst (body_fields ns)) then Some [] else assoc t name.
Proof.
  induction ns as [|[nm it] ns IH]; intros t name; auto.
  destruct it; cbn [own_fvals body_fields map existsb fst]; auto.
  rewrite IH, set_fvals_assoc. destruct (existsb _ _); [rewrite orb_true_r; auto|]. rewrite orb_false_r.
  rewrite String.eqb_sym. auto.
Qed.

Lemma attach_ok names q : forall t t', attach names q t = Ok t' ->
  (forall x, assoc t' x = option_map (fun l => l ++ repeat q (count_occ string_dec names x)) (assoc t x))
  /\ incl names (map fst t).
Proof.
  induction names as [|nm names IH]; intros t t' H; cbn [attach] in H.
  - injection H as <-. split; [|intros x []]. intros x. cbn. destruct (assoc t x); cbn; auto. rewrite app_nil_r. auto.
  - destruct (assoc t nm) as [l|] eqn:Ha; [|discriminate]. apply IH in H as (H1 & H2). split.
    + intros x. rewrite H1, set_fvals_assoc. cbn [count_occ].
      destruct (String.eqb_spec nm x) as [->|Hne]; destruct (string_dec _ x) as [He|He]; try congruence; auto.
      rewrite Ha. cbn [option_map repeat]. rewrite <- app_assoc. auto.
    + intros x [<-|Hx].
      * apply assoc_in in Ha. apply in_map_iff. exists (nm, l). auto.
      * apply H2 in Hx. destruct (assoc t x) as [y|] eqn:Hy.
        { apply assoc_in in Hy. apply in_map_iff. exists (x, y). auto. }
        apply assoc_none_iff in Hy. exfalso.
        assert (Hz : assoc (set_fvals t nm (l ++ [q])) x = None).
        { rewrite set_fvals_assoc. destruct (String.eqb_spec nm x) as [->|]; [exfalso; apply Hy; apply assoc_in in Ha; apply in_map_iff; exists (x, l); auto|]. apply assoc_none_iff. auto. }
        apply assoc_none_iff in Hz. auto.
Qed.

Lemma attach_fails names q : forall t e, attach names q t = Raise e ->
  exists x, e = EKeyErr x /\ In x names /\ ~ In x (map fst t).
Proof.
  induction names as [|nm names IH]; intros t e H; cbn [attach] in H; [discriminate|].
  destruct (assoc t nm) as [l|] eqn:Ha.
  - apply IH in H as (x & -> & Hx & Hn). exists x. split; auto. split; [right; auto|].
    intros Hin. apply Hn. destruct (assoc (set_fvals t nm (l ++ [q])) x) eqn:Hz.
    { apply assoc_in in Hz. apply in_map_iff. eexists. split; [|exact Hz]. auto. }
    rewrite set_fvals_assoc in Hz. destruct (String.eqb nm x); [discriminate|]. apply assoc_none_iff in Hz. contradiction.
  - injection H as <-. exists nm. split; auto. split; [left; auto|]. apply assoc_none_iff. auto.
Qed.

Lemma attach_oof names q : forall t, attach names q t <> OOF.
Proof. induction names; intros t; cbn [attach]; [discriminate|]. destruct (assoc t a); [auto|discriminate]. Qed.

Lemma option_map_app {A} (o : option (list A)) l m :
  option_map (fun x => x ++ m) (option_map (fun x => x ++ l) o) = option_map (fun x => x ++ (l ++ m)) o.
Proof. destruct o; cbn; auto. rewrite app_assoc. auto. Qed.

Lemma option_map_nil {A} (o : option (list A)) : option_map (fun x => x ++ []) o = o.
Proof. destruct o; cbn; auto. rewrite app_nil_r. auto. Qed.

Lemma bind_validators_ok ns : forall t sv t' sv', bind_validators ns t sv = Ok (t', sv') ->
  (forall x, assoc t' x = option_map (fun l => l ++ methods_for ns x) (assoc t x))
  /\ sv' = sv ++ struct_methods ns.
Proof.
  induction ns as [|[nm it] ns IH]; intros t sv t' sv' H.
  - injection H as <- <-. cbn. rewrite app_nil_r. split; auto. intros x. rewrite option_map_nil. auto.
  - destruct it; cbn [bind_validators methods_for struct_methods] in *; auto.
    + bind_ok H. apply attach_ok in Heqr as (H1 & _). apply IH in H as (H2 & ->). split; auto.
      intros x. rewrite H2, H1. apply option_map_app.
    + apply IH in H as (H2 & ->). rewrite <- app_assoc. auto.
Qed.

Lemma bind_validators_fails ns : forall t sv e, bind_validators ns t sv = Raise e ->
  exists x meth names q, e = EKeyErr x /\ In (meth, IValidates names q) ns /\ In x names /\ ~ In x (map fst t).
Proof.
  induction ns as [|[nm it] ns IH]; intros t sv e H; [discriminate|].
  destruct it; cbn [bind_validators] in *;
    try (apply IH in H as (x & meth & ns' & q' & -> & H1 & H2 & H3); exists x, meth, ns', q'; cbn; auto; fail).
  destruct (attach names q t) as [t'|e'|] eqn:Ha; cbn [bind] in H; [| |exfalso; eapply attach_oof; eauto].
  - apply attach_ok in Ha as (Ha & _). apply IH in H as (x & meth & ns' & q' & -> & H1 & H2 & H3).
    exists x, meth, ns', q'. cbn. split; auto. split; auto. split; auto.
    apply assoc_none_iff. apply assoc_none_iff in H3. rewrite Ha in H3. destruct (assoc t x); auto. discriminate.
  - injection H as <-. apply attach_fails in Ha as (x & -> & H1 & H2). exists x, nm, names, q. cbn. auto.
Qed.

Lemma bind_validators_unknown ns : forall t sv meth names q x, In (meth, IValidates names q) ns -> In x names ->
  ~ In x (map fst t) -> exists y, bind_validators ns t sv = Raise (EKeyErr y).
Proof.
  intros t sv meth names q x Hin Hx Hn.
  destruct (bind_validators ns t sv) as [[t' sv']|e|] eqn:H.
  - exfalso. revert t sv H Hn. induction ns as [|[nm it] ns IH]; intros t sv H Hn; [destruct Hin|].
    destruct Hin as [Heq|Hin].
    + injection Heq as -> ->. cbn [bind_validators] in H. bind_ok H. apply attach_ok in Heqr as (_ & Hi). auto.
    + destruct it; cbn [bind_validators] in H; eauto. bind_ok H. eapply (IH Hin); eauto.
      apply attach_ok in Heqr as (Ha & _). apply assoc_none_iff. rewrite Ha. apply assoc_none_iff in Hn. rewrite Hn. auto.
  - apply bind_validators_fails in H as (y & _ & _ & _ & -> & _). eauto.
  - exfalso. revert t sv H Hn. clear. induction ns as [|[nm it] ns IH]; intros t sv H Hn; [discriminate|].
    destruct it; cbn [bind_validators] in H; eauto.
    destruct (attach names q t) as [t'|e'|] eqn:Ha; cbn [bind] in H; [|discriminate|exfalso; eapply attach_oof; eauto].
    eapply IH; eauto. apply attach_ok in Ha as (Ha & _). apply assoc_none_iff. rewrite Ha. apply assoc_none_iff in Hn. rewrite Hn. auto.
Qed.

(** ---------------------------------------------------------------- create_class *)
Lemma set_names_ok ns : set_names ns = Ok tt <-> names_fit (body_fields ns).
Proof.
  induction ns as [|[nm it] ns IH]; [split; [intros _ ? ? []|auto]|].
  destruct it; cbn [set_names body_fields]; auto. unfold name_of. split.
  - intros H. bind_ok H. apply assign_name_ok in Heqr as [_ Hn]. intros x y [[= <- <-]|Hi]; [tauto|].
    apply IH; auto.
  - intros H. destruct (H nm d (or_introl eq_refl)) as [Hx|Hx]; rewrite Hx; cbn [maybe_assign_name bind].
    + apply IH. intros x y Hi. apply H. right. auto.
    + rewrite String.eqb_refl. cbn [bind]. apply IH. intros x y Hi. apply H. right. auto.
Qed.

Lemma set_names_mismatch ns : ~ names_fit (body_fields ns) -> exists nm, set_names ns = Raise (EConfig (Some nm)).
Proof.
  induction ns as [|[nm it] ns IH]; intros H; [destruct H; intros ? ? []|].
  destruct it; cbn [set_names body_fields] in *; auto.
  unfold name_of, maybe_assign_name. destruct (c_name (conf (d_field d))) as [x|] eqn:Hn.
  - destruct (String.eqb_spec nm x); [subst|cbn [bind]; eauto]. cbn [bind]. apply IH. intros Hf. apply H.
    intros y e [[= <- <-]|Hi]; auto.
  - cbn [bind]. apply IH. intros Hf. apply H. intros y e [[= <- <-]|Hi]; auto.
Qed.

Section Create.
Variable E : env.

(** What the class starts from. *)
Lemma create_inv n name bases meta ns k : create_class E n name bases meta ns = Ok k ->
  names_fit (body_fields ns)
  /\ exists start own,
     (bases = [] /\ start = Some 0 \/ exists b, bases = [b] /\ get_size E n b = Ok start)
     /\ k_name k = name
     /\ k_defaults k = match meta with Some m => m | None => k_defaults (base_class E bases) end
     /\ k_comps k = k_comps (base_class E bases) ++ own
     /\ k_own k = zlen own
     /\ added (k_defaults k) (zlen (k_comps (base_class E bases))) start (body_fields ns) own
     /\ (NoDup (map fst (k_comps (base_class E bases))) -> NoDup (map fst (k_comps k)))
     /\ (forall x, assoc (k_fvals k) x =
           if existsb (String.eqb x) (map fst (body_fields ns)) then Some (methods_for ns x)
           else option_map (fun l => l ++ methods_for ns x) (assoc (k_fvals (base_class E bases)) x))
     /\ k_svals k = k_svals (base_class E bases) ++ struct_methods ns.
Proof.
  intros H. unfold create_class in H. bind_res H as u Hu. destruct u. apply set_names_ok in Hu. split; auto.
  assert (Hstart : exists start, (bases = [] /\ start = Some 0 \/ exists b, bases = [b] /\ get_size E n b = Ok start)
     /\ match bases with
        | [] => Ok (empty_class, Some 0)
        | [b] => do off <- get_size E n b; Ok (cls E b, off)
        | _ => Raise EMultipleInheritance
        end = Ok (base_class E bases, start)).
  { destruct bases as [|b [|b' bases]].
    - exists (Some 0). auto.
    - destruct (get_size E n b) as [o| |] eqn:Hg; cbn [bind] in H; try discriminate. exists o. split; eauto.
    - discriminate. }
  destruct Hstart as (start & Hs & Heq). rewrite Heq in H. cbn [bind] in H.
  bind_res H as p Hcs. destruct p as [cs m]. bind_res H as p Hvs. destruct p as [fv sv]. injection H as <-.
  cbn [fst snd k_name k_comps k_fvals k_svals k_own k_defaults].
  apply collect_ok in Hcs as (own & -> & -> & Hadd & Hnd).
  apply bind_validators_ok in Hvs as (Hfv & ->).
  exists start, own. split; auto. split; auto. split; auto. split; auto. split; [lia|]. split; auto. split; auto. split; auto.
  intros x. rewrite Hfv, own_fvals_assoc. destruct (existsb _ _); auto.
Qed.

Lemma create_bases n name b b' bases meta ns : names_fit (body_fields ns) ->
  create_class E n name (b :: b' :: bases) meta ns = Raise EMultipleInheritance.
Proof. intros H. unfold create_class. apply set_names_ok in H. rewrite H. reflexivity. Qed.

Lemma create_mismatch n name bases meta ns : ~ names_fit (body_fields ns) ->
  exists nm, create_class E n name bases meta ns = Raise (EConfig (Some nm)).
Proof.
  intros H. unfold create_class. apply set_names_mismatch in H as [nm ->]. cbn [bind]. eauto.
Qed.

Lemma create_redefined n name b meta ns off pre x d post : names_fit (body_fields ns) ->
  NoDup (map fst ns) -> get_size E n b = Ok off ->
  body_fields ns = pre ++ (x, d) :: post -> In x (map fst (k_comps (cls E b))) ->
  (forall y, In y (map fst pre) -> ~ In y (map fst (k_comps (cls E b)))) ->
  create_class E n name [b] meta ns = Raise (EFieldRedefined x).
Proof.
  intros Hf Hnd Hs Hb Hin Hpre. unfold create_class. pose proof (proj2 (set_names_ok ns) Hf) as Hn. rewrite Hn.
  cbn [bind]. rewrite Hs. cbn [bind]. erewrite collect_redefined; eauto; [reflexivity|].
  assert (Hsub : forall m : namespace, NoDup (map fst m) -> NoDup (map fst (body_fields m)) /\ incl (map fst (body_fields m)) (map fst m)).
  { clear. induction m as [|[nm it] m IH]; cbn [map body_fields]; intros Hm; [split; [auto|intros ? []]|].
    inversion Hm as [|? ? Hni Hm']; subst. destruct (IH Hm') as [IH1 IH2].
    destruct it; try solve [split; [auto|intros z Hz; right; apply IH2; auto]].
    cbn [map fst]. split; [constructor; auto|]. intros z [<-|Hz]; [left; auto|right; auto]. }
  apply Hsub; auto.
Qed.

Lemma create_unknown_validator n name bases meta ns cs off meth names q x : names_fit (body_fields ns) ->
  (bases = [] /\ off = Some 0 \/ exists b, bases = [b] /\ get_size E n b = Ok off) ->
  collect_assigned_fields (match meta with Some m => m | None => k_defaults (base_class E bases) end) ns
     (k_comps (base_class E bases)) (zlen (k_comps (base_class E bases))) off 0 = Ok cs ->
  In (meth, IValidates names q) ns -> In x names -> ~ In x (map fst (body_fields ns)) ->
  ~ In x (map fst (k_fvals (base_class E bases))) ->
  exists y, create_class E n name bases meta ns = Raise (EKeyErr y).
Proof.
  intros Hf Hoff Hcs Hin Hx Hn1 Hn2. unfold create_class. pose proof (proj2 (set_names_ok ns) Hf) as Hs. rewrite Hs.
  cbn [bind].
  destruct (bind_validators_unknown ns (own_fvals ns (k_fvals (base_class E bases))) (k_svals (base_class E bases)) meth names q x Hin Hx) as [y Hy].
  { apply assoc_none_iff. rewrite own_fvals_assoc.
    replace (existsb (String.eqb x) (map fst (body_fields ns))) with false.
    - apply assoc_none_iff. auto.
    - symmetry. apply not_true_iff_false. rewrite existsb_exists. intros (z & Hz & He). apply String.eqb_eq in He as ->. auto. }
  exists y. destruct Hoff as [[-> ->]|(b & -> & Hb)]; cbn [base_class] in *.
  - cbn [bind]. rewrite Hcs. cbn [bind]. rewrite Hy. reflexivity.
  - rewrite Hb. cbn [bind]. rewrite Hcs. cbn [bind]. rewrite Hy. reflexivity.
Qed.

End Create.
