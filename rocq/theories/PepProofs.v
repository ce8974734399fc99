(** Classes declared by annotations (C48, C54). *)
From Verif Require Import Tac.
From Verif Require Export DeclMore.

Section Pep.
Variable native : endian.
Variable E : env.

Lemma no_unions_ok name anns : no_unions name anns = Ok tt <-> ~ In AUnion anns.
Proof.
  unfold no_unions. destruct (existsb _ anns) eqn:H.
  - apply existsb_exists in H as (a & Hi & Ha). destruct a; try discriminate. split; [discriminate|contradiction].
  - split; auto. intros _ Hi. apply not_true_iff_false in H. apply H. apply existsb_exists. exists AUnion. auto.
Qed.

(** The loop over annotations is the loop over the corresponding assignments. *)
Lemma collect_annotated_eq n defaults attr hs ds : annotated native E n attr hs ds ->
  forall comps i o found,
  collect_annotated_fields native E n defaults attr hs comps i o found
  = collect_assigned_fields defaults (assigned ds) comps i o found.
Proof.
  intros H. induction H as [|name anns hs ds Hu Hm _ IH|name anns hs d ds Hu Hm _ IH]; intros comps i o found; auto;
    cbn [collect_annotated_fields]; apply (no_unions_ok name) in Hu; rewrite Hu; cbn [bind]; rewrite Hm; cbn [bind]; auto.
  cbn [assigned map fst snd collect_assigned_fields].
  destruct (assoc comps name); auto. destruct (bind_to_container defaults name i o d); cbn [bind]; auto.
Qed.

Lemma collect_annotated_ok n defaults attr hs : forall comps i o found cs m,
  collect_annotated_fields native E n defaults attr hs comps i o found = Ok (cs, m) ->
  exists ds, annotated native E n attr hs ds.
Proof.
  induction hs as [|[name anns] hs IH]; intros comps i o found cs m H; [exists []; constructor|].
  cbn [collect_annotated_fields] in H. bind_res H as u Hu. destruct u. apply no_unions_ok in Hu. bind_res H as ds Hds.
  destruct ds as [|d [|]].
  - apply IH in H as [ds Hd]. exists ds. apply annotated_skip; auto.
  - destruct (assoc comps name); [discriminate|]. bind_res H as f Hf. apply IH in H as [ds Hd].
    exists ((name, d) :: ds). apply annotated_field; auto.
  - discriminate.
Qed.

Lemma body_assigned ds : body_fields (assigned ds) = ds.
Proof. induction ds as [|[nm d] ds IH]; auto. cbn [assigned map fst snd body_fields]. f_equal. auto. Qed.

Lemma collect_assigned_total defaults ds : forall comps i o found, names_fit ds ->
  NoDup (map fst ds) -> (forall x, In x (map fst ds) -> ~ In x (map fst comps)) ->
  exists cs, collect_assigned_fields defaults (assigned ds) comps i o found = Ok (cs, found + zlen ds).
Proof.
  induction ds as [|[nm d] ds IH]; intros comps i o found Hf Hnd Hd.
  - exists comps. cbn. f_equal. f_equal. unfold zlen. cbn. lia.
  - cbn [assigned map fst snd collect_assigned_fields] in *. inversion Hnd as [|? ? Hni Hnd']; subst.
    replace (assoc comps nm) with (@None field) by (symmetry; apply assoc_none_iff; apply Hd; left; auto).
    destruct (bind_total defaults nm i o d) as [f Hb]; [apply Hf; left; auto|]. rewrite Hb. cbn [bind].
    destruct (IH (comps ++ [(nm, f)]) (i + 1) (next_offset o f) (found + 1)) as [cs Hcs]; auto.
    + intros x y Hi. apply Hf. right. auto.
    + intros x Hx. rewrite map_app, in_app_iff. cbn. intros [Hc|[<-|[]]]; [eapply Hd; eauto; right; auto|contradiction].
    + exists cs. unfold assigned in Hcs. rewrite Hcs. f_equal. f_equal. unfold zlen. cbn [length]. lia.
Qed.

Lemma methods_assigned ds : bind_validators (assigned ds) = fun t sv => Ok (t, sv).
Proof. induction ds as [|[nm d] ds IH]; auto. Qed.

Lemma dataclass_same n name meta ns k hs attr ds :
  create_class E n name [] meta ns = Ok k -> body_fields ns = [] ->
  annotated native E n attr hs ds -> ds <> [] -> names_fit ds -> NoDup (map fst ds) ->
  exists k1 k2, create_class E n name [] meta (assigned ds) = Ok k1
    /\ dataclass native E n k hs attr = Ok k2
    /\ k_comps k2 = k_comps k1 /\ k_own k2 = k_own k1 /\ k_defaults k2 = k_defaults k1 /\ k_name k2 = k_name k1.
Proof.
  intros Hk Hb Ha Hne Hf Hnd.
  pose proof Hk as Hk'. apply create_inv in Hk' as (_ & start & own & Hs & Hn & Hdf & Hc & Ho & (Hadd & _) & _).
  rewrite Hb in Hadd. inversion Hadd; subst own. rewrite app_nil_r in Hc. cbn [base_class k_comps empty_class] in *.
  destruct (collect_assigned_total (k_defaults k) ds [] 0 (Some 0) 0 Hf Hnd) as [cs Hcs]; [intros x _ []|].
  assert (Hlen : 0 < zlen ds) by (destruct ds; [contradiction|unfold zlen; cbn [length]; lia]).
  eexists. exists (mkClass name cs (k_fvals k) (k_svals k) (zlen ds) (k_defaults k)). split; [|split].
  - unfold create_class. rewrite (proj2 (set_names_ok _)) by (rewrite body_assigned; auto). cbn [bind].
    cbn [k_comps empty_class] in *. change (zlen (@nil (string * field))) with 0.
    rewrite <- Hdf. rewrite Hcs. cbn [bind]. rewrite methods_assigned. cbn [bind]. reflexivity.
  - unfold dataclass. rewrite Ho. change (zlen (@nil (string * field))) with 0. cbn [Z.ltb Z.compare].
    rewrite (collect_annotated_eq _ _ _ _ _ Ha), Hc, Hcs. cbn [bind fst snd].
    replace (0 + zlen ds =? 0) with false by lia. rewrite Hn. auto.
  - cbn. auto.
Qed.

Lemma dataclass_inv n k hs attr k' : dataclass native E n k hs attr = Ok k' ->
  k_own k <= 0 /\ exists ds own, annotated native E n attr hs ds /\ k_comps k' = k_comps k ++ own
    /\ own <> [] /\ added (k_defaults k) 0 (Some 0) ds own
    /\ k_name k' = k_name k /\ k_fvals k' = k_fvals k /\ k_svals k' = k_svals k /\ k_own k' = zlen own
    /\ k_defaults k' = k_defaults k
    /\ (NoDup (map fst (k_comps k)) -> NoDup (map fst (k_comps k'))).
Proof.
  unfold dataclass. intros H. destruct (0 <? k_own k) eqn:Ho; [discriminate|]. split; [lia|].
  bind_res H as cs Hcs. destruct cs as [cs m]. cbn [fst snd] in H. destruct (m =? 0) eqn:Hm; [discriminate|]. injection H as <-.
  destruct (collect_annotated_ok _ _ _ _ _ _ _ _ _ _ Hcs) as [ds Hds]. rewrite (collect_annotated_eq _ _ _ _ _ Hds) in Hcs.
  apply collect_ok in Hcs as (own & -> & -> & Hadd & Hnd). rewrite body_assigned in Hadd.
  exists ds, own. cbn. split; auto. split; auto. split; [intros ->; unfold zlen in Hm; cbn in Hm; lia|].
  split; auto. repeat split; auto; lia.
Qed.

Lemma dataclass_mixed n k hs attr : 0 < k_own k -> dataclass native E n k hs attr = Raise EMixedDeclarations.
Proof. intros H. unfold dataclass. replace (0 <? k_own k) with true by lia. auto. Qed.

Lemma dataclass_none n k hs attr : k_own k = 0 -> annotated native E n attr hs [] ->
  dataclass native E n k hs attr = Raise ENoDefinedFields.
Proof.
  intros Ho Ha. unfold dataclass. rewrite Ho. cbn [Z.ltb Z.compare].
  rewrite (collect_annotated_eq _ _ _ _ _ Ha). reflexivity.
Qed.

(** A name declared by a base. *)
Lemma collect_annotated_redefined n defaults attr hs ds rest : annotated native E n attr hs ds ->
  forall comps i o found x d ds', ds = (x, d) :: ds' -> In x (map fst comps) ->
  collect_annotated_fields native E n defaults attr (hs ++ rest) comps i o found = Raise (EFieldRedefined x).
Proof.
  intros H. induction H as [|name anns hs ds Hu Hm _ IH|name anns hs d0 ds Hu Hm _ IH];
    intros comps i o found x d ds' Heq Hin; [discriminate|..];
    cbn [app collect_annotated_fields]; apply (no_unions_ok name) in Hu; rewrite Hu; cbn [bind]; rewrite Hm; cbn [bind]; eauto.
  injection Heq as -> <- <-. destruct (assoc comps x) eqn:Ha; auto. apply assoc_none_iff in Ha. contradiction.
Qed.

Lemma set_hint_new hs name anns : ~ In name (map fst hs) -> set_hint hs name anns = hs ++ [(name, anns)].
Proof.
  induction hs as [|[k v] hs IH]; intros H; auto. cbn [set_hint app map fst In] in *.
  destruct (String.eqb_spec k name); [tauto|]. rewrite IH by tauto. auto.
Qed.

Lemma set_hint_app hs rest name anns : ~ In name (map fst hs) ->
  set_hint (hs ++ rest) name anns = hs ++ set_hint rest name anns.
Proof.
  induction hs as [|[k v] hs IH]; intros H; auto. cbn [set_hint app map fst In] in *.
  destruct (String.eqb_spec k name); [tauto|]. rewrite IH by tauto. auto.
Qed.

Lemma type_hints_disjoint own : forall base, (forall x, In x (map fst own) -> ~ In x (map fst base)) ->
  exists rest, type_hints base own = base ++ rest.
Proof.
  intros base H. unfold type_hints.
  assert (Hg : forall rest, exists rest', fold_left (fun hs na => set_hint hs (fst na) (snd na)) own (base ++ rest) = base ++ rest').
  { induction own as [|[nm a] own IH]; intros rest; [exists rest; auto|]. cbn [fold_left fst snd].
    rewrite set_hint_app by (apply H; left; auto). apply IH. intros x Hx. apply H. right. auto. }
  destruct (Hg []) as [rest Hr]. rewrite app_nil_r in Hr. eauto.
Qed.

Lemma dataclass_of_dataclass n k attr base own x d ds : k_own k = 0 ->
  annotated native E n attr base ((x, d) :: ds) -> In x (map fst (k_comps k)) ->
  (forall y, In y (map fst own) -> ~ In y (map fst base)) ->
  dataclass native E n k (type_hints base own) attr = Raise (EFieldRedefined x).
Proof.
  intros Ho Ha Hin Hd. destruct (type_hints_disjoint own base Hd) as [rest ->].
  unfold dataclass. rewrite Ho. cbn [Z.ltb Z.compare].
  rewrite (collect_annotated_redefined _ _ _ _ _ rest Ha _ _ _ _ x d ds eq_refl Hin). auto.
Qed.

(** Fields declared by annotations are not in the table of validators. *)
Lemma dataclass_no_validators n name bases meta ns k hs attr k' :
  create_class E n name bases meta ns = Ok k -> body_fields ns = [] ->
  dataclass native E n k hs attr = Ok k' -> well_formed (base_class E bases) ->
  exists own, k_comps k' = k_comps (base_class E bases) ++ own /\ own <> []
    /\ (forall x, In x (map fst own) -> assoc (k_fvals k') x = None).
Proof.
  intros Hk Hb Hd Hwf.
  apply create_inv in Hk as (_ & start & own0 & _ & _ & _ & Hc & _ & (Hadd & _) & Hn & Hf & _).
  rewrite Hb in Hadd. inversion Hadd; subst own0. rewrite app_nil_r in Hc.
  apply dataclass_inv in Hd as (_ & ds & own & _ & Hc' & Hne & _ & _ & Hf' & _ & _ & _ & Hnd).
  exists own. rewrite <- Hc. split; auto. split; auto. intros x Hx. rewrite Hf', Hf, Hb. cbn [map existsb].
  replace (assoc (k_fvals (base_class E bases)) x) with (@None (list (value -> query unit))); auto.
  symmetry. apply assoc_none_iff. intros Hi. destruct Hwf as (W1 & _ & W3). apply W3 in Hi.
  rewrite Hc in Hnd. specialize (Hnd W1). rewrite Hc', map_app in Hnd.
  rewrite Hc in Hnd. clear -Hnd Hi Hx. induction (map fst (k_comps (base_class E bases))) as [|a l IH]; [destruct Hi|].
  cbn [app] in Hnd. inversion Hnd; subst. destruct Hi as [->|Hi]; auto. apply H1. apply in_or_app. auto.
Qed.

Lemma annotated_method n name bases meta ns off meth names q x : body_fields ns = [] ->
  (bases = [] /\ off = Some 0 \/ exists b, bases = [b] /\ get_size E n b = Ok off) ->
  In (meth, IValidates names q) ns -> In x names -> ~ In x (map fst (k_fvals (base_class E bases))) ->
  exists y, create_class E n name bases meta ns = Raise (EKeyErr y).
Proof.
  intros Hb Hoff Hin Hx Hn.
  assert (Hcs : forall ns, body_fields ns = [] -> forall defaults comps i o found,
            collect_assigned_fields defaults ns comps i o found = Ok (comps, found)).
  { clear. induction ns as [|[nm it] ns IH]; intros Hb defaults comps i o found; auto.
    destruct it; cbn [body_fields collect_assigned_fields] in *; auto; discriminate. }
  eapply create_unknown_validator; eauto.
  - rewrite Hb. intros ? ? [].
  - rewrite Hb. intros [].
Qed.

End Pep.

Lemma well_formed_empty : well_formed empty_class.
Proof. apply class_ok_wf, empty_ok. Qed.

Lemma added_bound defaults i o ds own : added defaults i o ds own ->
  Forall (fun nf => c_name (conf (snd nf)) = Some (fst nf)) own.
Proof.
  intros (_ & H). apply Forall_forall. intros [nm f] Hin. apply in_split in Hin as (pre & post & Heq).
  apply (H _ _ _ _ Heq).
Qed.

Lemma create_wf E n name bases meta ns k : create_class E n name bases meta ns = Ok k ->
  well_formed (base_class E bases) -> well_formed k.
Proof.
  intros H (W1 & W2 & W3). apply create_inv in H as (_ & start & own & _ & _ & _ & Hc & _ & Hadd & Hn & Hf & _).
  split; auto. split.
  - rewrite Hc. apply Forall_app. split; auto. eapply added_bound; eauto.
  - intros x Hx. apply in_keys in Hx. rewrite Hf in Hx. rewrite Hc, map_app, in_app_iff.
    destruct Hadd as [Ha _]. rewrite (body_names _ _ _ Ha). destruct (existsb _ _) eqn:He.
    + right. apply existsb_exists in He as (y & Hy & He). apply String.eqb_eq in He as ->. auto.
    + left. apply W3. apply in_keys. destruct (assoc _ x); [discriminate|]. contradiction.
Qed.

Lemma declared_any_wf native E : declared_any native E -> forall cid, well_formed (cls E cid).
Proof.
  assert (Hbase : forall E bases, (forall cid, well_formed (cls E cid)) -> well_formed (base_class E bases)).
  { intros E0 bases H. unfold base_class. destruct bases as [|b [|]]; auto using well_formed_empty. }
  induction 1 as [|E n name bases meta ns k HE IH Hk|E n name bases meta ns k hs attr k' HE IH Hk Hd]; intros cid.
  - unfold cls. destruct cid; apply well_formed_empty.
  - rewrite cls_app. destruct (_ <? _)%nat; auto. destruct (_ =? _)%nat; [|apply well_formed_empty].
    eapply create_wf; eauto.
  - rewrite cls_app. destruct (_ <? _)%nat; auto. destruct (_ =? _)%nat; [|apply well_formed_empty].
    apply create_wf in Hk; auto. destruct Hk as (W1 & W2 & W3).
    apply dataclass_inv in Hd as (_ & ds & own & _ & Hc & _ & Hadd & _ & Hf & _ & _ & _ & Hnd).
    split; auto. split.
    + rewrite Hc. apply Forall_app. split; auto. eapply added_bound; eauto.
    + rewrite Hf, Hc, map_app. intros x Hx. apply in_or_app. auto.
Qed.

Lemma create_numbered E n name bases meta ns k : create_class E n name bases meta ns = Ok k ->
  numbered (base_class E bases) -> numbered k.
Proof.
  intros H Hnum. apply create_inv in H as (_ & start & own & _ & _ & _ & Hc & _ & (Ha1 & Ha2) & _).
  intros pre nm f post Heq. rewrite Hc in Heq. apply split_app in Heq as [(p & Heq)|(p & -> & Heq)].
  - apply (Hnum _ _ _ _ Heq).
  - destruct (Ha2 _ _ _ _ Heq) as (H1 & H2 & _). split; auto. rewrite H2. f_equal. unfold zlen. rewrite app_length. lia.
Qed.

Lemma create_placed E n name bases meta ns k : create_class E n name bases meta ns = Ok k ->
  placed (base_class E bases) -> no_unsized_default (base_class E bases) -> placed k.
Proof.
  intros H Hp Hd. apply create_inv in H as (_ & start & own & Hst & _ & _ & Hc & _ & (Ha1 & Ha2) & _).
  intros pre nm f post Heq. rewrite Hc in Heq. apply split_app in Heq as [(p & Heq)|(p & -> & Heq)].
  - apply (Hp _ _ _ _ Heq).
  - destruct (Ha2 _ _ _ _ Heq) as (_ & _ & Ho). eapply offset_compose; eauto.
    destruct Hst as [[-> ->]|(b & -> & Hg)]; [apply offset_nil|]. eapply get_size_rule; eauto.
Qed.

Lemma dataclass_root native E n name meta ns k hs attr k' : create_class E n name [] meta ns = Ok k ->
  dataclass native E n k hs attr = Ok k' -> numbered k' /\ placed k'.
Proof.
  intros Hk Hd. apply create_inv in Hk as (_ & start & own0 & _ & _ & _ & Hc & Ho & _).
  apply dataclass_inv in Hd as (Hle & ds & own & _ & Hc' & _ & (_ & Hadd) & _).
  cbn [base_class k_comps empty_class app] in Hc. rewrite Ho in Hle.
  assert (own0 = []) as -> by (destruct own0; auto; unfold zlen in Hle; cbn [length] in Hle; lia).
  rewrite Hc in Hc'. cbn [app] in Hc'. split; intros pre nm f post Heq; rewrite Hc' in Heq;
    destruct (Hadd _ _ _ _ Heq) as (H1 & H2 & H3); auto.
Qed.

Lemma empty_numbered : numbered empty_class.
Proof. intros pre nm f post H. destruct pre; discriminate. Qed.
Lemma empty_placed : placed empty_class.
Proof. intros pre nm f post H. destruct pre; discriminate. Qed.

Lemma rooted_numbered native E : declared_rooted native E -> forall cid, numbered (cls E cid).
Proof.
  induction 1 as [|E n name bases meta ns k HE IH Hk|E n name meta ns k hs attr k' HE IH Hk Hd]; intros cid.
  - unfold cls. destruct cid; apply empty_numbered.
  - rewrite cls_app. destruct (_ <? _)%nat; auto. destruct (_ =? _)%nat; [|apply empty_numbered].
    eapply create_numbered; eauto. unfold base_class. destruct bases as [|b [|]]; auto using empty_numbered.
  - rewrite cls_app. destruct (_ <? _)%nat; auto. destruct (_ =? _)%nat; [|apply empty_numbered].
    eapply dataclass_root; eauto.
Qed.

Lemma rooted_placed native E : declared_rooted native E -> (forall cid, no_unsized_default (cls E cid)) ->
  forall cid, placed (cls E cid).
Proof.
  assert (Hsub : forall E k, (forall cid, no_unsized_default (cls (E ++ [k]) cid)) ->
            forall c, no_unsized_default (cls E c)).
  { intros E0 k Hd c. destruct (Nat.ltb_spec c (length E0)) as [Hc|Hc].
    - specialize (Hd c). rewrite cls_app in Hd. apply Nat.ltb_lt in Hc. rewrite Hc in Hd. auto.
    - unfold cls. rewrite nth_overflow by auto. intros ? ? []. }
  assert (He : no_unsized_default empty_class) by (intros ? ? []).
  induction 1 as [|E n name bases meta ns k HE IH Hk|E n name meta ns k hs attr k' HE IH Hk Hd]; intros Hn cid.
  - unfold cls. destruct cid; apply empty_placed.
  - pose proof (Hsub _ _ Hn) as HnE. specialize (IH HnE).
    rewrite cls_app. destruct (_ <? _)%nat; auto. destruct (_ =? _)%nat; [|apply empty_placed].
    eapply create_placed; eauto; unfold base_class; destruct bases as [|b [|]]; auto using empty_placed.
  - pose proof (Hsub _ _ Hn) as HnE. specialize (IH HnE).
    rewrite cls_app. destruct (_ <? _)%nat; auto. destruct (_ =? _)%nat; [|apply empty_placed].
    eapply dataclass_root; eauto.
Qed.

(** Statements assembled for PropertiesDecl.v. *)
Lemma class_creation E n name bases meta ns k : create_class E n name bases meta ns = Ok k ->
  exists start own,
    (bases = [] /\ start = Some 0 \/ exists b, bases = [b] /\ get_size E n b = Ok start)
    /\ k_name k = name
    /\ k_comps k = k_comps (base_class E bases) ++ own /\ k_own k = zlen own
    /\ Forall2 (bound_as (k_defaults k)) (body_fields ns) own
    /\ forall pre x f post, own = pre ++ (x, f) :: post ->
         c_index (conf f) = Some (zlen (k_comps (base_class E bases)) + zlen pre)
         /\ offset_rule start pre (c_offset (conf f)).
Proof.
  intros H. apply create_inv in H as (_ & start & own & Hst & Hn & _ & Hc & Ho & (Ha1 & Ha2) & _).
  exists start, own. split; auto. split; auto. split; auto. split; auto. split; auto.
  intros pre x f post Heq. destruct (Ha2 _ _ _ _ Heq) as (_ & H1 & H2). auto.
Qed.

Lemma class_defaults E n name bases meta ns k : create_class E n name bases meta ns = Ok k ->
  k_defaults k = match meta with Some m => m | None => k_defaults (base_class E bases) end.
Proof. intros H. apply create_inv in H as (_ & start & own & _ & _ & Hd & _). auto. Qed.

Lemma validator_tables E n name bases meta ns k : create_class E n name bases meta ns = Ok k ->
  (forall x, In x (map fst (body_fields ns)) -> assoc (k_fvals k) x = Some (methods_for ns x))
  /\ (forall x, ~ In x (map fst (body_fields ns)) ->
        assoc (k_fvals k) x
        = option_map (fun l => l ++ methods_for ns x) (assoc (k_fvals (base_class E bases)) x))
  /\ k_svals k = k_svals (base_class E bases) ++ struct_methods ns.
Proof.
  intros H. apply create_inv in H as (_ & start & own & _ & _ & _ & _ & _ & _ & _ & Hf & Hs).
  split; [|split; auto]; intros x Hx; rewrite Hf.
  - replace (existsb (String.eqb x) (map fst (body_fields ns))) with true; auto. symmetry.
    apply existsb_exists. exists x. split; auto. apply String.eqb_refl.
  - destruct (existsb (String.eqb x) (map fst (body_fields ns))) eqn:He; auto. exfalso. apply Hx.
    apply existsb_exists in He as (y & Hy & He). apply String.eqb_eq in He as ->. auto.
Qed.

Lemma annotated_creation native E n k hs attr k' : dataclass native E n k hs attr = Ok k' ->
  exists ds own, annotated native E n attr hs ds /\ k_comps k' = k_comps k ++ own /\ own <> []
    /\ k_own k' = zlen own /\ Forall2 (bound_as (k_defaults k)) ds own
    /\ forall pre x f post, own = pre ++ (x, f) :: post ->
         c_index (conf f) = Some (zlen pre) /\ offset_rule (Some 0) pre (c_offset (conf f)).
Proof.
  intros H. apply dataclass_inv in H as (_ & ds & own & Ha & Hc & Hne & (Hb & Hadd) & _ & _ & _ & Ho & _).
  exists ds, own. split; auto. split; auto. split; auto. split; auto. split; auto.
  intros pre x f post Heq. destruct (Hadd _ _ _ _ Heq) as (_ & H1 & H2). rewrite Z.add_0_l in H1. auto.
Qed.

(** Annotations of one name that are rejected. *)
Lemma collect_annotated_rejected native E n defaults attr pre ds name anns post e :
  annotated native E n attr pre ds -> names_fit ds -> NoDup (map fst ds) ->
  (forall comps i o found, collect_annotated_fields native E n defaults attr ((name, anns) :: post) comps i o found = Raise e) ->
  forall comps i o found, (forall x, In x (map fst ds) -> ~ In x (map fst comps)) ->
  collect_annotated_fields native E n defaults attr (pre ++ (name, anns) :: post) comps i o found = Raise e.
Proof.
  intros H Hf Hnd He. induction H as [|nm an hs ds Hu Hm _ IH|nm an hs d ds Hu Hm _ IH]; intros comps i o found Hd; auto;
    cbn [app]; remember ((name, anns) :: post) as tail; cbn [collect_annotated_fields];
    apply (no_unions_ok nm) in Hu; rewrite Hu; cbn [bind]; rewrite Hm; cbn [bind]; auto.
  cbn [map fst] in Hnd, Hd. inversion Hnd as [|? ? Hni Hnd']; subst.
  replace (assoc comps nm) with (@None field) by (symmetry; apply assoc_none_iff; apply Hd; left; auto).
  destruct (bind_total defaults nm i o d) as [f Hb]; [apply Hf; left; auto|]. rewrite Hb. cbn [bind].
  apply IH; auto.
  - intros x y Hi. apply Hf. right. auto.
  - intros x Hx. rewrite map_app, in_app_iff. cbn. intros [Hc|[<-|[]]]; [eapply Hd; eauto; right; auto|contradiction].
Qed.

Lemma make_fields_length native E n name a anns ds : make_fields native E n name a anns = Ok ds ->
  length ds = length (filter is_field_annotation anns).
Proof.
  revert ds. induction anns as [|x anns IH]; intros ds H; cbn [make_fields] in H; [injection H as <-; auto|].
  bind_res H as d Hd. bind_res H as ds' Hds. injection H as <-. specialize (IH _ eq_refl).
  destruct x; cbn [make_field] in Hd; cbn [filter is_field_annotation].
  - destruct (instantiate fc _); [|discriminate]. bind_res Hd as d1 Hd1. injection Hd as <-. cbn [length]. auto.
  - bind_res Hd as d1 Hd1. injection Hd as <-. cbn [length]. auto.
  - injection Hd as <-. cbn [length]. auto.
  - injection Hd as <-. auto.
  - injection Hd as <-. auto.
Qed.

Lemma make_fields_total native E n name a anns :
  (forall x, In x anns -> exists d, make_field native E n name a x = Ok d) ->
  exists ds, make_fields native E n name a anns = Ok ds.
Proof.
  induction anns as [|x anns IH]; intros H; cbn [make_fields]; [eauto|].
  destruct (H x (or_introl eq_refl)) as [d Hd]. rewrite Hd. cbn [bind].
  destruct IH as [ds Hds]; [intros y Hy; apply H; right; auto|]. rewrite Hds. cbn [bind]. eauto.
Qed.

Lemma dataclass_two_fields native E n k attr pre ds name anns post : k_own k = 0 ->
  annotated native E n attr pre ds -> names_fit ds -> NoDup (map fst ds) ->
  (forall x, In x (map fst ds) -> ~ In x (map fst (k_comps k))) ->
  ~ In AUnion anns -> (forall a, In a anns -> exists d, make_field native E n name (attr name) a = Ok d) ->
  (2 <= length (filter is_field_annotation anns))%nat ->
  dataclass native E n k (pre ++ (name, anns) :: post) attr = Raise (EConfig (Some name)).
Proof.
  intros Ho Ha Hf Hnd Hd Hu Hm Hl. unfold dataclass. rewrite Ho. cbn [Z.ltb Z.compare].
  erewrite collect_annotated_rejected; eauto; [reflexivity|]. intros comps i o found.
  cbn [collect_annotated_fields]. apply (no_unions_ok name) in Hu. rewrite Hu. cbn [bind].
  destruct (make_fields_total _ _ _ _ _ _ Hm) as [fs Hfs]. rewrite Hfs. cbn [bind].
  apply make_fields_length in Hfs. destruct fs as [|? [|]]; cbn [length] in Hfs; try lia. auto.
Qed.

Lemma dataclass_union native E n k attr pre ds name anns post : k_own k = 0 ->
  annotated native E n attr pre ds -> names_fit ds -> NoDup (map fst ds) ->
  (forall x, In x (map fst ds) -> ~ In x (map fst (k_comps k))) -> In AUnion anns ->
  dataclass native E n k (pre ++ (name, anns) :: post) attr = Raise (EInvalidTypeAnnotation name).
Proof.
  intros Ho Ha Hf Hnd Hd Hu. unfold dataclass. rewrite Ho. cbn [Z.ltb Z.compare].
  erewrite collect_annotated_rejected; eauto; [reflexivity|]. intros comps i o found.
  cbn [collect_annotated_fields]. unfold no_unions.
  replace (existsb _ anns) with true; auto. symmetry. apply existsb_exists. exists AUnion. auto.
Qed.

(** Annotations that are neither classes of fields or structs nor fields are skipped. *)
Lemma dataclass_ignored native E n k attr pre name anns post : Forall (eq AOther) anns ->
  dataclass native E n k (pre ++ (name, anns) :: post) attr = dataclass native E n k (pre ++ post) attr.
Proof.
  intros H. unfold dataclass. destruct (0 <? k_own k); auto.
  enough (Hg : forall comps i o found,
    collect_annotated_fields native E n (k_defaults k) attr (pre ++ (name, anns) :: post) comps i o found
    = collect_annotated_fields native E n (k_defaults k) attr (pre ++ post) comps i o found) by (rewrite Hg; auto).
  induction pre as [|[nm an] pre IH]; intros comps i o found; cbn [app].
  - cbn [collect_annotated_fields]. replace (no_unions name anns) with (Ok tt).
    2:{ symmetry. apply no_unions_ok. intros Hi. rewrite Forall_forall in H. specialize (H _ Hi). discriminate. }
    replace (make_fields native E n name (attr name) anns) with (@Ok (list decl) []); auto.
    symmetry. clear -H. induction H as [|a anns Ha _ IH]; [reflexivity|]. subst a. cbn [make_fields make_field bind]. rewrite IH. auto.
  - remember (pre ++ (name, anns) :: post) as t1. remember (pre ++ post) as t2.
    cbn [collect_annotated_fields]. destruct (no_unions nm an); cbn [bind]; auto.
    destruct (make_fields _ _ _ _ _ _) as [ds|e|]; cbn [bind]; auto. destruct ds as [|d [|]]; auto.
    destruct (assoc comps nm); auto. destruct (bind_to_container _ _ _ _ _); cbn [bind]; auto.
Qed.

(** What [typing.get_type_hints] gives: the names of the base keep their places. *)
Lemma set_hint_old hs name anns : In name (map fst hs) -> map fst (set_hint hs name anns) = map fst hs.
Proof.
  induction hs as [|[k v] hs IH]; intros H; [contradiction|]. cbn [set_hint map fst In] in *.
  destruct (String.eqb_spec k name); auto. cbn [map fst]. rewrite IH; auto. tauto.
Qed.

Lemma set_hint_assoc hs name anns x : assoc (set_hint hs name anns) x = if String.eqb name x then Some anns else assoc hs x.
Proof.
  induction hs as [|[k v] hs IH]; cbn [set_hint assoc].
  - destruct (String.eqb name x); auto.
  - destruct (String.eqb_spec k name) as [->|Hn]; cbn [assoc].
    + destruct (String.eqb name x); auto.
    + rewrite IH. destruct (String.eqb_spec k x), (String.eqb_spec name x); auto. congruence.
Qed.

Lemma type_hints_assoc own : forall base x, NoDup (map fst own) ->
  assoc (type_hints base own) x = match assoc own x with Some a => Some a | None => assoc base x end.
Proof.
  unfold type_hints. induction own as [|[k v] own IH]; intros base x Hd; auto.
  cbn [map fst] in Hd. inversion Hd as [|? ? Hk Hd']; subst.
  cbn [fold_left fst snd assoc]. rewrite IH by auto. rewrite set_hint_assoc.
  destruct (String.eqb_spec k x) as [->|]; auto.
  apply assoc_none_iff in Hk. rewrite Hk. auto.
Qed.

Lemma type_hints_names own : forall base, NoDup (map fst own) ->
  map fst (type_hints base own)
  = (map fst base ++ filter (fun x => negb (existsb (String.eqb x) (map fst base))) (map fst own))%list.
Proof.
  assert (Hex : forall l x, existsb (String.eqb x) l = true <-> In x l).
  { intros l x. rewrite existsb_exists. split; [intros (y & Hy & H); apply String.eqb_eq in H; congruence|].
    intros H. exists x. rewrite String.eqb_refl. auto. }
  unfold type_hints. induction own as [|[k v] own IH]; intros base Hd; cbn [fold_left fst snd map filter].
  - rewrite app_nil_r. auto.
  - cbn [map fst] in Hd. inversion Hd as [|? ? Hk Hd']; subst. rewrite IH by auto.
    destruct (existsb (String.eqb k) (map fst base)) eqn:Hb; cbn [negb].
    + apply Hex in Hb. rewrite set_hint_old by auto. auto.
    + assert (~ In k (map fst base)) as Hn by (rewrite <- Hex; congruence).
      rewrite set_hint_new by auto. rewrite map_app, <- app_assoc. cbn [map fst app]. f_equal. f_equal.
      apply filter_ext_in. intros y Hy. rewrite existsb_app. cbn [existsb].
      destruct (String.eqb_spec y k); [congruence|]. rewrite orb_false_r. auto.
Qed.
