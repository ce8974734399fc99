(** Which exceptions a dump raises when all values have the right type (C74). *)
From Verif Require Export SpecDump.
From Verif Require Import Tac DumpLeaf FieldMore FieldProofs StructProofs ToDictProofs FuelProofs
  ContainedProofs EndsProofs.
From Verif Require Import StructModel.
Open Scope Z_scope.

Lemma typed_not_sentinel E f v : typed E f v -> v <> VUndefined /\ v <> VDefault /\ v <> VNotPresent.
Proof.
  induction 1 as [c k v Hr|c k Hn|c comp cnt halt l Hl IH|c comp cnt halt l Hl IH|c cid d Hnd H1 IH H2 H3
    |c cid vals Hi Hc H1 IH H2|c choices ld dd v Hf Hok Hch H1 IH H2]; try (repeat split; discriminate).
  - destruct k, v; try contradiction; repeat split; discriminate.
  - destruct (Hok VNone []) as [i Hi]. destruct (Hch _ _ _ Hi) as [[g|cid] Hg].
    + exact (IH _ _ _ _ Hi Hg).
    + destruct (H2 _ _ _ _ Hi Hg) as [[d' ->] _]. repeat split; discriminate.
Qed.

Lemma suits_not_undefined E f v : suits E f v -> v <> VUndefined.
Proof. intros [H|[-> _]]; [apply (typed_not_sentinel E f v H)|discriminate]. Qed.

Lemma suits_typed E f v : suits E f v -> v <> VNotPresent -> typed E f v.
Proof. intros [H|[H _]]; congruence. Qed.

Lemma typed_fits E f v : typed E f v -> suits E f v.
Proof. left. auto. Qed.

Lemma suits_counter E f v : suits E f v -> counts f -> exists z, v = VInt z.
Proof.
  intros [H|[_ H]] Hc; destruct Hc as (Hk & Hn & Ha); [|contradiction].
  destruct H; cbn [kind conf] in *; try contradiction.
  destruct k; try contradiction; destruct v; try contradiction; eauto.
Qed.

(** ---------------------------------------------------------------- callables *)
Lemma stored_run mem get keys c name : c_name c = Some name ->
  run_q mem get keys (stored_or_fallback c)
  = if mem name then get name else run_q mem get keys (fallback_value c).
Proof.
  intros Hn. unfold stored_or_fallback. rewrite Hn. cbn [run_q]. destruct (mem name); auto.
  cbn [run_q]. destruct (get name); auto.
Qed.

Lemma cvd_run mem get keys c ctx :
  run_q mem get keys (compute_value_for_dump c ctx)
  = match run_q mem get keys (stored_or_fallback c) with
    | Ok v =>
      if is_not_present v then Ok VNotPresent
      else match run_q mem get keys (c_present c ctx None) with
           | Ok true => if is_undefined v then Raise (EMissingRequired (c_name c)) else Ok v
           | Ok false => Ok VNotPresent
           | Raise e => Raise e
           | OOF => OOF
           end
    | Raise e => Raise e
    | OOF => OOF
    end.
Proof.
  unfold compute_value_for_dump. rewrite run_qbind. destruct (run_q mem get keys (stored_or_fallback c)) as [v|e|]; auto.
  destruct (is_not_present v); auto. rewrite run_qbind.
  destruct (run_q mem get keys (c_present c ctx None)) as [[]|e|]; auto. cbn [negb].
  destruct (is_undefined v); auto.
Qed.

Lemma default_query_run mem get keys c : run_q mem get keys (default_query c) = default_of c.
Proof. unfold default_query, default_of. destruct (c_factory c) as [[v|e]|]; auto. Qed.

Lemma mapM_raise {T U} (g : T -> res U) l e : mapM g l = Raise e -> exists x, In x l /\ g x = Raise e.
Proof.
  induction l as [|x l IH]; cbn [mapM]; [discriminate|]. destruct (g x) as [y|e'|] eqn:Hg; cbn [bind]; try discriminate.
  - destruct (mapM g l) as [ys|e'|]; cbn [bind]; try discriminate. intros [= ->].
    destruct (IH eq_refl) as (z & Hz & Hgz). exists z. split; auto. right. auto.
  - intros [= ->]. exists x. split; auto. left. auto.
Qed.

Lemma forall2_in_r {T U} (R : T -> U -> Prop) l l' y : Forall2 R l l' -> In y l' -> exists x, In x l /\ R x y.
Proof.
  induction 1 as [|a b l l' Hab _ IH]; [contradiction|]. intros [<-|Hy].
  - exists a. split; auto. left. auto.
  - destruct (IH Hy) as (x & Hx & Hr). exists x. split; auto. right. auto.
Qed.

Lemma in_dset d k0 v0 k v : In (k, v) (dset d k0 v0) -> (k = k0 /\ v = v0) \/ In (k, v) d.
Proof.
  induction d as [|[k1 v1] d IH]; cbn [dset].
  - intros [[= <- <-]|[]]. auto.
  - destruct (String.eqb_spec k1 k0) as [->|Hn].
    + intros [[= <- <-]|H]; auto. right. right. auto.
    + intros [[= <- <-]|H]; [right; left; auto|]. destruct (IH H); auto. right. right. auto.
Qed.

Lemma in_ddel d k0 k v : In (k, v) (ddel d k0) -> In (k, v) d.
Proof.
  induction d as [|[k1 v1] d IH]; cbn [ddel]; auto. destruct (String.eqb k1 k0).
  - right; auto.
  - intros [H|H]; [left; auto|right; auto].
Qed.

Lemma dmem_ddel d k0 k : k <> k0 -> dmem (ddel d k0) k = dmem d k.
Proof.
  intros Hk. unfold dmem. replace (dget (ddel d k0) k) with (dget d k); auto.
  induction d as [|[k1 v1] d IH]; cbn [ddel dget]; auto. destruct (String.eqb_spec k1 k0) as [->|Hn].
  - destruct (String.eqb_spec k0 k); congruence.
  - cbn [dget]. rewrite IH. auto.
Qed.

Lemma dget_in d k v : dget d k = Some v -> In (k, v) d.
Proof. rewrite dget_assoc. apply assoc_in. Qed.

Section Errors.
Variables (A : exn -> Prop) (E : env).
Hypothesis HS : safe_schema A E.
Local Notation B e := (reported e \/ A e).

(** ---------------------------------------------------------------- classes *)
Lemma cls_bound cid : bound (k_comps (cls E cid)).
Proof. apply well_formed_bound. exact (proj1 (HS cid)). Qed.

Lemma comp_name cid name f : In (name, f) (k_comps (cls E cid)) -> c_name (conf f) = Some name.
Proof. intros H. apply (bound_assoc _ _ _ (cls_bound cid) H). Qed.

Lemma comp_assoc cid name f : In (name, f) (k_comps (cls E cid)) -> assoc (comps E cid) name = Some f.
Proof. intros H. apply (bound_assoc _ _ _ (cls_bound cid) H). Qed.

Lemma comp_member cid name f : In (name, f) (k_comps (cls E cid)) -> member E cid name.
Proof. intros H. unfold member. apply in_map_iff. exists (name, f). auto. Qed.

Lemma member_comp cid name : member E cid name -> exists f, In (name, f) (k_comps (cls E cid)).
Proof. unfold member. intros H. apply in_map_iff in H. destruct H as ([k f] & <- & H). exists f. auto. Qed.

Lemma kept_member cid name : kept E cid name -> member E cid name.
Proof. intros (f & H & _). eapply comp_member; eauto. Qed.

Lemma comp_safe cid name f : In (name, f) (k_comps (cls E cid)) -> safe A (counter E cid) f.
Proof. intros H. destruct (HS cid) as (_ & _ & Hc & _). apply (Hc name f H). Qed.

Definition lookups_err (cid : nat) (get : string -> res value) : Prop :=
  forall x e, kept E cid x -> get x = Raise e -> B e.

Lemma fallback_fits cid name f mem get keys v : In (name, f) (k_comps (cls E cid)) -> lookups_fit E cid get ->
  run_q mem get keys (fallback_value (conf f)) = Ok v -> v = VUndefined \/ suits E f v.
Proof.
  intros Hi Hl H. destruct (HS cid) as (_ & _ & Hc & _). destruct (Hc name f Hi) as (_ & Hd & _ & _ & Hq).
  unfold fallback_value in H. destruct (negb (is_undefined (c_default (conf f)))).
  - rewrite default_query_run in H. auto.
  - destruct (c_compute (conf f)) as [q|] eqn:Hcq.
    + destruct (Hq q eq_refl) as [_ Hw]. apply (Hw mem get keys v); auto.
    + left. injection H as <-. auto.
Qed.

Lemma fallback_err cid name f mem get keys e : In (name, f) (k_comps (cls E cid)) -> lookups_fit E cid get ->
  lookups_err cid get ->
  run_q mem get keys (fallback_value (conf f)) = Raise e -> B e.
Proof.
  intros Hi Hlf Hl H. destruct (HS cid) as (_ & _ & Hc & _). destruct (Hc name f Hi) as (_ & _ & Hd & _ & Hq).
  unfold fallback_value in H. destruct (negb (is_undefined (c_default (conf f)))).
  - rewrite default_query_run in H. right. auto.
  - destruct (c_compute (conf f)) as [q|] eqn:Hcq; [|discriminate].
    destruct (Hq q eq_refl) as [Hp _]. apply (Hp mem get keys e); auto.
Qed.

Lemma cvd_fits cid name f mem get keys ctx v : In (name, f) (k_comps (cls E cid)) -> lookups_fit E cid get ->
  run_q mem get keys (compute_value_for_dump (conf f) ctx) = Ok v -> suits E f v.
Proof.
  intros Hi Hl H. rewrite cvd_run in H.
  destruct (run_q mem get keys (stored_or_fallback (conf f))) as [w|e|] eqn:Hs; try discriminate.
  assert (Hw : w = VUndefined \/ suits E f w).
  { rewrite (stored_run mem get keys (conf f) name (comp_name cid name f Hi)) in Hs. destruct (mem name).
    - right. apply (Hl name w f); auto.
    - eapply fallback_fits; eauto. }
  destruct (is_not_present w) eqn:Hnp.
  - destruct w; try discriminate. injection H as <-. destruct Hw; auto; discriminate.
  - destruct (run_q mem get keys (c_present (conf f) ctx None)) as [[]|e|] eqn:Hp; try discriminate.
    + destruct (is_undefined w) eqn:Hu; [discriminate|]. injection H as <-. destruct Hw as [->|]; auto. discriminate.
    + injection H as <-. right. split; auto. intros Hc. rewrite Hc in Hp. discriminate.
Qed.

Lemma cvd_err cid name f mem get keys ctx e : In (name, f) (k_comps (cls E cid)) -> lookups_fit E cid get ->
  lookups_err cid get ->
  (mem name = true -> forall e, get name = Raise e -> B e) ->
  run_q mem get keys (compute_value_for_dump (conf f) ctx) = Raise e -> B e.
Proof.
  intros Hi Hlf Hl Hown H. rewrite cvd_run in H.
  destruct (run_q mem get keys (stored_or_fallback (conf f))) as [w|x|] eqn:Hs; try discriminate.
  - destruct (is_not_present w); [discriminate|].
    destruct (run_q mem get keys (c_present (conf f) ctx None)) as [[]|x|] eqn:Hp; try discriminate.
    + destruct (is_undefined w); [|discriminate]. injection H as <-. left. reflexivity.
    + injection H as <-. destruct (HS cid) as (_ & _ & Hc & _). destruct (Hc name f Hi) as (_ & _ & _ & Hpr & _).
      apply (proj1 (Hpr ctx) mem get keys x); auto.
  - injection H as <-. rewrite (stored_run mem get keys (conf f) name (comp_name cid name f Hi)) in Hs.
    destruct (mem name); [apply Hown; auto|]. eapply fallback_err; eauto.
Qed.

(** ---------------------------------------------------------------- reading an instance *)
Lemma struct_get_fits n : forall cid vals, values_fit E cid vals -> lookups_fit E cid (struct_get E n cid vals).
Proof.
  induction n as [|n IH]; intros cid vals Hv x w g H Hi; cbn [struct_get] in H; rewrite (comp_assoc _ _ _ Hi) in H;
    unfold name_of in H; rewrite (comp_name _ _ _ Hi) in H; cbn [oget] in H; destruct (dget vals x) as [y|] eqn:Hy;
    try discriminate.
  1, 2: injection H as <-; apply (Hv x y g); auto; apply dget_in; auto.
  eapply cvd_fits; [eauto|apply IH; eauto|exact H].
Qed.

Lemma struct_get_err n : forall cid vals name e, values_fit E cid vals -> member E cid name -> struct_get E n cid vals name = Raise e -> B e.
Proof.
  induction n as [|n IH]; intros cid vals name e Hv Hm H; cbn [struct_get] in H;
    destruct (member_comp _ _ Hm) as [f Hf]; rewrite (comp_assoc _ _ _ Hf) in H;
    unfold name_of in H; rewrite (comp_name _ _ _ Hf) in H; cbn [oget] in H; destruct (dget vals name); try discriminate.
  eapply (cvd_err cid name f); [eauto|apply struct_get_fits; exact Hv| | |exact H].
  - intros x y Hx Hy. eapply IH; [exact Hv| |exact Hy]. apply kept_member; auto.
  - intros _ y Hy. eapply IH; [exact Hv| |exact Hy]; auto.
Qed.

Lemma run_validators_err c v e : checks_raise A c -> run_validators (c_validators c) v = Raise e -> A e.
Proof.
  unfold checks_raise. generalize (c_validators c). intros l Hl. induction l as [|g l IH]; cbn [run_validators]; [discriminate|].
  destruct (g v) as [[]|x|] eqn:Hg; cbn [bind]; try discriminate.
  - apply IH. intros check w y Hc. apply Hl. right. auto.
  - intros [= <-]. eapply Hl; [left; reflexivity|exact Hg].
Qed.

Lemma safe_checks cnt f : safe A cnt f -> checks_raise A (conf f).
Proof. destruct 1; auto. Qed.

Lemma validate_err n cid vals e : values_fit E cid vals -> validate_contents E n cid vals = Raise e -> B e.
Proof.
  intros Hvf. unfold validate_contents. destruct (HS cid) as (Hwf & _ & Hc & Hm & Hs).
  assert (Hpol : forall (q : query unit) y, raises_only A E cid (member E cid) q -> run_struct E n cid vals q = Raise y -> B y).
  { intros q y Hq. unfold run_struct. apply Hq; [apply struct_get_fits; auto|].
    intros x z Hx Hz. eapply struct_get_err; eauto. }
  assert (Hf : forall fvs, incl fvs (k_fvals (cls E cid)) -> forall y, validate_fields E n cid vals fvs = Raise y -> B y).
  { induction fvs as [|[nm ms] fvs IH]; intros Hin y Hy; cbn [validate_fields] in Hy; [discriminate|].
    assert (Hmem : member E cid nm).
    { destruct Hwf as (_ & _ & Hincl). apply Hincl. apply in_map_iff. exists (nm, ms). split; auto. apply Hin. left. auto. }
    destruct (member_comp _ _ Hmem) as [f Hfi]. rewrite (comp_assoc _ _ _ Hfi) in Hy.
    destruct (struct_get E n cid vals nm) as [v|x|] eqn:Hg; cbn [bind] in Hy; try discriminate.
    2: { injection Hy as <-. eapply struct_get_err; eauto. }
    destruct (run_validators (c_validators (conf f)) v) as [[]|x|] eqn:Hr; cbn [bind] in Hy; try discriminate.
    2: { injection Hy as <-. right. eapply run_validators_err; [|exact Hr]. eapply safe_checks. eapply comp_safe; eauto. }
    destruct (run_method_validators E n cid vals ms v) as [[]|x|] eqn:Hms; cbn [bind] in Hy; try discriminate.
    - apply IH; auto. intros z Hz. apply Hin. right. auto.
    - injection Hy as <-.
      assert (Hq : forall q, In q ms -> raises_only A E cid (member E cid) (q v)).
      { intros q Hq. apply (Hm nm ms q v); auto. apply Hin. left. auto. }
      clear Hin. induction ms as [|q ms IHm]; cbn [run_method_validators] in Hms; [discriminate|].
      destruct (run_struct E n cid vals (q v)) as [[]|z|] eqn:Hz; cbn [bind] in Hms; try discriminate.
      + apply IHm; auto. intros q' Hq'. apply Hq. right. auto.
      + injection Hms as <-. apply (Hpol (q v)); auto. apply Hq. left. auto. }
  destruct (validate_fields E n cid vals (k_fvals (cls E cid))) as [[]|x|] eqn:Hv; cbn [bind]; try discriminate.
  - clear Hv Hf. revert Hs. generalize (k_svals (cls E cid)). intros l Hl H.
    induction l as [|q l IH]; cbn [run_struct_validators] in H; [discriminate|].
    destruct (run_struct E n cid vals q) as [[]|z|] eqn:Hz; cbn [bind] in H; try discriminate.
    + apply IH; auto. intros q' Hq'. apply Hl. right. auto.
    + injection H as <-. apply (Hpol q); auto. apply Hl. left. auto.
  - intros [= <-]. apply (Hf _ (incl_refl _) x Hv).
Qed.

(** Every field can be read. *)
Definition readable (n cid : nat) (vals : dict) : Prop :=
  forall name, member E cid name -> exists v, struct_get E n cid vals name = Ok v.

Lemma validated_readable n cid vals : validate_contents E n cid vals = Ok tt -> readable n cid vals.
Proof.
  intros H name Hm. apply validate_contents_iff in H. destruct H as [H _].
  destruct (HS cid) as (_ & Hall & _). apply Hall in Hm. apply in_map_iff in Hm. destruct Hm as ([nm ms] & <- & Hi).
  destruct (H _ _ Hi) as (f & v & _ & Hv & _). exists v. auto.
Qed.

Lemma complete_readable n cid vals : (forall name, member E cid name -> In name (dkeys vals)) -> readable n cid vals.
Proof.
  intros H name Hm. destruct (member_comp _ _ Hm) as [f Hf].
  pose proof (proj2 (dmem_in vals name) (H name Hm)) as Hd. unfold dmem in Hd.
  destruct (dget vals name) as [v|] eqn:Hv; [|discriminate].
  exists v. apply (struct_get_stored E n cid vals name f v); auto; [apply comp_assoc; auto|eapply comp_name; eauto].
Qed.

Section Instance.
Variables (n cid : nat) (vals : dict).
Hypotheses (Hinst : instance_of E cid vals) (Hfit : values_fit E cid vals) (Hread : readable n cid vals).

Lemma cvd_ok name f : In (name, f) (k_comps (cls E cid)) ->
  exists v, run_struct E n cid vals (compute_value_for_dump (conf f) VNone) = Ok v /\ suits E f v.
Proof.
  intros Hi. pose proof (proj1 (proj2 Hinst)) as Hnd.
  cut (exists v, run_struct E n cid vals (compute_value_for_dump (conf f) VNone) = Ok v).
  { intros [v Hv]. exists v. split; auto. eapply cvd_fits; [eauto| |exact Hv]. apply struct_get_fits; auto. }
  destruct (Hread name (comp_member _ _ _ Hi)) as [v Hv].
  destruct (struct_mem vals name) eqn:Hmem.
  - unfold run_struct. rewrite cvd_run, (stored_run _ _ _ _ name (comp_name _ _ _ Hi)), Hmem, Hv.
    destruct (is_not_present v); [eauto|]. destruct (HS cid) as (_ & _ & Hc & _).
    destruct (Hc name f Hi) as (_ & _ & _ & Hpr & _).
    destruct (proj2 (Hpr VNone) (struct_mem vals) (struct_get E n cid vals) (struct_keys vals))
      as [b Hb]; [apply struct_get_fits; auto|intros x Hx; apply Hread; apply kept_member; auto|].
    rewrite Hb. destruct b; [|eauto].
    pose proof (suits_not_undefined E f v (struct_get_fits n cid vals Hfit name v f Hv Hi)) as Hu.
    destruct v; try (exists VUndefined; fail); cbn [is_undefined]; eauto. congruence.
  - assert (Hnone : dget vals name = None).
    { destruct (dget vals name) as [w|] eqn:Hw; auto. exfalso.
      assert (Hw' : w <> VUndefined) by (apply (suits_not_undefined E f); apply (Hfit name w f); auto; apply dget_in; auto).
      assert (In name (struct_keys vals)) as Hk by (apply struct_keys_in; eauto).
      apply struct_mem_in in Hk. congruence. }
    destruct n as [|m]; cbn [struct_get] in Hv; rewrite (comp_assoc _ _ _ Hi) in Hv; unfold name_of in Hv;
      rewrite (comp_name _ _ _ Hi) in Hv; cbn [oget] in Hv; rewrite Hnone in Hv; [discriminate|].
    exists v. unfold run_struct.
    destruct (run_q_mono (struct_mem vals) (struct_get E m cid vals) (struct_get E (S m) cid vals) (struct_keys vals)
      (compute_value_for_dump (conf f) VNone)) as [Ho|He].
    + intros x. apply struct_get_mono. lia.
    + congruence.
    + congruence.
Qed.

Lemma possible_ok : exists d, possible_values E n cid vals (comps E cid) [] = Ok d
  /\ values_fit E cid d /\ (forall name, member E cid name -> dmem d name = true)
  /\ (forall name v, In (name, v) d -> member E cid name).
Proof.
  assert (H : forall fs, incl fs (k_comps (cls E cid)) -> forall dct, values_fit E cid dct ->
    (forall name v, In (name, v) dct -> member E cid name) ->
    exists d, possible_values E n cid vals fs dct = Ok d /\ values_fit E cid d
      /\ (forall name v, In (name, v) d -> member E cid name)).
  { induction fs as [|[nm f] fs IH]; intros Hin dct Hd Hk; cbn [possible_values].
    - exists dct. auto.
    - assert (Hi : In (nm, f) (k_comps (cls E cid))) by (apply Hin; left; auto).
      destruct (cvd_ok nm f Hi) as (v & -> & Hv). rewrite (bound_cname _ nm f (cls_bound cid) Hi).
      apply IH; [intros z Hz; apply Hin; right; auto| |].
      + intros name w g Hw Hg. apply in_dset in Hw. destruct Hw as [[-> ->]|Hw]; [|apply (Hd name w g); auto].
        apply comp_assoc in Hg. apply comp_assoc in Hi. congruence.
      + intros name w Hw. apply in_dset in Hw. destruct Hw as [[-> ->]|Hw]; [|eapply Hk; eauto].
        eapply comp_member; eauto. }
  destruct (H (comps E cid) (incl_refl _) []) as (d & Hd & Hf & Hk); [intros ? ? ? []|intros ? ? []|].
  exists d. split; auto. split; auto. split; auto. intros name Hm. destruct (member_comp _ _ Hm) as [f Hi].
  pose proof (possible_values_spec E n cid vals (comps E cid) [] d (cls_bound cid) Hd) as (_ & _ & Hsp).
  specialize (Hsp name f Hi). destruct (cvd_ok name f Hi) as (v & Hv & _). rewrite Hv in Hsp.
  unfold dmem. rewrite Hsp. auto.
Qed.

Lemma whatever_ok : exists w, to_dict_whatever_possible E n cid vals = Ok w
  /\ values_fit E cid w /\ (forall name, member E cid name -> dmem w name = true)
  /\ (forall name v, In (name, v) w -> member E cid name).
Proof.
  destruct possible_ok as (d & Hd & Hf & Hall & Hk). unfold to_dict_whatever_possible. rewrite Hd. cbn [bind].
  destruct (mapM (fun k => match dget d k with
                           | Some v => Ok (k, v)
                           | None => do v <- struct_get E n cid vals k; Ok (k, v)
                           end) (struct_keys vals)) as [first|e|] eqn:Hm; cbn [bind].
  - assert (Hfirst : forall k v, In (k, v) first -> In (k, v) d).
    { intros k v Hi. apply mapM_iff in Hm. destruct (forall2_in_r _ _ _ _ Hm Hi) as (x & Hx & Hr).
      assert (Hmx : member E cid x).
      { apply struct_keys_in in Hx; [|exact (proj1 (proj2 Hinst))]. destruct Hx as (y & Hy & _).
        apply (proj2 (proj2 Hinst)). apply dmem_in. unfold dmem. rewrite Hy. auto. }
      specialize (Hall x Hmx). unfold dmem in Hall. destruct (dget d x) as [y|] eqn:Hy; [|discriminate].
      injection Hr as <- <-. apply dget_in. auto. }
    eexists. split; [reflexivity|].
    assert (Hsub : forall k v, In (k, v) (first ++ filter (fun kv => negb (struct_mem vals (fst kv))) d) -> In (k, v) d).
    { intros k v Hi. apply in_app_or in Hi. destruct Hi as [Hi|Hi]; [auto|]. apply filter_In in Hi. tauto. }
    split; [intros name v f Hi; apply (Hf name v f); auto|]. split.
    + intros name Hmn. apply dmem_in. unfold dkeys. apply in_map_iff.
      destruct (struct_mem vals name) eqn:Hs.
      * apply struct_mem_in in Hs. apply mapM_iff in Hm.
        assert (Hx : exists v, In (name, v) first).
        { clear -Hm Hs Hall Hmn. induction Hm as [|x y l l' Hxy _ IH]; [contradiction|]. destruct Hs as [->|Hs].
          - specialize (Hall name Hmn). unfold dmem in Hall. destruct (dget d name) as [v|]; [|discriminate].
            injection Hxy as <-. exists v. left. auto.
          - destruct (IH Hs) as [v Hv]. exists v. right. auto. }
        destruct Hx as [v Hv]. exists (name, v). split; auto. apply in_or_app. left. auto.
      * specialize (Hall name Hmn). unfold dmem in Hall. destruct (dget d name) as [v|] eqn:Hv; [|discriminate].
        exists (name, v). split; auto. apply in_or_app. right. apply filter_In. split; [apply dget_in; auto|].
        cbn [fst]. rewrite Hs. auto.
    + intros name v Hi. eapply Hk. apply Hsub. exact Hi.
  - exfalso. apply mapM_raise in Hm. destruct Hm as (x & Hx & Hr).
    assert (Hmx : member E cid x).
    { apply struct_keys_in in Hx; [|exact (proj1 (proj2 Hinst))]. destruct Hx as (y & Hy & _).
      apply (proj2 (proj2 Hinst)). apply dmem_in. unfold dmem. rewrite Hy. auto. }
    specialize (Hall x Hmx). unfold dmem in Hall. destruct (dget d x); discriminate.
  - exfalso. revert Hm. assert (Hkeys : forall x, In x (struct_keys vals) -> dmem d x = true).
    { intros x Hx. apply Hall. apply struct_keys_in in Hx; [|exact (proj1 (proj2 Hinst))]. destruct Hx as (y & Hy & _).
      apply (proj2 (proj2 Hinst)). apply dmem_in. unfold dmem. rewrite Hy. auto. }
    revert Hkeys. generalize (struct_keys vals). intros l Hl. induction l as [|x l IH]; cbn [mapM]; [discriminate|].
    pose proof (Hl x (or_introl eq_refl)) as Hx. unfold dmem in Hx. destruct (dget d x); [|discriminate]. cbn [bind].
    specialize (IH (fun z Hz => Hl z (or_intror Hz))).
    match goal with |- bind ?m _ = _ -> _ => destruct m end; cbn [bind]; congruence.
Qed.

Lemma missing_none w : (forall name, member E cid name -> dmem w name = true) -> missing_values (comps E cid) w = Ok [].
Proof.
  intros H. unfold missing_values.
  replace (filter (fun nf => negb (dmem w (cname (snd nf)))) (comps E cid)) with (@nil (string * field)); auto.
  symmetry. assert (Hin : incl (comps E cid) (k_comps (cls E cid))) by apply incl_refl. revert Hin.
  generalize (comps E cid). intros fs. induction fs as [|[nm f] fs IH]; intros Hin; cbn [filter snd]; auto.
  assert (Hi : In (nm, f) (k_comps (cls E cid))) by (apply Hin; left; auto).
  rewrite (bound_cname _ nm f (cls_bound cid) Hi). rewrite (H nm (comp_member _ _ _ Hi)). cbn [negb].
  apply IH. intros z Hz. apply Hin. right. auto.
Qed.
End Instance.

Lemma drop_ok fs : forall d, bound fs -> (forall name f, In (name, f) fs -> dmem d name = true) ->
  exists d', drop_discard fs d = Ok d' /\ (forall k v, In (k, v) d' -> In (k, v) d)
    /\ forall x, dmem d x = true -> (forall f, In (x, f) fs -> c_discard (conf f) = false) -> dmem d' x = true.
Proof.
  induction fs as [|[nm f] fs IH]; intros d Hb Hall; cbn [drop_discard].
  - exists d. auto.
  - rewrite (bound_cname _ nm f Hb (or_introl eq_refl)). pose proof (bound_tail _ _ Hb) as Hb'.
    destruct (c_discard (conf f)) eqn:Hd.
    + rewrite (Hall nm f (or_introl eq_refl)).
      destruct (IH (ddel d nm)) as (d' & H1 & H2 & H3); auto.
      { intros name g Hg. rewrite dmem_ddel; [apply (Hall name g); right; auto|]. intros ->.
        destruct Hb as [Hnd _]. cbn [map fst] in Hnd. inversion Hnd as [|? ? Hni _]; subst. apply Hni.
        apply in_map_iff. exists (nm, g). auto. }
      exists d'. split; auto. split; [intros k v Hk; eapply in_ddel; eauto|].
      intros x Hx Hf. apply H3; [|intros g Hg; apply Hf; right; auto].
      rewrite dmem_ddel; auto. intros ->. specialize (Hf f (or_introl eq_refl)). congruence.
    + destruct (IH d Hb') as (d' & H1 & H2 & H3); [intros name g Hg; apply (Hall name g); right; auto|].
      exists d'. split; auto. split; auto. intros x Hx Hf. apply H3; auto. intros g Hg. apply Hf. right. auto.
Qed.

(** What to_dict computes before the recursive conversion. *)
Lemma raw_ok n cid vals (keep : bool) : instance_of E cid vals -> values_fit E cid vals -> readable n cid vals ->
  exists w raw, to_dict_whatever_possible E n cid vals = Ok w /\ missing_values (comps E cid) w = Ok []
    /\ (if keep then Ok w else drop_discard (comps E cid) w) = Ok raw
    /\ values_fit E cid raw /\ (forall name v, In (name, v) raw -> member E cid name)
    /\ forall name, kept E cid name -> dmem raw name = true.
Proof.
  intros Hi Hf Hr. destruct (whatever_ok n cid vals Hi Hf Hr) as (w & Hw & Hwf & Hwa & Hwk).
  exists w. destruct keep.
  - exists w. repeat split; auto. + apply missing_none; auto. + intros name Hk. apply Hwa. apply kept_member; auto.
  - destruct (drop_ok (comps E cid) w (cls_bound cid)) as (raw & H1 & H2 & H3).
    { intros name f Hn. apply Hwa. eapply comp_member; eauto. }
    exists raw. repeat split; auto.
    + apply missing_none; auto.
    + intros name v f Hn. apply (Hwf name v f); auto.
    + intros name v Hn. eapply Hwk; eauto.
    + intros name Hk. pose proof Hk as (f & Hif & Hd). apply H3; [apply Hwa; apply kept_member; auto|].
      intros g Hg. apply comp_assoc in Hg. apply comp_assoc in Hif. congruence.
Qed.

Lemma free_no_raise n : forall v e, struct_free v -> recursive_to_dicts E n v <> Raise e.
Proof.
  induction n as [|n IH]; intros v e Hf; [discriminate|]. destruct Hf as [v Hv|l Hl|d Hd]; cbn [recursive_to_dicts].
  - destruct v; try contradiction; discriminate.
  - destruct (mapM (recursive_to_dicts E n) l) as [l'|x|] eqn:Hm; try discriminate.
    exfalso. apply mapM_raise in Hm. destruct Hm as (y & Hy & Hr). rewrite Forall_forall in Hl. apply (IH y x); auto.
  - match goal with |- bind ?m _ <> _ => destruct m as [d'|x|] eqn:Hm end; try discriminate.
    exfalso. apply mapM_raise in Hm. destruct Hm as ([k y] & Hy & Hr). rewrite Forall_forall in Hd.
    specialize (Hd _ Hy). cbn [snd fst] in *.
    destruct (recursive_to_dicts E n y) as [y'|z|] eqn:Hz; try discriminate. apply (IH y z); auto.
Qed.

(** Values of the right type are converted without an exception, and keep their type. *)
Lemma convert_typed n : forall f v, typed E f v ->
  (forall e, recursive_to_dicts E n v <> Raise e)
  /\ forall v', recursive_to_dicts E n v = Ok v' -> typed E f v'.
Proof.
  induction n as [|n IH]; intros f v Ht; [split; discriminate|].
  assert (IHf : forall g w, suits E g w -> (forall e, recursive_to_dicts E n w <> Raise e)
     /\ forall w', recursive_to_dicts E n w = Ok w' -> suits E g w' /\ (w <> VNotPresent -> w' <> VNotPresent)).
  { intros g w [Hw|[-> Hw]].
    - destruct (IH g w Hw) as [H1 H2]. split; auto. intros w' Hw'. specialize (H2 w' Hw'). split; [left; auto|].
      intros _. apply (typed_not_sentinel E g w' H2).
    - destruct n; cbn [recursive_to_dicts]; split; try discriminate. intros w' [= <-]. split; [right; auto|congruence]. }
  assert (Hpairs : forall cid d, values_fit E cid d ->
     (forall name w, In (name, w) d -> ~ member E cid name -> struct_free w) ->
     (forall e, dicts_of E n d <> Raise e)
     /\ forall d', dicts_of E n d = Ok d' -> values_fit E cid d'
        /\ (forall name w, In (name, w) d' -> ~ member E cid name -> struct_free w)).
  { intros cid d Hd Hfr. split.
    - intros e Hm. unfold dicts_of in Hm. apply mapM_raise in Hm. destruct Hm as ([k y] & Hy & Hr). cbn [fst snd] in Hr.
      destruct (recursive_to_dicts E n y) as [y'|z|] eqn:Hz; try discriminate.
      destruct (in_dec string_dec k (map fst (k_comps (cls E cid)))) as [Hk|Hk].
      + destruct (member_comp cid k Hk) as [g Hg]. destruct (IHf g y (Hd k y g Hy Hg)) as [H1 _]. eapply H1; eauto.
      + apply (free_no_raise n y z); eauto.
    - intros d' Hm. apply dicts_of_iff in Hm. split.
      + intros k w g Hi Hg. destruct (forall2_in_r _ _ _ _ Hm Hi) as ([k0 w0] & Hi0 & Hk & Hr). cbn [fst snd] in *. subst k0.
        destruct (IHf g w0 (Hd k w0 g Hi0 Hg)) as [_ H2]. apply H2. auto.
      + intros k w Hi Hnm. destruct (forall2_in_r _ _ _ _ Hm Hi) as ([k0 w0] & Hi0 & Hk & Hr). cbn [fst snd] in *. subst k0.
        apply recursive_struct_free in Hr. auto. }
  destruct Ht as [c k v Hr|c k Hn|c comp cnt halt l Hl|c comp cnt halt l Hl|c cid d Hnd H1 H2 H3
    |c cid vals Hi Hc H1 H2|c choices ld dd v Hf Hok Hch H1 H2].
  - assert (Hs : recursive_to_dicts E (S n) v = Ok v) by (destruct k, v; try contradiction; reflexivity).
    rewrite Hs. split; [discriminate|]. intros v' [= <-]. apply typed_leaf. auto.
  - cbn [recursive_to_dicts]. split; [discriminate|]. intros v' [= <-]. apply typed_none. auto.
  - cbn [recursive_to_dicts]. destruct (mapM (recursive_to_dicts E n) l) as [l'|x|] eqn:Hm; cbn [bind].
    + split; [discriminate|]. intros v' [= <-]. apply typed_list. intros w Hw. apply mapM_iff in Hm.
      destruct (forall2_in_r _ _ _ _ Hm Hw) as (y & Hy & Hr). apply (proj2 (IH comp y (Hl y Hy))). auto.
    + exfalso. apply mapM_raise in Hm. destruct Hm as (y & Hy & Hr). apply (proj1 (IH comp y (Hl y Hy)) x). auto.
    + split; discriminate.
  - cbn [recursive_to_dicts]. split; [discriminate|]. intros v' [= <-]. apply typed_gen. auto.
  - cbn [recursive_to_dicts]. fold (dicts_of E n d).
    assert (Hd : values_fit E cid d).
    { intros name w g Hi Hg. destruct w; try (left; apply (H1 name _ g); auto; discriminate). right. split; auto.
      apply (H2 name g); auto. }
    destruct (Hpairs cid d Hd H3) as [P1 P2].
    destruct (dicts_of E n d) as [d'|x|] eqn:Hm; cbn [bind].
    + split; [discriminate|]. intros v' [= <-]. destruct (P2 d' eq_refl) as [Q1 Q2]. apply typed_dict; auto.
      * rewrite (dicts_of_keys _ _ _ _ Hm). auto.
      * intros name w g Hi Hg Hw. apply suits_typed; auto. apply (Q1 name w g); auto.
      * intros name g Hi Hg. destruct (Q1 name VNotPresent g Hi Hg) as [Ht|[_ Ht]]; auto.
        apply typed_not_sentinel in Ht. tauto.
    + exfalso. apply (P1 x). auto.
    + split; discriminate.
  - assert (Hd : values_fit E cid vals).
    { intros name w g Hin Hg. destruct w; try (left; apply (H1 name _ g); auto; discriminate). right. split; auto.
      apply (H2 name g); auto. }
    pose proof (complete_readable n cid vals Hc) as Hrd.
    destruct (raw_ok n cid vals false Hi Hd Hrd) as (w & raw & W1 & W2 & W3 & W4 & W5 & W6).
    cbn [recursive_to_dicts]. rewrite W1. cbn [bind]. rewrite W2. cbn [bind]. unfold dupdate. cbn [fold_left].
    rewrite W3. cbn [bind]. fold (dicts_of E n raw).
    destruct (Hpairs cid raw W4) as [P1 P2]. { intros name x Hx Hn. exfalso. apply Hn. eapply W5; eauto. }
    destruct (dicts_of E n raw) as [d'|x|] eqn:Hm; cbn [bind].
    + split; [discriminate|]. intros v' [= <-]. destruct (P2 d' eq_refl) as [Q1 Q2]. apply typed_dict; auto.
      * rewrite (dicts_of_keys _ _ _ _ Hm). cbn in W3. apply drop_discard_filter in W3; [|apply cls_bound|].
        -- subst raw. apply nodup_filter_keys. exact (proj1 (whatever_spec E n cid vals w Hi W1)).
        -- exact (proj1 (whatever_spec E n cid vals w Hi W1)).
      * intros name y g Hin Hg Hw. apply suits_typed; auto. apply (Q1 name y g); auto.
      * intros name g Hin Hg. destruct (Q1 name VNotPresent g Hin Hg) as [Ht|[_ Ht]]; auto.
        apply typed_not_sentinel in Ht. tauto.
    + exfalso. apply (P1 x). auto.
    + split; discriminate.
  - split; [intros e; apply free_no_raise; auto|]. intros v' Hv'. apply (free_identity E) in Hv'; auto. subst v'.
    apply typed_union; auto.
Qed.

Lemma to_dict_ok n cid vals keep : instance_of E cid vals -> values_fit E cid vals -> readable n cid vals ->
  (forall e, to_dict E n cid vals keep <> Raise e)
  /\ forall d, to_dict E n cid vals keep = Ok d -> values_fit E cid d
     /\ forall name, kept E cid name -> dmem d name = true.
Proof.
  intros Hi Hf Hr. destruct (raw_ok n cid vals keep Hi Hf Hr) as (w & raw & W1 & W2 & W3 & W4 & W5 & W6).
  unfold to_dict. rewrite W1. cbn [bind]. rewrite W2. cbn [bind]. unfold dupdate. cbn [fold_left].
  rewrite W3. cbn [bind].
  assert (Hconv : forall g v, suits E g v -> (forall e, recursive_to_dicts E n v <> Raise e)
     /\ forall v', recursive_to_dicts E n v = Ok v' -> suits E g v').
  { intros g v [Hv|[-> Hv]].
    - destruct (convert_typed n g v Hv) as [H1 H2]. split; auto. intros v' Hv'. left. auto.
    - destruct n; cbn [recursive_to_dicts]; split; try discriminate. intros v' [= <-]. right. auto. }
  split.
  - intros e Hm. unfold dicts_of in Hm. apply mapM_raise in Hm. destruct Hm as ([k y] & Hy & Hry). cbn [fst snd] in Hry.
    destruct (recursive_to_dicts E n y) as [y'|z|] eqn:Hz; try discriminate.
    destruct (member_comp _ _ (W5 _ _ Hy)) as [g Hg]. apply (proj1 (Hconv g y (W4 k y g Hy Hg)) z). auto.
  - intros d Hd. pose proof (dicts_of_keys _ _ _ _ Hd) as Hk. apply dicts_of_iff in Hd. split.
    + intros k y g Hin Hg. destruct (forall2_in_r _ _ _ _ Hd Hin) as ([k0 w0] & Hi0 & Hk0 & Hr0). cbn [fst snd] in *. subst k0.
      apply (proj2 (Hconv g w0 (W4 k w0 g Hi0 Hg))). auto.
    + intros name Hn. apply dmem_in. rewrite Hk. apply dmem_in. auto.
Qed.

(** ---------------------------------------------------------------- dumping *)
Definition ints_ok (cid : nat) (d : dict) : Prop :=
  forall name v, counter E cid name -> dget d name = Some v -> exists z, v = VInt z.

Lemma fit_ints cid d : values_fit E cid d -> ints_ok cid d.
Proof. intros H name v (f & Hf & Hc) Hv. apply (suits_counter E f); auto. apply (H name v f); auto. apply dget_in; auto. Qed.

Lemma sized_err cid c k dd d e : ints_ok cid d -> size_ok (counter E cid) c k -> c_size c <> SNone ->
  get_expected_size_with dd c k d = Raise e -> reported e.
Proof.
  intros Hd Hs Hn. unfold get_expected_size_with, size_ok in *. destruct (c_size c) as [|z|name]; try congruence; try discriminate.
  destruct (dget d name) as [v|] eqn:Hv; [|intros [= <-]; reflexivity].
  destruct (Hd name v Hs Hv) as [z ->]. discriminate.
Qed.

(** A [_do_dump] raises only what it may. *)
Definition dumps_err (dd : dumper) (f : field) (d : dict) : Prop :=
  forall v ctx o e, typed E f v -> v <> VNone -> dd f v ctx d = (o, Raise e) -> B e.

Lemma safe_size cnt f : safe A cnt f -> size_ok cnt (conf f) (kind f).
Proof. destruct 1; auto. Qed.
Lemma safe_null cnt f : safe A cnt f -> null_ok (conf f) (kind f).
Proof. destruct 1; auto. Qed.

Lemma null_err cid dd f d e : safe A (counter E cid) f -> ints_ok cid d -> dumps_err dd f d ->
  null_repr dd f d = Raise e -> B e.
Proof.
  intros Hs Hd He. pose proof (safe_null _ _ Hs) as Hn. pose proof (safe_size _ _ Hs) as Hz.
  unfold null_repr, null_repr_with, null_ok in *.
  assert (Hright : forall v, right_type (kind f) v -> match dd f v VNone d with
      | (out, Ok _) => Ok out | (_, Raise e) => Raise e | (_, OOF) => OOF end = Raise e -> B e).
  { intros v Hr. destruct (dd f v VNone d) as [o [a|x|]] eqn:Hx; try discriminate. intros [= <-].
    eapply He; [|  |exact Hx].
    - destruct f as [c k]. apply typed_leaf. auto.
    - intros ->. destruct (kind f); contradiction. }
  assert (Hsz : c_size (conf f) <> SNone -> match ges dd f d with
      | Ok n => Ok (repeat 0 (Z.to_nat n))
      | Raise e => if is_UndefinedSizeError e then Raise (EUnserializable (c_name (conf f))) else Raise e
      | OOF => OOF end = Raise e -> B e).
  { intros Hns. destruct (ges dd f d) as [z|x|] eqn:Hg; try discriminate. intros H. left.
    pose proof (sized_err cid _ _ _ _ _ Hd Hz Hns Hg) as Hx.
    destruct (is_UndefinedSizeError x); injection H as <-; auto. reflexivity. }
  destruct (c_null (conf f)); try (apply Hright; exact Hn); try (apply Hsz; exact Hn); try discriminate.
  intros [= <-]. left. reflexivity.
Qed.

Lemma dlift_raise {T} (r : res T) o e : dlift r = (o, Raise e) -> r = Raise e.
Proof. unfold dlift. congruence. Qed.

Lemma dbind_raise {T U} (m : dumped T) (k : T -> dumped U) o e : dbind m k = (o, Raise e) ->
  (exists o', m = (o', Raise e)) \/ exists o1 a o2, m = (o1, Ok a) /\ k a = (o2, Raise e).
Proof.
  unfold dbind. destruct m as [o1 [a|x|]]; try discriminate.
  - destruct (k a) as [o2 r] eqn:Hk. intros [= <- ->]. right. exists o1, a, o2. auto.
  - intros [= <- <-]. left. exists o1. auto.
Qed.

Lemma fts_err cid dd f v ctx d o e : safe A (counter E cid) f -> ints_ok cid d -> dumps_err dd f d ->
  typed E f v -> field_to_stream_with dd f v ctx d = (o, Raise e) -> B e.
Proof.
  intros Hs Hd He Ht H. pose proof (typed_not_sentinel E f v Ht) as (N1 & N2 & N3).
  unfold field_to_stream_with, to_stream_with in H.
  replace (is_default v) with false in H by (destruct v; auto; congruence). rewrite dbind_ok in H.
  replace (is_undefined v || is_default v) with false in H by (destruct v; auto; congruence).
  apply dbind_raise in H. destruct H as [[o1 H]|(o1 & [] & o2 & _ & H)].
  { apply dlift_raise in H. right. eapply run_validators_err; [|exact H]. eapply safe_checks; eauto. }
  destruct (is_none v) eqn:Hn.
  - apply dbind_raise in H. destruct H as [[o3 H]|(o3 & bs & o4 & _ & H)]; [|discriminate].
    apply dlift_raise in H. eapply null_err; eauto.
  - destruct (dd f v ctx d) as [out r] eqn:Hdd. apply dbind_raise in H.
    destruct H as [[o3 H]|(o3 & [] & o4 & Hr & H)].
    { apply dlift_raise in H. subst r. eapply He; [exact Ht| |exact Hdd]. intros ->. discriminate. }
    apply dbind_raise in H. destruct H as [[o5 H]|(o5 & sz & o6 & _ & H)].
    + apply dlift_raise in H. destruct (c_size (conf f)) as [|z|name] eqn:Hc; try discriminate. left.
      apply (sized_err cid (conf f) (kind f) (fun v => dd f v VNone d) d); auto; [apply safe_size; auto|congruence].
    + cbv zeta in H. destruct (0 <? zlen out - sz); [injection H as <- <-; left; reflexivity|].
      destruct (zlen out - sz <? 0); [|discriminate]. apply dbind_raise in H.
      destruct H as [[o7 H]|(o7 & bs & o8 & _ & H)]; [|discriminate]. apply dlift_raise in H. left.
      unfold add_padding in H. destruct (kind f) as [| | | | |cd [b|]|cd [b|]| | | |]; try discriminate; injection H as <-; reflexivity.
Qed.

Lemma dict_lookups_fit cid d : values_fit E cid d -> lookups_fit E cid (dget_res d).
Proof.
  intros H x w g Hx Hg. unfold dget_res in Hx. destruct (dget d x) as [y|] eqn:Hy; [|discriminate].
  injection Hx as <-. apply (H x y g); auto. apply dget_in; auto.
Qed.

Lemma dump_fields_err cid dd ctx d : values_fit E cid d -> (forall name, kept E cid name -> dmem d name = true) ->
  (forall name f, In (name, f) (k_comps (cls E cid)) -> dumps_err dd f d) ->
  forall fs o e, incl fs (k_comps (cls E cid)) -> dump_fields dd fs ctx d = (o, Raise e) -> B e.
Proof.
  intros Hd Hk Hdd. induction fs as [|[nm f] fs IH]; intros o e Hin H; cbn [dump_fields] in H; [discriminate|].
  assert (Hi : In (nm, f) (k_comps (cls E cid))) by (apply Hin; left; auto).
  apply dbind_raise in H. destruct H as [[o1 H]|(o1 & v & o2 & Hv & H)].
  - apply dlift_raise in H. eapply (cvd_err cid nm f); [exact Hi|apply dict_lookups_fit; exact Hd| | |exact H].
    + intros x y Hx Hy. specialize (Hk x Hx). unfold dmem in Hk. unfold dget_res in Hy. destruct (dget d x); discriminate.
    + intros Hm y Hy. unfold dmem in Hm. unfold dget_res in Hy. destruct (dget d nm); discriminate.
  - unfold dlift in Hv. injection Hv as <- Hv.
    pose proof (cvd_fits cid nm f _ _ _ ctx v Hi (dict_lookups_fit cid d Hd) Hv) as Hsuit.
    apply dbind_raise in H. destruct H as [[o3 H]|(o3 & [] & o4 & _ & H)].
    + destruct (is_not_present v) eqn:Hnp; [discriminate|]. eapply (fts_err cid dd f v ctx d); [| | | |exact H].
      * eapply comp_safe; eauto.
      * apply fit_ints; auto.
      * eapply Hdd; eauto.
      * apply suits_typed; auto. intros ->. discriminate.
    + eapply IH; [|exact H]. intros z Hz. apply Hin. right. auto.
Qed.

Lemma struct_err dd n cid vals ctx o e :
  (forall cid f d, safe A (counter E cid) f -> ints_ok cid d -> dumps_err dd f d) ->
  instance_of E cid vals -> values_fit E cid vals ->
  struct_to_stream_with E dd n cid vals ctx = (o, Raise e) -> B e.
Proof.
  intros Hdd Hi Hf H. unfold struct_to_stream_with in H. apply dbind_raise in H.
  destruct H as [[o1 H]|(o1 & [] & o2 & Hv & H)].
  { apply dlift_raise in H. eapply validate_err; eauto. }
  unfold dlift in Hv. injection Hv as <- Hv. pose proof (validated_readable n cid vals Hv) as Hr.
  destruct (to_dict_ok n cid vals false Hi Hf Hr) as [T1 T2].
  apply dbind_raise in H. destruct H as [[o3 H]|(o3 & d & o4 & Hd & H)].
  { apply dlift_raise in H. exfalso. apply (T1 e); auto. }
  unfold dlift in Hd. injection Hd as <- Hd. destruct (T2 d Hd) as [D1 D2].
  eapply (dump_fields_err cid dd ctx d D1 D2); [|apply incl_refl|exact H].
  intros name f Hin. apply (Hdd cid); [eapply comp_safe; eauto|apply fit_ints; auto].
Qed.

Lemma count_err cid cnt d e : ints_ok cid d -> count_ok (counter E cid) cnt ->
  get_final_element_count cnt d = Raise e -> reported e.
Proof.
  intros Hd Hc. destruct cnt as [|z|name|]; cbn [get_final_element_count]; try discriminate.
  - destruct (dget d name) as [v|] eqn:Hv; [|intros [= <-]; reflexivity].
    destruct (Hd name v Hc Hv) as [z ->]. discriminate.
  - intros [= <-]. reflexivity.
Qed.

Lemma count_known cid cnt d ne : ints_ok cid d -> count_ok (counter E cid) cnt ->
  get_final_element_count cnt d = Ok ne -> ne <> Some CountOther.
Proof.
  intros Hd Hc. destruct cnt as [|z|name|]; cbn [get_final_element_count]; try (intros [= <-]; discriminate); try discriminate.
  destruct (dget d name) as [v|] eqn:Hv; [|discriminate].
  destruct (Hd name v Hc Hv) as [z ->]. intros [= <-]. discriminate.
Qed.

Lemma typed_instance_parts cid vals : instance_of E cid vals ->
  (forall name v f, In (name, v) vals -> In (name, f) (k_comps (cls E cid)) -> v <> VNotPresent -> typed E f v) ->
  (forall name f, In (name, VNotPresent) vals -> In (name, f) (k_comps (cls E cid)) -> ~ unconditioned f) ->
  values_fit E cid vals.
Proof.
  intros _ H1 H2 name w g Hin Hg. destruct w; try (left; apply (H1 name _ g); auto; discriminate). right. split; auto.
  apply (H2 name g); auto.
Qed.

Lemma leaf_err cid c k d v o e : safe A (counter E cid) (Field c k) -> ints_ok cid d -> right_type k v ->
  leaf_dump c k (get_expected_size_with (fun _ => draise ETypeErr) c k d) v = (o, Raise e) -> B e.
Proof.
  intros Hs Hd Hr H. inversion Hs as [c' k' Hk Hch Hsz Hnl Hesc| | |]; subst; try contradiction.
  assert (Hg : forall g', (forall x, g' = Raise x -> reported x) -> leaf_dump c k g' v = (o, Raise e) -> B e).
  { intros g' Hg' Hl. destruct (leaf_errors c k g' v o e Hr Hg' Hl) as [|Hx]; auto. }
  destruct k as [sg en|fmt mx|fmt en|r tz sg en| |cd pad|cd pad|fmt|comp cnt halt|cid'|choices ld dmp]; try contradiction.
  1, 2, 3, 7, 8: apply (Hg (Ok 0)); [discriminate|exact H].
  all: eapply Hg; [|exact H]; intros x Hx; eapply sized_err; [exact Hd|exact Hsz| |exact Hx];
    intros Hc; unfold size_ok in Hsz; rewrite Hc in Hsz; exact Hsz.
Qed.

Lemma items_err dump1 l o e : (forall v o e, In v l -> dump1 v = (o, Raise e) -> B e) ->
  dump_items dump1 l = (o, Raise e) -> B e.
Proof.
  revert o. induction l as [|v l IH]; intros o Hl H; cbn [dump_items] in H; [discriminate|].
  apply dbind_raise in H. destruct H as [[o1 H]|(o1 & [] & o2 & _ & H)].
  - apply (Hl v o1); auto. left. auto.
  - eapply IH; [|exact H]. intros w x y Hw. apply Hl. right. auto.
Qed.

Lemma unsized_err dump1 name ne l : ne <> Some CountOther -> forall k o e, (forall v o e, In v l -> dump1 v = (o, Raise e) -> B e) ->
  dump_unsized dump1 name ne k l = (o, Raise e) -> B e.
Proof.
  intros Hne. induction l as [|v l IH]; intros k o e Hl H; cbn [dump_unsized] in H.
  - destruct ne as [[z|]|]; [|destruct (Hne eq_refl)|discriminate]. cbn [count_above dlift] in H. rewrite FieldProofs.dbind_ok in H.
    destruct (k <? z); [|discriminate]. injection H as <- <-. left. reflexivity.
  - match type of H with (if ?b then _ else _) = _ => destruct b eqn:Hb end.
    { destruct ne as [[z|]|]; [|destruct (Hne eq_refl)|discriminate Hb]. injection H as <- <-. left. reflexivity. }
    apply dbind_raise in H. destruct H as [[o1 H]|(o1 & [] & o2 & _ & H)].
    + apply (Hl v o1); auto. left. auto.
    + eapply IH; [|exact H]. intros w x y Hw. apply Hl. right. auto.
Qed.

Lemma init_err dd n cid d c ctx o e :
  (forall cid f d, safe A (counter E cid) f -> ints_ok cid d -> dumps_err dd f d) ->
  typed E (Field c (KNested cid)) (VDict d) ->
  (ddo vals <- dlift (struct_init E cid d); struct_to_stream_with E dd n cid vals ctx) = (o, Raise e) -> B e.
Proof.
  intros Hdd Ht H. apply dbind_raise in H. destruct H as [[o1 H]|(o1 & vals & o2 & Hv & H)].
  - apply dlift_raise in H. left. unfold struct_init in H.
    match type of H with (match ?l with [] => _ | _ => _ end) = _ => destruct l end; [discriminate|].
    injection H as <-. reflexivity.
  - unfold dlift in Hv. injection Hv as <- Hv. inversion Ht as [? ? ? Hr| | | |? ? ? Hnd H1 H2 H3| |]; subst; [contradiction|].
    pose proof (proj1 (init_ok_iff E cid d vals) Hv) as [-> Hincl].
    assert (Hi : instance_of E cid d) by (split; [exact (proj1 (HS cid))|split; auto]).
    eapply struct_err; [exact Hdd|exact Hi| |exact H]. apply typed_instance_parts; auto.
Qed.

Lemma do_dump_err n : forall cid f d, safe A (counter E cid) f -> ints_ok cid d -> dumps_err (do_dump E n) f d.
Proof.
  induction n as [|n IH]; intros cid f d Hs Hd v ctx o e Ht Hn H.
  - destruct f as [c k]. destruct k; try (cbn [do_dump kind] in H; discriminate).
    all: eapply leaf_err; [exact Hs|exact Hd| |exact H]; inversion Ht; subst; auto; congruence.
  - assert (Hf : forall g w o e, safe A (counter E cid) g -> typed E g w ->
        field_to_stream_with (do_dump E n) g w ctx d = (o, Raise e) -> B e).
    { intros g w o' e' Hg Hw. apply (fts_err cid); auto. apply (IH cid); auto. }
    destruct f as [c k]. destruct k as [sg en|fmt mx|fmt en|r tz sg en| |cd pad|cd pad|fmt|comp cnt halt|cid'|choices ld dmp].
    1-8: eapply leaf_err; [exact Hs|exact Hd| |exact H]; inversion Ht; subst; auto; congruence.
    + cbn [do_dump kind] in H. unfold array_dump in H. inversion Hs as [? ? Hk|? ? ? ? Hch Hsz Hnl Hcnt Hcomp| |]; subst; [contradiction|].
      apply dbind_raise in H. destruct H as [[o1 H]|(o1 & ne & o2 & Hne & H)].
      { apply dlift_raise in H. left. eapply count_err; eauto. }
      unfold dlift in Hne. injection Hne as <- Hne. eapply count_known in Hne; eauto.
      inversion Ht as [? ? ? Hr| |? ? ? ? l Hl|? ? ? ? l Hl| | |]; subst; [contradiction|congruence| |].
      * cbn [sized_items] in H.
        assert (Hit : dump_items (fun x => field_to_stream_with (do_dump E n) comp x ctx d) l = (o2, Raise e) -> B e).
        { apply items_err. intros w o3 y Hw. apply Hf; auto. }
        destruct ne as [[z|]|]; auto; [|destruct (Hne eq_refl)].
        destruct (negb (count_is (CountInt z) (zlen l))); auto. injection H as <- <-. left. reflexivity.
      * cbn [sized_items] in H. eapply unsized_err; [exact Hne| |exact H]. intros w o3 y Hw. apply Hf; auto.
    + cbn [do_dump kind] in H. inversion Ht as [? ? ? Hr| | | |? ? d' Hnd H1 H2 H3|? ? vals Hi Hc H1 H2|]; subst;
        [contradiction|congruence| |].
      * eapply init_err; [exact IH|exact Ht|exact H].
      * eapply struct_err; [exact IH|exact Hi|apply typed_instance_parts; auto|exact H].
    + cbn [do_dump kind] in H. inversion Ht as [? ? ? Hr| | | | | |? ? ? ? ? Hfr Hok Hch H1 H2]; subst;
        [contradiction|congruence|].
      inversion Hs as [? ? Hk| | |? ? ? ? Hchk Hsz Hnl Hall]; subst; [contradiction|].
      apply dbind_raise in H. destruct H as [[o1 H]|(o1 & i & o2 & Hi & H)].
      { apply dlift_raise in H. destruct (Hok ctx d) as [i Hi]. congruence. }
      unfold dlift in Hi. injection Hi as <- Hi. destruct (Hch _ _ _ Hi) as [[g|cid'] Hnth]; rewrite Hnth in H.
      * apply (Hf g v o2 e); auto; [|eapply H1; eauto]. apply Hall. eapply nth_error_In; eauto.
      * destruct (H2 _ _ _ _ Hi Hnth) as [[d' ->] Htd]. eapply init_err; [exact IH|exact Htd|exact H].
Qed.

(** ---------------------------------------------------------------- results *)
Theorem struct_dump_err n cid vals ctx o e : instance_of E cid vals -> values_fit E cid vals ->
  struct_to_stream E n cid vals ctx = (o, Raise e) -> B e.
Proof. intros Hi Hf H. eapply struct_err; [exact (do_dump_err n)|exact Hi|exact Hf|exact H]. Qed.

Theorem struct_bytes_err n cid vals ctx e : instance_of E cid vals -> values_fit E cid vals ->
  struct_to_bytes E n cid vals ctx = Raise e -> B e.
Proof.
  intros Hi Hf H. unfold struct_to_bytes, bytes_of in H.
  destruct (struct_to_stream E n cid vals ctx) as [o [a|x|]] eqn:Hx; try discriminate. injection H as <-.
  eapply struct_dump_err; eauto.
Qed.

Theorem field_dump_err n cid f v ctx d o e : safe A (counter E cid) f -> values_fit E cid d -> typed E f v ->
  field_to_stream E n f v ctx d = (o, Raise e) -> B e.
Proof.
  intros Hs Hd Ht H. eapply (fts_err cid); [exact Hs|apply fit_ints; exact Hd| |exact Ht|exact H].
  apply (do_dump_err n cid); auto. apply fit_ints; auto.
Qed.

(** to_dict() of an instance whose fields can all be read raises nothing. *)
Theorem to_dict_never n cid vals keep e : instance_of E cid vals -> values_fit E cid vals ->
  (forall name, member E cid name -> exists v, struct_get E n cid vals name = Ok v) ->
  to_dict E n cid vals keep <> Raise e.
Proof. intros Hi Hf Hr. apply (proj1 (to_dict_ok n cid vals keep Hi Hf Hr)). Qed.

Theorem validate_only n cid vals e : values_fit E cid vals -> validate_contents E n cid vals = Raise e -> B e.
Proof. apply validate_err. Qed.

Lemma partial_err n cid vals last ctx : values_fit E cid vals ->
  (forall name, ~ In (name, VNotPresent) vals) ->
  (forall name f, In (name, f) (k_comps (cls E cid)) -> default_of (conf f) <> Ok VNotPresent) ->
  forall fs o e, incl fs (k_comps (cls E cid)) ->
  partial_dump_fields E n fs vals last ctx = (o, Raise e) -> B e.
Proof.
  intros Hf Hnp Hdn. induction fs as [|[nm f] fs IH]; intros o e Hin H; cbn [partial_dump_fields] in H; [discriminate|].
  assert (Hi : In (nm, f) (k_comps (cls E cid))) by (apply Hin; left; auto).
  destruct (HS cid) as (_ & _ & Hc & _). destruct (Hc nm f Hi) as (Hs & Hdef & Hderr & _).
  apply dbind_raise in H. destruct H as [[o1 H]|(o1 & dv & o2 & Hv & H)].
  { apply dlift_raise in H. right. auto. }
  unfold dlift in Hv. injection Hv as <- Hv. rewrite (bound_cname _ nm f (cls_bound cid) Hi) in H. cbv zeta in H.
  set (v := match dget vals nm with Some v => v | None => dv end) in *.
  destruct (is_undefined v && match last with None => true | Some _ => false end); [discriminate|].
  destruct (is_undefined v && (is_undefined (c_const (conf f)) && is_undefined dv)); [injection H as <- <-; left; reflexivity|].
  assert (Hsuit : v = VUndefined \/ suits E f v).
  { unfold v. destruct (dget vals nm) as [w|] eqn:Hw; [|auto]. right. apply (Hf nm w f); auto. apply dget_in. auto. }
  apply dbind_raise in H. destruct H as [[o3 H]|(o3 & [] & o4 & _ & H)].
  - assert (Hints : ints_ok cid []) by (intros name w _ Hw; discriminate).
    destruct Hsuit as [Hu|Hsuit].
    + rewrite Hu in H. cbn in H. injection H as <- <-. left. reflexivity.
    + eapply (fts_err cid); [exact Hs|exact Hints|apply (do_dump_err n cid); auto| |exact H].
      apply suits_typed; auto. unfold v. destruct (dget vals nm) as [w|] eqn:Hw.
      * intros ->. apply (Hnp nm). apply dget_in. auto.
      * intros ->. apply (Hdn nm f); auto.
  - match type of H with (if ?b then _ else _) = _ => destruct b end; [discriminate|].
    eapply IH; [|exact H]. intros z Hz. apply Hin. right. auto.
Qed.

Theorem partial_dump_err n cid vals last ctx o e : values_fit E cid vals ->
  (forall name, ~ In (name, VNotPresent) vals) ->
  (forall name f, In (name, f) (k_comps (cls E cid)) -> default_of (conf f) <> Ok VNotPresent) ->
  partial_dump E n cid vals last ctx = (o, Raise e) -> B e.
Proof. intros Hf Hn Hd. apply (partial_err n cid vals last ctx Hf Hn Hd). apply incl_refl. Qed.
End Errors.
