(** Item and attribute access over arbitrary histories (C35). *)
From Verif Require Import Tac.
From Verif Require Export ContainerProofs.

Lemma assignable_set E cid vals name v : well_formed (cls E cid) ->
  assignable E cid name v -> struct_setitem E cid vals name v = Ok (dset vals name v).
Proof.
  intros Hwf (f & Hin & Hc & Hk & Ha). destruct (bound_assoc _ _ _ (well_formed_bound _ Hwf) Hin) as [Has Hn].
  unfold struct_setitem, comps. rewrite Has. unfold field_set. rewrite Hc, Hk. cbn [is_undefined negb orb].
  rewrite (accepts_run _ _ Ha). cbn [bind]. rewrite Hn. auto.
Qed.

Lemma set_assignable E cid vals name v vals' : well_formed (cls E cid) ->
  struct_setitem E cid vals name v = Ok vals' ->
  assignable E cid name v /\ vals' = dset vals name v.
Proof.
  intros Hwf H. unfold struct_setitem, comps in H.
  destruct (assoc (k_comps (cls E cid)) name) as [f|] eqn:Has; [|discriminate].
  pose proof (assoc_in _ _ _ Has) as Hin.
  destruct (bound_assoc _ _ _ (well_formed_bound _ Hwf) Hin) as [_ Hn].
  unfold field_set in H. destruct (c_compute (conf f)) eqn:Hc; [discriminate|].
  destruct (is_undefined (c_const (conf f))) eqn:Hk; [|discriminate]. cbn [negb orb] in H.
  destruct (run_validators (c_validators (conf f)) v) as [[]|e|] eqn:Hv; try discriminate.
  cbn [bind] in H. rewrite Hn in H. injection H as <-. split; auto.
  exists f. split; auto. split; auto. split; [destruct (c_const (conf f)); auto; discriminate|].
  apply run_accepts. auto.
Qed.

Lemma dget_ddel d name x : NoDup (dkeys d) ->
  dget (ddel d name) x = if String.eqb x name then None else dget d x.
Proof.
  intros Hnd. rewrite ddel_filter by auto.
  rewrite (dget_filter_key (fun k => negb (String.eqb k name))). destruct (String.eqb x name); auto.
Qed.

Lemma after_instance E cid vals o : instance_of E cid vals -> instance_of E cid (after E cid vals o).
Proof.
  intros Hi. pose proof Hi as (Hwf & Hnd & Hincl). unfold after.
  destruct (perform E cid vals o) as [vals'|e|] eqn:H; auto.
  destruct o as [name v|name]; cbn [perform] in H.
  - apply set_assignable in H; auto. destruct H as [(f & Hin & _) ->].
    split; auto. split; [apply nodup_dset; auto|].
    intros x Hx. rewrite dkeys_dset in Hx. destruct (dmem vals name); auto.
    apply in_app_iff in Hx. destruct Hx as [|[<-|[]]]; auto. apply (in_map fst) in Hin. auto.
  - unfold struct_delitem in H. destruct (assoc _ name); [|discriminate]. injection H as <-.
    split; auto. split.
    + rewrite ddel_filter by auto. apply nodup_filter_keys; auto.
    + intros x Hx. apply dget_in in Hx. destruct Hx as [w Hw]. rewrite dget_ddel in Hw by auto.
      apply Hincl. apply dget_in. destruct (String.eqb x name); [discriminate|eauto].
Qed.

Lemma step_refines E cid vals o : instance_of E cid vals ->
  exists m', abstract_step E cid (dget vals) o m' /\ forall x, m' x = dget (after E cid vals o) x.
Proof.
  intros Hi. pose proof Hi as (Hwf & Hnd & Hincl). unfold after. destruct o as [name v|name]; cbn [perform].
  - destruct (struct_setitem E cid vals name v) as [vals'|e|] eqn:H.
    + apply set_assignable in H; auto. destruct H as [Ha ->].
      eexists. split; [apply step_set; auto|]. intros x. cbv beta. rewrite dget_dset.
      rewrite (String.eqb_sym x name). auto.
    + exists (dget vals). split; auto. apply step_set_refused. intros Ha.
      apply (assignable_set _ _ vals) in Ha; auto. congruence.
    + exists (dget vals). split; auto. apply step_set_refused. intros Ha.
      apply (assignable_set _ _ vals) in Ha; auto. congruence.
  - unfold struct_delitem. destruct (assoc (comps E cid) name) as [f|] eqn:Has.
    + eexists. split; [apply step_del; apply assoc_in in Has; apply (in_map fst) in Has; auto|].
      intros x. cbv beta. rewrite dget_ddel; auto.
    + exists (dget vals). split; auto. apply step_del_refused. apply assoc_none in Has. auto.
Qed.

Lemma abstract_run_ext E cid ops : forall m1 m2 r1, (forall x, m1 x = m2 x) ->
  abstract_run E cid m1 ops r1 ->
  exists r2, abstract_run E cid m2 ops r2 /\ forall x, r1 x = r2 x.
Proof.
  induction ops as [|o ops IH]; intros m1 m2 r1 Hext H; inversion H as [|? ? m' ? ? Hs Hr]; subst.
  - exists m2. split; [constructor|auto].
  - assert (Hs' : exists m2', abstract_step E cid m2 o m2' /\ forall x, m' x = m2' x).
    { inversion Hs; subst; eexists; (split; [constructor; eauto|]); intros x; cbv beta; auto;
        destruct (String.eqb x name); auto. }
    destruct Hs' as (m2' & Hs' & Hx). destruct (IH m' m2' r1 Hx Hr) as (r2 & Hr2 & Hr2x).
    exists r2. split; auto. econstructor; eauto.
Qed.

Lemma history_refines E cid ops : forall vals, instance_of E cid vals ->
  instance_of E cid (after_all E cid vals ops)
  /\ exists m, abstract_run E cid (dget vals) ops m /\ forall x, m x = dget (after_all E cid vals ops) x.
Proof.
  induction ops as [|o ops IH]; intros vals Hi; cbn [after_all fold_left].
  - split; auto. exists (dget vals). split; [constructor|auto].
  - destruct (step_refines E cid vals o Hi) as (m1 & Hs & Hx).
    destruct (IH (after E cid vals o)) as [Hi' (m & Hr & Hm)]; [apply after_instance; auto|].
    split; auto.
    destruct (abstract_run_ext E cid ops (dget (after E cid vals o)) m1 m) as (m2 & Hr2 & Hm2);
      [intros x; symmetry; auto|auto|].
    exists m2. split; [econstructor; eauto|]. intros x. rewrite <- Hm2. apply Hm.
Qed.

(** Reading. *)
Lemma read_stored E n cid vals name v : instance_of E cid vals -> dget vals name = Some v ->
  struct_get E n cid vals name = Ok v.
Proof.
  intros (Hwf & _ & Hincl) Hv. assert (Hk : In name (dkeys vals)) by (apply dget_in; eauto).
  apply Hincl in Hk. apply in_map_iff in Hk. destruct Hk as ([k f] & Hk & Hin). cbn [fst] in Hk. subst k.
  destruct (bound_assoc _ _ _ (well_formed_bound _ Hwf) Hin) as [Has Hn].
  eapply struct_get_stored; eauto.
Qed.

Lemma read_unset E n cid vals name f : instance_of E cid vals ->
  In (name, f) (k_comps (cls E cid)) -> dget vals name = None ->
  struct_get E (S n) cid vals name = run_struct E n cid vals (compute_value_for_dump (conf f) VNone).
Proof.
  intros (Hwf & _) Hin Hv. destruct (bound_assoc _ _ _ (well_formed_bound _ Hwf) Hin) as [Has Hn].
  cbn [struct_get]. unfold comps. rewrite Has. unfold name_of. rewrite Hn. cbn [oget]. rewrite Hv. auto.
Qed.

Lemma read_default E n cid vals name f v : instance_of E cid vals ->
  In (name, f) (k_comps (cls E cid)) -> dget vals name = None ->
  c_default (conf f) = v -> c_factory (conf f) = None -> v <> VUndefined -> v <> VNotPresent ->
  (forall mem get keys, run_q mem get keys (c_present (conf f) VNone None) = Ok true) ->
  struct_get E (S n) cid vals name = Ok v.
Proof.
  intros Hi Hin Hv Hd Hf Hu Hnp Hp. rewrite (read_unset E n cid vals name f) by auto.
  unfold run_struct. rewrite run_compute.
  assert (Hm : struct_mem vals name = false).
  { destruct (struct_mem vals name) eqn:Hm; auto. apply struct_mem_in in Hm.
    destruct Hi as (_ & Hnd & _). apply struct_keys_in in Hm; auto. destruct Hm as (w & Hw & _). congruence. }
  assert (Hs : run_q (struct_mem vals) (struct_get E n cid vals) (struct_keys vals)
                 (stored_or_fallback (conf f)) = Ok v).
  { unfold stored_or_fallback. rewrite (instance_name _ _ _ _ _ Hi Hin). cbn [run_q]. rewrite Hm.
    unfold fallback_value, default_query. rewrite Hf, Hd. destruct v; auto; congruence. }
  rewrite Hs, Hp. destruct v; auto; congruence.
Qed.

Lemma untouched E cid ops : forall vals name, instance_of E cid vals ->
  (forall o, In o ops -> op_name o <> name) ->
  dget (after_all E cid vals ops) name = dget vals name.
Proof.
  induction ops as [|o ops IH]; intros vals name Hi Hn; cbn [after_all fold_left]; auto.
  change (fold_left (after E cid) ops (after E cid vals o)) with (after_all E cid (after E cid vals o) ops).
  rewrite IH; [|apply after_instance; auto|intros; apply Hn; right; auto].
  assert (Hne : op_name o <> name) by (apply Hn; left; auto).
  pose proof Hi as (Hwf & Hnd & _). unfold after. destruct o as [k v|k]; cbn [perform op_name] in *.
  - destruct (struct_setitem E cid vals k v) as [vals'|e|] eqn:H; auto.
    apply set_assignable in H; auto. destruct H as [_ ->]. rewrite dget_dset.
    destruct (String.eqb_spec k name); auto. contradiction.
  - unfold struct_delitem. destruct (assoc (comps E cid) k); auto. rewrite dget_ddel by auto.
    destruct (String.eqb_spec name k); auto. subst. contradiction.
Qed.

Lemma last_write E n cid vals ops1 name v ops2 : instance_of E cid vals ->
  assignable E cid name v -> (forall o, In o ops2 -> op_name o <> name) ->
  struct_get E n cid (after_all E cid vals (ops1 ++ OpSet name v :: ops2)) name = Ok v.
Proof.
  intros Hi Ha Hn.
  assert (Hall : instance_of E cid (after_all E cid vals (ops1 ++ OpSet name v :: ops2)))
    by (apply history_refines; auto).
  apply read_stored; auto. unfold after_all. rewrite fold_left_app. cbn [fold_left].
  fold (after_all E cid vals ops1).
  assert (Hi1 : instance_of E cid (after_all E cid vals ops1)) by (apply history_refines; auto).
  fold (after_all E cid (after E cid (after_all E cid vals ops1) (OpSet name v)) ops2).
  rewrite untouched; auto; [|apply after_instance; auto].
  unfold after. cbn [perform]. destruct Hi as (Hwf & _). rewrite assignable_set by auto.
  rewrite dget_dset, String.eqb_refl. auto.
Qed.

Lemma unknown_name E cid vals o : ~ In (op_name o) (map fst (k_comps (cls E cid))) ->
  perform E cid vals o = Raise (EKeyErr (op_name o)).
Proof.
  intros Hn. apply assoc_none in Hn. destruct o; cbn [perform op_name] in *;
    unfold struct_setitem, struct_delitem, comps; rewrite Hn; auto.
Qed.

Lemma unknown_read E n cid vals name : ~ In name (map fst (k_comps (cls E cid))) ->
  struct_get E n cid vals name = Raise (EKeyErr name).
Proof. intros Hn. apply assoc_none in Hn. destruct n; cbn [struct_get]; unfold comps; rewrite Hn; auto. Qed.

Lemma immutable_never_set E cid ops : forall vals name f, instance_of E cid vals ->
  In (name, f) (k_comps (cls E cid)) ->
  c_compute (conf f) <> None \/ c_const (conf f) <> VUndefined ->
  dget (after_all E cid vals ops) name = dget vals name
  \/ dget (after_all E cid vals ops) name = None.
Proof.
  induction ops as [|o ops IH]; intros vals name f Hi Hin Him; cbn [after_all fold_left]; auto.
  change (fold_left (after E cid) ops (after E cid vals o)) with (after_all E cid (after E cid vals o) ops).
  assert (Ho : dget (after E cid vals o) name = dget vals name \/ dget (after E cid vals o) name = None).
  { pose proof Hi as (Hwf & Hnd & _). unfold after. destruct o as [k v|k]; cbn [perform].
    - destruct (struct_setitem E cid vals k v) as [vals'|e|] eqn:H; auto.
      apply set_assignable in H; auto. destruct H as [(g & Hg & Hgc & Hgk & _) ->]. rewrite dget_dset.
      destruct (String.eqb_spec k name); auto. subst. exfalso.
      pose proof (well_formed_bound _ Hwf) as Hb.
      destruct (bound_assoc _ _ _ Hb Hin). destruct (bound_assoc _ _ _ Hb Hg).
      assert (f = g) by congruence. subst g. destruct Him; contradiction.
    - unfold struct_delitem. destruct (assoc (comps E cid) k); auto. rewrite dget_ddel by auto.
      destruct (String.eqb name k); auto. }
  destruct (IH (after E cid vals o) name f (after_instance _ _ _ _ Hi) Hin Him) as [H|H]; auto.
  rewrite H. auto.
Qed.

Lemma immutable_raises E cid vals name f v : instance_of E cid vals ->
  In (name, f) (k_comps (cls E cid)) ->
  c_compute (conf f) <> None \/ c_const (conf f) <> VUndefined ->
  perform E cid vals (OpSet name v) = Raise (EImmutable (Some name)).
Proof.
  intros Hi Hin Him. destruct Hi as (Hwf & _).
  destruct (bound_assoc _ _ _ (well_formed_bound _ Hwf) Hin) as [Has Hn].
  cbn [perform]. unfold struct_setitem, comps. rewrite Has. unfold field_set. rewrite Hn.
  destruct (c_compute (conf f)); auto. destruct Him as [Him|Him]; [contradiction|].
  destruct (c_const (conf f)); auto. contradiction.
Qed.

Lemma init_instance E cid values vals : well_formed (cls E cid) -> NoDup (dkeys values) ->
  struct_init E cid values = Ok vals -> instance_of E cid vals.
Proof. intros Hwf Hnd H. apply init_ok_iff in H. destruct H as [-> H]. split; auto. Qed.

Lemma load_instance E n cid ctx kw s s' vals : well_formed (cls E cid) -> NoDup (dkeys kw) ->
  struct_from_stream E n cid ctx kw s = (s', Ok vals) -> instance_of E cid vals.
Proof.
  intros Hwf Hnd H. apply struct_load_iff in H; auto. destruct H as (d & Hl & Hincl & _ & ->).
  destruct (loads_keys _ _ _ _ _ _ _ _ Hl) as (new & -> & Hi & Hk & Hn). split; auto. split.
  - apply nodup_filter_keys. auto.
  - intros x Hx. apply dget_in in Hx. destruct Hx as [v Hv].
    rewrite (dget_filter_key (fun k => negb (discarded (k_comps (cls E cid)) k))) in Hv.
    destruct (negb _); [|discriminate].
    assert (Hx : In x (dkeys (kw ++ new))) by (apply dget_in; eauto).
    unfold dkeys in Hx. rewrite map_app in Hx. apply in_app_iff in Hx. destruct Hx as [Hx|Hx]; auto.
Qed.
