(** Mapping proxies (C65). *)
From Verif Require Import Tac.
From Verif Require Export Proxy SpecEq HistoryProofs EqProofs.

(** The operands a proxy is compared with by value: proxies of the same class, and structs. *)
Inductive wraps (mutable : bool) : operand -> nat -> dict -> Prop :=
| wraps_proxy : forall cid vals, wraps mutable (OProxy mutable cid vals) cid vals
| wraps_struct : forall cid vals, wraps mutable (OValue (VStruct cid vals)) cid vals.

Section P.
Variable E : env.

Lemma filter_all {A} (p : A -> bool) l : forallb p l = true -> filter p l = l.
Proof.
  induction l as [|x l IH]; cbn [forallb filter]; intros H; auto.
  apply andb_true_iff in H. destruct H as [-> H]. rewrite IH; auto.
Qed.

Lemma known_del cid vals name : instance_of E cid vals ->
  In name (map fst (k_comps (cls E cid))) ->
  proxy_delitem E cid vals name = (ddel vals name, Ok tt).
Proof.
  intros (Hwf & _) Hin. apply in_map_iff in Hin. destruct Hin as ([k f] & Hk & Hin). cbn [fst] in Hk. subst k.
  destruct (bound_assoc _ _ _ (well_formed_bound _ Hwf) Hin) as [Has _].
  unfold proxy_delitem, struct_delitem, comps. rewrite Has. auto.
Qed.

Lemma stored_known cid vals name v : instance_of E cid vals -> dget vals name = Some v ->
  In name (map fst (k_comps (cls E cid))).
Proof. intros (_ & _ & Hincl) Hv. apply Hincl. apply dget_in. eauto. Qed.

Lemma proxy_stored n cid vals name v dflt odflt : instance_of E cid vals -> dget vals name = Some v ->
  proxy_get E n cid vals name dflt = Ok v /\ proxy_contains E n cid vals name = Ok true
  /\ proxy_setdefault E n cid vals name dflt = (vals, Ok v)
  /\ exists vals', proxy_pop E n cid vals name odflt = (vals', Ok v)
     /\ forall x, dget vals' x = if String.eqb x name then None else dget vals x.
Proof.
  intros Hi Hv. pose proof (read_stored E n cid vals name v Hi Hv) as Hr.
  unfold proxy_get, proxy_contains, proxy_setdefault, proxy_pop, proxy_getitem. rewrite Hr.
  rewrite known_del by (auto; eapply stored_known; eauto).
  split; [reflexivity|]. split; [reflexivity|]. split; [reflexivity|].
  exists (ddel vals name). split; [reflexivity|]. intros x. apply dget_ddel. apply Hi.
Qed.

Lemma proxy_unknown n cid vals name dflt : ~ In name (map fst (k_comps (cls E cid))) ->
  proxy_get E n cid vals name dflt = Ok dflt /\ proxy_contains E n cid vals name = Ok false
  /\ proxy_setdefault E n cid vals name dflt = (vals, Raise (EKeyErr name))
  /\ proxy_pop E n cid vals name (Some dflt) = (vals, Ok dflt)
  /\ proxy_pop E n cid vals name None = (vals, Raise (EKeyErr name)).
Proof.
  intros Hn. pose proof (unknown_read E n cid vals name Hn) as Hr.
  pose proof (unknown_name E cid vals (OpSet name dflt) Hn) as Hs. cbn [perform op_name] in Hs.
  unfold proxy_get, proxy_contains, proxy_setdefault, proxy_pop, proxy_getitem, proxy_setitem.
  rewrite Hr, Hs. repeat split.
Qed.

Lemma ddel_absent d name : NoDup (dkeys d) -> dget d name = None -> ddel d name = d.
Proof.
  intros Hnd Hv. rewrite ddel_filter by auto. apply filter_all. apply forallb_forall.
  intros [k v] Hin. cbn [fst]. destruct (String.eqb k name) eqn:He; auto.
  apply String.eqb_eq in He. subst. rewrite dget_assoc, (in_assoc _ _ _ Hnd Hin) in Hv. discriminate.
Qed.

(** A field that is not set: what reading it gives decides everything. *)
Lemma proxy_unset n cid vals name f dflt odflt r : instance_of E cid vals ->
  In (name, f) (k_comps (cls E cid)) -> dget vals name = None ->
  run_struct E n cid vals (compute_value_for_dump (conf f) VNone) = r ->
  (forall k, r <> Raise (EKeyErr k)) ->
  proxy_get E (S n) cid vals name dflt = r
  /\ proxy_contains E (S n) cid vals name = (do _ <- r; Ok true)
  /\ proxy_setdefault E (S n) cid vals name dflt = (vals, r)
  /\ proxy_pop E (S n) cid vals name odflt = (vals, r).
Proof.
  intros Hi Hin Hv Hr Hk. pose proof (read_unset E n cid vals name f Hi Hin Hv) as Hg. rewrite Hr in Hg.
  unfold proxy_get, proxy_contains, proxy_setdefault, proxy_pop, proxy_getitem. rewrite Hg.
  rewrite known_del by (auto; apply (in_map fst) in Hin; auto).
  rewrite ddel_absent by (auto; apply Hi).
  destruct r as [v|e|]; [auto| |auto].
  destruct e; auto; exfalso; eapply Hk; eauto.
Qed.

(** A field that is not set and whose callables raise KeyError is taken not to be there. *)
Lemma proxy_key_error n cid vals name f dflt k : instance_of E cid vals ->
  In (name, f) (k_comps (cls E cid)) -> dget vals name = None ->
  run_struct E n cid vals (compute_value_for_dump (conf f) VNone) = Raise (EKeyErr k) ->
  proxy_get E (S n) cid vals name dflt = Ok dflt
  /\ proxy_contains E (S n) cid vals name = Ok false
  /\ proxy_pop E (S n) cid vals name (Some dflt) = (vals, Ok dflt)
  /\ proxy_pop E (S n) cid vals name None = (vals, Raise (EKeyErr k))
  /\ (assignable E cid name dflt -> exists vals',
        proxy_setdefault E (S n) cid vals name dflt = (vals', Ok dflt)
        /\ forall x, dget vals' x = if String.eqb x name then Some dflt else dget vals x)
  /\ (~ assignable E cid name dflt -> fst (proxy_setdefault E (S n) cid vals name dflt) = vals
        /\ forall v, snd (proxy_setdefault E (S n) cid vals name dflt) <> Ok v).
Proof.
  intros Hi Hin Hv Hr. pose proof (read_unset E n cid vals name f Hi Hin Hv) as Hg. rewrite Hr in Hg.
  unfold proxy_get, proxy_contains, proxy_setdefault, proxy_pop, proxy_getitem. rewrite Hg.
  do 4 (split; [reflexivity|]). unfold proxy_setitem. split; intros Ha.
  - rewrite assignable_set by (auto; apply Hi). eexists. split; [reflexivity|]. intros x. rewrite String.eqb_sym. apply dget_dset.
  - destruct (struct_setitem E cid vals name dflt) as [w|e|] eqn:Hs; cbn [fst snd].
    + apply set_assignable in Hs; [|apply Hi]. destruct Hs as [Hs _]. contradiction.
    + split; auto. discriminate.
    + split; auto. discriminate.
Qed.

Lemma required_read n cid vals name f : instance_of E cid vals ->
  In (name, f) (k_comps (cls E cid)) -> dget vals name = None ->
  c_default (conf f) = VUndefined -> c_compute (conf f) = None ->
  (forall mem get keys, run_q mem get keys (c_present (conf f) VNone None) = Ok true) ->
  run_struct E n cid vals (compute_value_for_dump (conf f) VNone) = Raise (EMissingRequired (Some name)).
Proof.
  intros Hi Hin Hv Hd Hc Hp. unfold run_struct. rewrite run_compute.
  assert (Hm : struct_mem vals name = false).
  { destruct (struct_mem vals name) eqn:Hm; auto. apply struct_mem_in in Hm.
    destruct Hi as (_ & Hnd & _). apply struct_keys_in in Hm; auto. destruct Hm as (w & Hw & _). congruence. }
  assert (Hs : run_q (struct_mem vals) (struct_get E n cid vals) (struct_keys vals)
                 (stored_or_fallback (conf f)) = Ok VUndefined).
  { unfold stored_or_fallback. rewrite (instance_name _ _ _ _ _ Hi Hin). cbn [run_q]. rewrite Hm.
    unfold fallback_value. rewrite Hd, Hc. auto. }
  rewrite Hs, Hp. cbn. rewrite (instance_name _ _ _ _ _ Hi Hin). auto.
Qed.

Lemma proxy_required n cid vals name f dflt odflt : instance_of E cid vals ->
  In (name, f) (k_comps (cls E cid)) -> dget vals name = None ->
  c_default (conf f) = VUndefined -> c_compute (conf f) = None ->
  (forall mem get keys, run_q mem get keys (c_present (conf f) VNone None) = Ok true) ->
  proxy_get E (S n) cid vals name dflt = Raise (EMissingRequired (Some name))
  /\ proxy_contains E (S n) cid vals name = Raise (EMissingRequired (Some name))
  /\ proxy_setdefault E (S n) cid vals name dflt = (vals, Raise (EMissingRequired (Some name)))
  /\ proxy_pop E (S n) cid vals name odflt = (vals, Raise (EMissingRequired (Some name))).
Proof.
  intros Hi Hin Hv Hd Hc Hp. apply (proxy_unset n cid vals name f dflt odflt (Raise (EMissingRequired (Some name)))); auto.
  - apply required_read; auto.
  - intros k. discriminate.
Qed.

Lemma keys_set_values vals : struct_keys vals = dkeys (set_values vals).
Proof. reflexivity. Qed.

Lemma set_values_in vals k v : NoDup (dkeys vals) -> In (k, v) (set_values vals) ->
  dget vals k = Some v /\ v <> VUndefined.
Proof.
  intros Hnd Hin. apply filter_In in Hin. destruct Hin as [Hin Hu]. cbn [snd] in Hu.
  rewrite dget_assoc, (in_assoc _ _ _ Hnd Hin). split; auto. intros ->. discriminate.
Qed.

Lemma proxy_items_all n cid vals : instance_of E cid vals ->
  proxy_items E n cid vals = Ok (set_values vals).
Proof.
  intros Hi. unfold proxy_items, proxy_iter. rewrite keys_set_values.
  assert (H : forall k v, In (k, v) (set_values vals) -> struct_get E n cid vals k = Ok v).
  { intros k v Hin. apply set_values_in in Hin; [|apply Hi]. apply read_stored; auto. apply Hin. }
  revert H. generalize (set_values vals). induction d as [|[k v] d IH]; intros H; auto.
  unfold dkeys in *. cbn [map fst mapM]. unfold proxy_getitem in *. rewrite (H k v) by (left; auto). cbn [bind].
  rewrite IH; auto. intros k' v' Hin. apply H. right. auto.
Qed.

Lemma proxy_popitem_first n cid vals k v rest : instance_of E cid vals ->
  set_values vals = (k, v) :: rest -> proxy_popitem E n cid vals = (ddel vals k, Ok (k, v)).
Proof.
  intros Hi Hs. assert (Hin : In (k, v) (set_values vals)) by (rewrite Hs; left; auto).
  apply set_values_in in Hin; [|apply Hi]. destruct Hin as [Hv _].
  unfold proxy_popitem, proxy_iter. rewrite keys_set_values, Hs. cbn [dkeys map fst].
  unfold proxy_getitem. rewrite (read_stored E n cid vals k v Hi Hv).
  rewrite known_del by (auto; eapply stored_known; eauto). auto.
Qed.

Lemma proxy_popitem_empty n cid vals : set_values vals = [] ->
  proxy_popitem E n cid vals = (vals, Raise (EKeyErr "")).
Proof. intros Hs. unfold proxy_popitem, proxy_iter. rewrite keys_set_values, Hs. auto. Qed.

Lemma ddel_instance cid vals k : instance_of E cid vals ->
  In k (map fst (k_comps (cls E cid))) -> instance_of E cid (ddel vals k).
Proof.
  intros Hi Hk. pose proof (after_instance E cid vals (OpDel k) Hi) as H. unfold after in H. cbn [perform] in H.
  pose proof (known_del cid vals k Hi Hk) as Hd. unfold proxy_delitem in Hd.
  destruct (struct_delitem E cid vals k) as [w|e|]; try discriminate. injection Hd as ->. auto.
Qed.

Lemma set_values_ddel vals k v rest : NoDup (dkeys vals) -> set_values vals = (k, v) :: rest ->
  set_values (ddel vals k) = rest.
Proof.
  intros Hnd Hs. rewrite ddel_filter by auto. unfold set_values.
  assert (Hc : forall l : dict, filter (fun kv => negb (is_undefined (snd kv)))
             (filter (fun kv => negb (String.eqb (fst kv) k)) l)
           = filter (fun kv => negb (String.eqb (fst kv) k)) (filter (fun kv => negb (is_undefined (snd kv))) l)).
  { induction l as [|[a b] l IH]; auto. cbn [filter fst snd].
    destruct (String.eqb a k) eqn:Ha, (is_undefined b) eqn:Hb; cbn [negb filter fst snd]; rewrite ?Ha, ?Hb;
      cbn [negb]; rewrite IH; auto. }
  rewrite Hc. unfold set_values in Hs. rewrite Hs. cbn [filter fst]. rewrite String.eqb_refl. cbn [negb].
  apply filter_all. apply forallb_forall. intros [a b] Hin. cbn [fst].
  assert (Hnd' : NoDup (dkeys (set_values vals))) by (apply nodup_filter_keys; auto).
  unfold set_values in Hnd'. rewrite Hs in Hnd'. inversion Hnd' as [|? ? Hni _]; subst.
  destruct (String.eqb a k) eqn:He; auto. apply String.eqb_eq in He. subst.
  exfalso. apply Hni. apply (in_map fst) in Hin. auto.
Qed.

Lemma proxy_clear_all n cid turns : forall vals, instance_of E cid vals ->
  (length (proxy_iter vals) < turns)%nat ->
  exists vals', proxy_clear E turns n cid vals = (vals', Ok tt)
    /\ proxy_iter vals' = []
    /\ forall x, dget vals' x = match dget vals x with Some VUndefined => Some VUndefined | _ => None end.
Proof.
  induction turns as [|turns IH]; intros vals Hi Hlt; [lia|]. cbn [proxy_clear].
  unfold proxy_iter in *. rewrite keys_set_values in *.
  destruct (set_values vals) as [|[k v] rest] eqn:Hs.
  - rewrite proxy_popitem_empty by auto. exists vals. split; auto. split; auto.
    { rewrite keys_set_values, Hs. auto. }
    intros x. destruct (dget vals x) as [v|] eqn:Hv; auto.
    destruct (is_undefined v) eqn:Hu; [destruct v; auto; discriminate|].
    assert (Hin : In (x, v) (set_values vals)).
    { apply filter_In. rewrite dget_assoc in Hv. split; [apply assoc_in; auto|]. cbn [snd]. rewrite Hu. auto. }
    rewrite Hs in Hin. destruct Hin.
  - rewrite (proxy_popitem_first n cid vals k v rest) by auto.
    assert (Hin : In (k, v) (set_values vals)) by (rewrite Hs; left; auto).
    apply set_values_in in Hin; [|apply Hi]. destruct Hin as [Hv Hu].
    destruct (IH (ddel vals k)) as (vals' & Hc & He & Hx).
    + apply ddel_instance; auto. eapply stored_known; eauto.
    + rewrite keys_set_values, (set_values_ddel vals k v rest); [|apply Hi|auto].
      cbn [dkeys map length] in Hlt. unfold dkeys in *. lia.
    + exists vals'. split; auto. split; auto. intros x. rewrite Hx, dget_ddel by apply Hi.
      destruct (String.eqb x k) eqn:Hxk; auto. apply String.eqb_eq in Hxk. subst. rewrite Hv.
      destruct v; auto. congruence.
Qed.

Lemma dget_rev_cons k v items x :
  dget (rev ((k, v) :: items)) x
  = match dget (rev items) x with Some w => Some w | None => if String.eqb k x then Some v else None end.
Proof.
  cbn [rev]. induction (rev items) as [|[a b] l IH]; cbn [app].
  - cbn [dget]. destruct (String.eqb k x); auto.
  - cbn [dget]. destruct (String.eqb a x); auto.
Qed.

Lemma dset_instance cid vals k v : instance_of E cid vals -> assignable E cid k v ->
  instance_of E cid (dset vals k v).
Proof.
  intros Hi Ha. pose proof (after_instance E cid vals (OpSet k v) Hi) as H. unfold after in H. cbn [perform] in H.
  rewrite assignable_set in H; auto. apply Hi.
Qed.

Lemma proxy_update_all cid items : forall vals, instance_of E cid vals ->
  Forall (fun kv => assignable E cid (fst kv) (snd kv)) items ->
  exists vals', proxy_update E cid vals items = (vals', Ok tt) /\ instance_of E cid vals'
    /\ forall x, dget vals' x = match dget (rev items) x with Some v => Some v | None => dget vals x end.
Proof.
  induction items as [|[k v] items IH]; intros vals Hi Ha; cbn [proxy_update].
  - exists vals. auto.
  - inversion Ha as [|? ? Hk Hr]; subst. cbn [fst snd] in Hk. unfold proxy_setitem.
    rewrite assignable_set by (auto; apply Hi).
    destruct (IH (dset vals k v)) as (vals' & Hu & Hi' & Hx); auto; [apply dset_instance; auto|].
    exists vals'. split; auto. split; auto. intros x. rewrite Hx, dget_dset, dget_rev_cons.
    destruct (dget (rev items) x); auto. destruct (String.eqb k x); auto.
Qed.

Lemma proxy_update_stops cid pre k v post : forall vals, instance_of E cid vals ->
  Forall (fun kv => assignable E cid (fst kv) (snd kv)) pre -> ~ assignable E cid k v ->
  exists vals' r, proxy_update E cid vals (pre ++ (k, v) :: post) = (vals', r)
    /\ (forall x, dget vals' x = match dget (rev pre) x with Some w => Some w | None => dget vals x end)
    /\ ((exists e, r = Raise e /\ struct_setitem E cid vals' k v = Raise e)
        \/ r = OOF /\ struct_setitem E cid vals' k v = OOF).
Proof.
  induction pre as [|[a b] pre IH]; intros vals Hi Ha Hn; cbn [app proxy_update].
  - unfold proxy_setitem. destruct (struct_setitem E cid vals k v) as [vals'|e|] eqn:Hs.
    + apply set_assignable in Hs; [|apply Hi]. destruct Hs as [Hs _]. contradiction.
    + exists vals, (Raise e). split; auto. split; eauto.
    + exists vals, OOF. split; auto.
  - inversion Ha as [|? ? Hk Hr]; subst. cbn [fst snd] in Hk. unfold proxy_setitem.
    rewrite assignable_set by (auto; apply Hi).
    destruct (IH (dset vals a b)) as (vals' & r & Hu & Hx & He); auto; [apply dset_instance; auto|].
    exists vals', r. split; auto. split; auto. intros x. rewrite Hx, dget_dset, dget_rev_cons.
    destruct (dget (rev pre) x); auto. destruct (String.eqb a x); auto.
Qed.

Lemma proxy_eq_values n mutable cid vals o cid' vals' r :
  instance_of E cid vals -> instance_of E cid' vals' -> wraps mutable o cid' vals' ->
  proxy_eq E n mutable cid vals o = Ok r ->
  exists da db, view E n (VStruct cid vals) da /\ view E n (VStruct cid' vals') db
    /\ (comparable (VDict da) -> comparable (VDict db) -> (r = true <-> same (VDict da) (VDict db))).
Proof.
  intros Hi Hi' Hw H. inversion Hw; subst; cbn [proxy_eq] in H.
  - rewrite Bool.eqb_reflx in H.
    apply (eq_iff E n (VStruct cid vals) (VStruct cid' vals') r); cbn [mapping is_struct]; auto.
  - destruct (eq_iff E n (VStruct cid' vals') (VStruct cid vals) r) as (db & da & Vb & Va & Hr);
      cbn [mapping is_struct]; auto.
    exists da, db. split; auto. split; auto. intros Ca Cb. rewrite (Hr Cb Ca). split; apply same_sym.
Qed.

Lemma proxy_eq_others n mutable cid vals o : (forall cid' vals', ~ wraps mutable o cid' vals') ->
  proxy_eq E n mutable cid vals o = Ok false.
Proof.
  intros Hw. destruct o as [mu cid' vals'|v]; cbn [proxy_eq].
  - destruct (Bool.eqb mutable mu) eqn:Hb; auto. apply Bool.eqb_prop in Hb. subst.
    exfalso. eapply Hw. constructor.
  - destruct v; auto. exfalso. eapply Hw. constructor.
Qed.

End P.

(** Concrete cases. *)
From Verif Require Import Samples AccessWitness.

Definition proxy_vals : dict := [("a"%string, VInt 5)].
Definition proxy_E : env := [class_of "P" [named "a" (u8 (byte "a")); named "b" (u8 (byte "b"))]].

Lemma proxy_instance : instance_of proxy_E 0 proxy_vals.
Proof.
  split.
  - split; [repeat constructor; cbn; intuition discriminate|].
    split; [repeat constructor|]. intros name. cbn. tauto.
  - split; [repeat constructor; cbn; tauto|]. intros x [<-|[]]. left. auto.
Qed.

Lemma proxy_b_required n :
  struct_get proxy_E (S n) 0 proxy_vals "b" = Raise (EMissingRequired (Some "b"%string)).
Proof. reflexivity. Qed.

Lemma proxy_len_witness : ~ (forall E n cid vals z, instance_of E cid vals ->
  proxy_len E n cid vals = Ok z -> z = zlen (proxy_iter vals)).
Proof. intros H. specialize (H proxy_E 9%nat 0%nat proxy_vals 2 proxy_instance eq_refl). discriminate. Qed.

Lemma proxy_get_witness : ~ (forall E n cid vals name dflt, instance_of E cid vals ->
  In name (map fst (k_comps (cls E cid))) -> ~ In name (proxy_iter vals) ->
  proxy_get E n cid vals name dflt = Ok dflt).
Proof.
  intros H. specialize (H proxy_E 9%nat 0%nat proxy_vals "b"%string (VInt 1) proxy_instance).
  discriminate H; cbn; [auto|]. intuition discriminate.
Qed.

Lemma proxy_setdefault_witness : ~ (forall E n cid vals name v, instance_of E cid vals ->
  assignable E cid name v -> ~ In name (proxy_iter vals) ->
  snd (proxy_setdefault E n cid vals name v) = Ok v).
Proof.
  intros H. specialize (H proxy_E 9%nat 0%nat proxy_vals "b"%string (VInt 1) proxy_instance).
  discriminate H; cbn; [|intuition discriminate].
  exists (u8 (byte "b")). cbn. split; auto. split; auto. split; auto. constructor.
Qed.

Lemma proxy_dict_witness : ~ (forall E n mutable cid vals d, instance_of E cid vals ->
  py_eq E n (VStruct cid vals) (VDict d) = Ok true ->
  proxy_eq E n mutable cid vals (OValue (VDict d)) = Ok true).
Proof.
  intros H. specialize (H proxy_E 9%nat true 0%nat [("a"%string, VInt 5); ("b"%string, VInt 6)]
                          [("b"%string, VInt 6); ("a"%string, VInt 5)]).
  discriminate H; [|reflexivity].
  split; [apply proxy_instance|]. split; [repeat constructor; cbn; intuition discriminate|].
  intros x [<-|[<-|[]]]; cbn; auto.
Qed.
