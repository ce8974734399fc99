(** Struct.to_dict (C36) and what follows for dumping (C45, C46). *)
From Verif Require Import Tac.
From Verif Require Export ArrayProofs.

Lemma mapM_iff {A B} (f : A -> res B) l ys :
  mapM f l = Ok ys <-> Forall2 (fun x y => f x = Ok y) l ys.
Proof.
  revert ys. induction l as [|x l IH]; intros ys; cbn [mapM].
  - split; [intros [= <-]; auto|]. inversion 1; auto.
  - split.
    + destruct (f x) as [y|e|] eqn:Hf; try discriminate. cbn [bind].
      destruct (mapM f l) as [ys'|e|] eqn:Hm; try discriminate. cbn [bind]. intros [= <-].
      constructor; auto. apply IH; auto.
    + inversion 1 as [|? y ? ys' Hy Hys]; subst. rewrite Hy. cbn [bind].
      apply IH in Hys. rewrite Hys. auto.
Qed.

(** ** No structs remain *)
Lemma recursive_struct_free E n : forall v v',
  recursive_to_dicts E n v = Ok v' -> struct_free v'.
Proof.
  induction n as [|n IH]; intros v v' H; [discriminate|].
  assert (Hd : forall d d', mapM (fun kv : string * value =>
      do v <- recursive_to_dicts E n (snd kv); Ok (fst kv, v)) d = Ok d' ->
      Forall (fun kv => struct_free (snd kv)) d').
  { intros d d' Hm. apply mapM_iff in Hm. induction Hm as [|kv kv' d d' Hk _ IHm]; constructor; auto.
    destruct (recursive_to_dicts E n (snd kv)) as [w|e|] eqn:Hw; try discriminate.
    injection Hk as <-. cbn [snd]. eauto. }
  destruct v; cbn [recursive_to_dicts] in H; try (injection H as <-; apply free_scalar; exact I).
  - destruct (mapM (recursive_to_dicts E n) l) as [l'|e|] eqn:Hm; try discriminate.
    injection H as <-. apply free_list. apply mapM_iff in Hm. induction Hm; constructor; eauto.
  - destruct (mapM _ d) as [d'|e|] eqn:Hm; try discriminate.
    injection H as <-. apply free_dict. eauto.
  - destruct (to_dict_whatever_possible E n cid d) as [w|e|]; try discriminate. cbn [bind] in H.
    destruct (missing_values (comps E cid) w) as [u|e|]; try discriminate. cbn [bind] in H.
    destruct (drop_discard (comps E cid) (dupdate w u)) as [r|e|]; try discriminate. cbn [bind] in H.
    destruct (mapM _ r) as [d'|e|] eqn:Hm; try discriminate.
    injection H as <-. apply free_dict. eauto.
Qed.

Lemma dicts_of_iff E n d d' :
  dicts_of E n d = Ok d'
  <-> Forall2 (fun kv kv' => fst kv' = fst kv /\ recursive_to_dicts E n (snd kv) = Ok (snd kv')) d d'.
Proof.
  unfold dicts_of.
  split; intros H; [apply mapM_iff in H|apply mapM_iff]; eapply forall2_impl; try exact H; clear H.
  - intros [k v] [k' v']. cbn [fst snd]. destruct (recursive_to_dicts E n v) as [w|e|]; cbn [bind]; try discriminate.
    intros [= <- <-]. auto.
  - intros [k v] [k' v']. cbn [fst snd]. intros [-> ->]. auto.
Qed.

Lemma dicts_of_keys E n d d' : dicts_of E n d = Ok d' -> dkeys d' = dkeys d.
Proof.
  intros H. apply dicts_of_iff in H. unfold dkeys.
  induction H as [|kv kv' d d' [Hk _] _ IH]; cbn [map]; auto. congruence.
Qed.

Lemma dicts_of_get E n d d' : dicts_of E n d = Ok d' -> forall name,
  match dget d name with
  | Some v => exists v', recursive_to_dicts E n v = Ok v' /\ dget d' name = Some v'
  | None => dget d' name = None
  end.
Proof.
  intros H name. apply dicts_of_iff in H.
  induction H as [|[k v] [k' v'] d d' [Hk Hv] _ IH]; cbn [dget]; auto.
  cbn [fst snd] in *. subst k'. destruct (String.eqb k name); eauto.
Qed.

Lemma dicts_of_free E n d d' : dicts_of E n d = Ok d' -> Forall (fun kv => struct_free (snd kv)) d'.
Proof.
  intros H. apply dicts_of_iff in H. induction H as [|kv kv' d d' [_ Hk] _ IH]; constructor; auto.
  eapply recursive_struct_free; eauto.
Qed.

Lemma to_dict_free E n cid vals keep d : to_dict E n cid vals keep = Ok d ->
  Forall (fun kv => struct_free (snd kv)) d.
Proof.
  unfold to_dict. destruct (to_dict_whatever_possible E n cid vals) as [w|e|]; try discriminate. cbn [bind].
  destruct (missing_values (comps E cid) w) as [u|e|]; try discriminate. cbn [bind].
  destruct (if keep then _ else _) as [r|e|]; try discriminate. cbn [bind].
  apply dicts_of_free.
Qed.

(** ** The values *)
Definition bound (fs : list (string * field)) : Prop :=
  NoDup (map fst fs) /\ Forall (fun nf => c_name (conf (snd nf)) = Some (fst nf)) fs.

Lemma bound_cname fs name f : bound fs -> In (name, f) fs -> cname f = name.
Proof.
  intros [_ Hn] Hi. rewrite Forall_forall in Hn. specialize (Hn _ Hi). cbn [fst snd] in Hn.
  unfold cname, name_of. rewrite Hn. auto.
Qed.

Lemma bound_tail nf fs : bound (nf :: fs) -> bound fs.
Proof.
  intros [H1 H2]. inversion H1; inversion H2; subst. split; auto.
Qed.

Lemma bound_head name f fs : bound ((name, f) :: fs) -> ~ In name (map fst fs).
Proof. intros [H1 _]. inversion H1; auto. Qed.

Lemma nodup_snoc {A} (l : list A) x : NoDup l -> ~ In x l -> NoDup (l ++ [x]).
Proof.
  induction l as [|y l IH]; cbn [app]; intros Hn Hi.
  - constructor; auto.
  - inversion Hn as [|? ? Hy Hl]; subst. constructor.
    + rewrite in_app_iff. intros [H|[H|[]]]; [contradiction|]. apply Hi. left; auto.
    + apply IH; auto. intros H. apply Hi. right; auto.
Qed.

Lemma nodup_app {A} (l1 l2 : list A) : NoDup l1 -> NoDup l2 -> (forall x, In x l1 -> ~ In x l2) ->
  NoDup (l1 ++ l2).
Proof.
  induction l1 as [|x l1 IH]; cbn [app]; auto. intros H1 H2 Hd.
  inversion H1 as [|? ? Hx Hl]; subst. constructor.
  - rewrite in_app_iff. intros [H|H]; [contradiction|]. apply (Hd x); auto. left; auto.
  - apply IH; auto. intros y Hy. apply Hd. right; auto.
Qed.

Lemma nodup_dset d name v : NoDup (dkeys d) -> NoDup (dkeys (dset d name v)).
Proof.
  intros H. rewrite dkeys_dset. destruct (dmem d name) eqn:Hm; auto.
  apply nodup_snoc; auto. intros Hi. apply dmem_in in Hi. congruence.
Qed.

Lemma dget_in d name : In name (dkeys d) <-> exists v, dget d name = Some v.
Proof.
  destruct (dget d name) eqn:H.
  - split; eauto. intros _. apply dmem_in. unfold dmem. rewrite H. auto.
  - apply dget_none in H. split; [tauto|]. intros [v Hv]. discriminate.
Qed.

Lemma possible_values_spec E n cid vals fs : forall dct d', bound fs ->
  possible_values E n cid vals fs dct = Ok d' ->
  (NoDup (dkeys dct) -> NoDup (dkeys d'))
  /\ (forall name, ~ In name (map fst fs) -> dget d' name = dget dct name)
  /\ forall name f, In (name, f) fs ->
       match run_struct E n cid vals (compute_value_for_dump (conf f) VNone) with
       | Ok v => dget d' name = Some v
       | Raise e => is_binobj_Error e = true /\ dget d' name = dget dct name
       | OOF => False
       end.
Proof.
  induction fs as [|[nm f] fs IH]; intros dct d' Hb H; cbn [possible_values] in H.
  - injection H as <-. split; auto. split; auto. intros ? ? [].
  - pose proof (bound_cname _ nm f Hb (or_introl eq_refl)) as Hcn.
    pose proof (bound_head _ _ _ Hb) as Hni. rewrite Hcn in H.
    destruct (run_struct E n cid vals (compute_value_for_dump (conf f) VNone)) as [v|e|] eqn:Hr; [| |discriminate].
    + apply IH in H; [|eapply bound_tail; eauto]. destruct H as (H1 & H2 & H3).
      split; [intros Hnd; apply H1; apply nodup_dset; auto|]. split.
      * intros name Hn. cbn [map fst In] in Hn. rewrite H2 by tauto. rewrite dget_dset.
        destruct (String.eqb_spec nm name); auto. destruct Hn; auto.
      * intros name g [[= <- <-]|Hi].
        -- rewrite Hr, H2 by auto. rewrite dget_dset, String.eqb_refl. auto.
        -- specialize (H3 name g Hi). destruct (run_struct E n cid vals (compute_value_for_dump (conf g) VNone)); auto.
           destruct H3 as [H3 H4]. split; auto. rewrite H4, dget_dset.
           destruct (String.eqb_spec nm name); auto. subst. destruct Hni.
           apply (in_map fst) in Hi. exact Hi.
    + destruct (is_binobj_Error e) eqn:He; [|discriminate].
      apply IH in H; [|eapply bound_tail; eauto]. destruct H as (H1 & H2 & H3).
      split; auto. split; [intros name Hn; apply H2; intros Hi; apply Hn; right; auto|].
      intros name g [[= <- <-]|Hi]; [|apply H3; auto]. rewrite Hr. auto.
Qed.

Lemma struct_keys_in vals name : NoDup (dkeys vals) ->
  In name (struct_keys vals) <-> exists v, dget vals name = Some v /\ v <> VUndefined.
Proof.
  intros Hnd. unfold struct_keys. rewrite in_map_iff. split.
  - intros ([k v] & Hk & Hi). cbn [fst] in Hk. subst k. apply filter_In in Hi. destruct Hi as [Hi Hu].
    exists v. rewrite dget_assoc. rewrite (in_assoc _ _ _ Hnd Hi). split; auto. intros ->. discriminate.
  - intros (v & Hv & Hu). exists (name, v). split; auto. apply filter_In. rewrite dget_assoc in Hv.
    apply assoc_in in Hv. split; auto. destruct v; auto.
Qed.

Lemma struct_mem_in vals name : struct_mem vals name = true <-> In name (struct_keys vals).
Proof.
  unfold struct_mem. rewrite existsb_exists. split.
  - intros (x & Hx & He). apply String.eqb_eq in He. subst. auto.
  - intros Hi. exists name. split; auto. apply String.eqb_refl.
Qed.

Lemma struct_keys_nodup vals : NoDup (dkeys vals) -> NoDup (struct_keys vals).
Proof. apply nodup_filter_keys. Qed.

Lemma struct_get_stored E n cid vals name f v : assoc (comps E cid) name = Some f ->
  c_name (conf f) = Some name -> dget vals name = Some v -> struct_get E n cid vals name = Ok v.
Proof.
  intros Hf Hn Hv. destruct n; cbn [struct_get]; rewrite Hf; unfold name_of; rewrite Hn; cbn [oget]; rewrite Hv; auto.
Qed.

Lemma well_formed_bound k : well_formed k -> bound (k_comps k).
Proof. intros (H1 & H2 & _). split; auto. Qed.

Lemma bound_assoc fs name f : bound fs -> In (name, f) fs ->
  assoc fs name = Some f /\ c_name (conf f) = Some name.
Proof.
  intros [H1 H2] Hi. split; [apply in_assoc; auto|].
  rewrite Forall_forall in H2. apply (H2 _ Hi).
Qed.

Lemma whatever_spec E n cid vals w : instance_of E cid vals ->
  to_dict_whatever_possible E n cid vals = Ok w ->
  NoDup (dkeys w) /\ incl (dkeys w) (map fst (comps E cid))
  /\ forall name f, In (name, f) (comps E cid) ->
       match run_struct E n cid vals (compute_value_for_dump (conf f) VNone) with
       | Ok v => dget w name = Some v
       | Raise e => is_binobj_Error e = true
                    /\ dget w name = if struct_mem vals name then dget vals name else None
       | OOF => False
       end.
Proof.
  intros (Hwf & Hnd & Hincl) H. pose proof (well_formed_bound _ Hwf) as Hb.
  change (k_comps (cls E cid)) with (comps E cid) in *.
  unfold to_dict_whatever_possible in H.
  destruct (possible_values E n cid vals (comps E cid) []) as [dct|e|] eqn:Hp; try discriminate.
  cbn [bind] in H.
  apply possible_values_spec in Hp; auto. destruct Hp as (Hp1 & Hp2 & Hp3).
  destruct (mapM _ (struct_keys vals)) as [first|e|] eqn:Hm; try discriminate. cbn [bind] in H.
  injection H as <-. apply mapM_iff in Hm.
  assert (Hval : forall name, In name (struct_keys vals) ->
     exists f v, In (name, f) (comps E cid) /\ dget vals name = Some v /\ struct_get E n cid vals name = Ok v).
  { intros name Hi. apply struct_keys_in in Hi; auto. destruct Hi as (v & Hv & _).
    assert (Hk : In name (dkeys vals)) by (apply dget_in; eauto). apply Hincl in Hk.
    apply in_map_iff in Hk. destruct Hk as ([k f] & Hk & Hi). cbn [fst] in Hk. subst k.
    destruct (bound_assoc _ _ _ Hb Hi) as [Ha Hn].
    exists f, v. split; auto. split; auto. eapply struct_get_stored; eauto. }
  assert (Hkeys : dkeys first = struct_keys vals).
  { clear Hval. unfold dkeys. induction Hm as [|k kv ks first Hk _ IH]; cbn [map]; auto.
    f_equal; auto. destruct (dget dct k) as [v|]; [injection Hk as <-; auto|].
    destruct (struct_get E n cid vals k); try discriminate. injection Hk as <-. auto. }
  assert (Hget : forall name, In name (struct_keys vals) ->
     dget first name = match dget dct name with Some v => Some v | None => dget vals name end).
  { intros name Hi. clear Hkeys. revert Hm Hi.
    assert (Hin : incl (struct_keys vals) (struct_keys vals)) by apply incl_refl. revert Hin.
    generalize (struct_keys vals) at 1 3 4 as ks. intros ks Hin Hm. revert Hin.
    induction Hm as [|k kv ks first Hk _ IH]; intros Hin Hi; [destruct Hi|].
    destruct kv as [k' v]. assert (k' = k).
    { destruct (dget dct k); [injection Hk as -> _; auto|].
      destruct (struct_get E n cid vals k); try discriminate. injection Hk as -> _. auto. }
    subst k'. cbn [dget]. destruct (String.eqb_spec k name) as [->|Hne].
    - destruct (dget dct name); [injection Hk as <-; auto|].
      destruct (Hval name) as (f & v0 & _ & Hv & Hg); [apply Hin; left; auto|].
      rewrite Hg in Hk. injection Hk as <-. auto.
    - destruct Hi as [->|Hi]; [contradiction|]. apply IH; auto. intros x Hx. apply Hin. right; auto. }
  assert (Hrest : forall name, dget (filter (fun kv => negb (struct_mem vals (fst kv))) dct) name
                  = if negb (struct_mem vals name) then dget dct name else None).
  { intros name. apply (dget_filter_key (fun k => negb (struct_mem vals k))). }
  assert (Hfirst : forall name, struct_mem vals name = false -> dget first name = None).
  { intros name Hmem. apply dget_none. rewrite Hkeys. intros Hi. apply struct_mem_in in Hi. congruence. }
  assert (Hall : forall name, dget (first ++ filter (fun kv => negb (struct_mem vals (fst kv))) dct) name
     = match dget dct name with Some v => Some v
       | None => if struct_mem vals name then dget vals name else None end).
  { intros name. rewrite dget_app, Hrest. destruct (struct_mem vals name) eqn:Hmem; cbn [negb].
    - rewrite Hget by (apply struct_mem_in; auto). destruct (dget dct name); auto. destruct (dget vals name); auto.
    - rewrite Hfirst by auto. destruct (dget dct name); auto. }
  split; [|split].
  - unfold dkeys. rewrite map_app. fold (dkeys first). rewrite Hkeys.
    apply nodup_app; [apply struct_keys_nodup; auto|apply nodup_filter_keys; apply Hp1; constructor|].
    intros x Hx Hy. apply in_map_iff in Hy. destruct Hy as ([k v] & Hk & Hy). cbn [fst] in Hk. subst k.
    apply filter_In in Hy. destruct Hy as [_ Hy]. cbn [fst] in Hy. apply struct_mem_in in Hx. rewrite Hx in Hy. discriminate.
  - intros name Hi. apply dget_in in Hi. destruct Hi as [v Hv]. rewrite Hall in Hv.
    destruct (in_dec String.string_dec name (map fst (comps E cid))) as [|Hno]; auto.
    rewrite Hp2 in Hv by auto. cbn [dget] in Hv. apply Hincl. apply dget_in.
    destruct (struct_mem vals name); [eauto|discriminate].
  - intros name f Hi. specialize (Hp3 name f Hi). rewrite Hall.
    destruct (run_struct E n cid vals (compute_value_for_dump (conf f) VNone)) as [v|e|]; auto.
    + rewrite Hp3. auto.
    + destruct Hp3 as [He Hd]. split; auto. rewrite Hd. auto.
Qed.

Lemma dupdate_spec upd : forall d, NoDup (dkeys d) -> NoDup (dkeys upd) ->
  (forall name, In name (dkeys upd) -> ~ In name (dkeys d)) ->
  dupdate d upd = d ++ upd.
Proof.
  unfold dupdate. induction upd as [|[k v] upd IH]; intros d Hd Hu Hdis; cbn [fold_left].
  - rewrite app_nil_r. auto.
  - cbn [fst snd]. inversion Hu as [|? ? Hk Hu']; subst.
    assert (Hkd : ~ In k (dkeys d)) by (apply Hdis; left; auto).
    rewrite dset_new by auto. rewrite IH.
    + rewrite <- app_assoc. auto.
    + unfold dkeys. rewrite map_app. cbn [map fst]. apply nodup_snoc; auto.
    + auto.
    + intros name Hi Hin. unfold dkeys in Hin. rewrite map_app, in_app_iff in Hin. cbn [map fst In] in Hin.
      destruct Hin as [Hin|[->|[]]]; [|contradiction]. apply (Hdis name); auto. right; auto.
Qed.

Lemma missing_keys fs w upd : bound fs -> missing_values fs w = Ok upd ->
  NoDup (dkeys upd)
  /\ (forall name, In name (dkeys upd) <-> In name (map fst fs) /\ ~ In name (dkeys w))
  /\ (forall name f, In (name, f) fs -> dget w name = None ->
       exists v, run_dict w (compute_value_for_dump (conf f) VNone) = Ok v /\ dget upd name = Some v).
Proof.
  unfold missing_values. intros Hb H. apply mapM_iff in H. revert upd Hb H.
  induction fs as [|[nm f] fs IH]; intros upd Hb H; cbn [filter] in H.
  - inversion H; subst. split; [constructor|]. split; [|intros ? ? []].
    intros name. cbn. tauto.
  - pose proof (bound_cname _ nm f Hb (or_introl eq_refl)) as Hcn.
    pose proof (bound_head _ _ _ Hb) as Hni. cbn [snd] in H. rewrite Hcn in H.
    destruct (dmem w nm) eqn:Hm; cbn [negb] in H.
    + apply IH in H; [|eapply bound_tail; eauto]. destruct H as (H1 & H2 & H3). split; auto. split.
      * intros name. rewrite H2. cbn [map fst In]. apply dmem_in in Hm. split; [tauto|].
        intros [[->|Hi] Hn]; [contradiction|auto].
      * intros name g [[= <- <-]|Hi] Hw; [|apply H3; auto]. unfold dmem in Hm. rewrite Hw in Hm. discriminate.
    + revert Hcn. inversion H as [|? kv ? upd' Hv Hrest]; subst. intros Hcn. cbn [snd] in Hv. rewrite Hcn in Hv.
      destruct (run_dict w (compute_value_for_dump (conf f) VNone)) as [v|e|] eqn:Hr; try discriminate.
      injection Hv as <-. apply IH in Hrest; [|eapply bound_tail; eauto]. destruct Hrest as (H1 & H2 & H3).
      split; [|split].
      * cbn [dkeys map fst]. constructor; auto. intros Hi. apply H2 in Hi. tauto.
      * intros name. cbn [dkeys map fst In]. change (map fst upd') with (dkeys upd'). rewrite H2.
        assert (Hw : ~ In nm (dkeys w)) by (intros Hi; apply dmem_in in Hi; congruence).
        split; [intros [<-|]; tauto|]. tauto.
      * intros name g [[= <- <-]|Hi] Hw.
        -- exists v. cbn [dget]. rewrite String.eqb_refl. auto.
        -- destruct (H3 name g Hi Hw) as (v' & Hv' & Hg). exists v'. split; auto. cbn [dget].
           destruct (String.eqb_spec nm name); auto. subst. apply (in_map fst) in Hi. contradiction.
Qed.

Lemma filter_true {A} (l : list A) : filter (fun _ => true) l = l.
Proof. induction l as [|x l IH]; cbn [filter]; congruence. Qed.

Lemma drop_discard_filter fs : forall d d', bound fs -> NoDup (dkeys d) ->
  drop_discard fs d = Ok d' -> d' = filter (fun kv => negb (discarded fs (fst kv))) d.
Proof.
  induction fs as [|[nm f] fs IH]; intros d d' Hb Hnd H; cbn [drop_discard] in H.
  - injection H as <-. symmetry. apply (filter_true d).
  - pose proof (bound_cname _ nm f Hb (or_introl eq_refl)) as Hcn. rewrite Hcn in H.
    unfold discarded. cbn [existsb fst snd].
    destruct (c_discard (conf f)) eqn:Hdis.
    + destruct (dmem d nm); [|discriminate]. apply IH in H; [|eapply bound_tail; eauto|].
      * subst d'. rewrite ddel_filter by auto. fold (discarded fs).
        clear IH. induction d as [|[k v] d IHd]; cbn [filter]; auto. cbn [fst].
        clear Hcn. inversion Hnd; subst. rewrite (String.eqb_sym nm k), andb_true_r.
        destruct (String.eqb k nm); cbn [negb orb filter]; [apply IHd; auto|].
        cbn [fst]. unfold discarded at 1. destruct (existsb _ fs) ; cbn [negb]; rewrite IHd; auto.
      * rewrite ddel_filter by auto. apply nodup_filter_keys. auto.
    + apply IH in H; auto; [|eapply bound_tail; eauto]. subst d'. apply filter_ext. intros [k v].
      cbn [fst]. rewrite andb_false_r. auto.
Qed.

(** Everything to_dict does before the recursive conversion: [w] is what could be computed
    from the struct itself, [raw] has every field. *)
Lemma to_dict_spec E n cid vals keep d : instance_of E cid vals ->
  to_dict E n cid vals keep = Ok d ->
  exists w, to_dict_whatever_possible E n cid vals = Ok w /\
    exists raw, dicts_of E n raw = Ok d /\ NoDup (dkeys raw)
    /\ (forall name, In name (dkeys raw) <-> In name (map fst (comps E cid))
                     /\ (keep = true \/ discarded (comps E cid) name = false))
    /\ forall name f v, In (name, f) (comps E cid) -> dget raw name = Some v ->
         dget w name = Some v
         \/ (dget w name = None /\ run_dict w (compute_value_for_dump (conf f) VNone) = Ok v).
Proof.
  intros Hi H. pose proof Hi as (Hwf & Hnd & Hincl). pose proof (well_formed_bound _ Hwf) as Hb.
  change (k_comps (cls E cid)) with (comps E cid) in *. unfold to_dict in H.
  destruct (to_dict_whatever_possible E n cid vals) as [w|e|] eqn:Hw; try discriminate. cbn [bind] in H.
  exists w. split; auto. apply whatever_spec in Hw; auto. destruct Hw as (Hw1 & Hw2 & Hw3).
  destruct (missing_values (comps E cid) w) as [upd|e|] eqn:Hm; try discriminate. cbn [bind] in H.
  apply missing_keys in Hm; auto. destruct Hm as (Hm1 & Hm2 & Hm3).
  rewrite dupdate_spec in H by (auto; intros name Hn; apply Hm2; auto).
  assert (Hall : NoDup (dkeys (w ++ upd))).
  { unfold dkeys. rewrite map_app. apply nodup_app; auto. intros x Hx Hy. apply Hm2 in Hy. tauto. }
  assert (Hkeys : forall name, In name (dkeys (w ++ upd)) <-> In name (map fst (comps E cid))).
  { intros name. unfold dkeys. rewrite map_app, in_app_iff. change (map fst upd) with (dkeys upd).
    rewrite Hm2. change (map fst w) with (dkeys w). split.
    - intros [Hx|[Hx _]]; auto.
    - intros Hx. destruct (in_dec String.string_dec name (dkeys w)); auto. }
  assert (Hvals : forall name f v, In (name, f) (comps E cid) -> dget (w ++ upd) name = Some v ->
         dget w name = Some v
         \/ (dget w name = None /\ run_dict w (compute_value_for_dump (conf f) VNone) = Ok v)).
  { intros name f v Hin Hv. rewrite dget_app in Hv. destruct (dget w name) eqn:Hg; [left; auto|].
    right. split; auto. destruct (Hm3 name f Hin Hg) as (v' & Hr & Hu). congruence. }
  destruct keep.
  - cbn [bind] in H. exists (w ++ upd). split; auto. split; auto. split; auto.
    intros name. rewrite Hkeys. tauto.
  - destruct (drop_discard (comps E cid) (w ++ upd)) as [r|e|] eqn:Hd; try discriminate. cbn [bind] in H.
    apply drop_discard_filter in Hd; auto. subst r.
    exists (filter (fun kv => negb (discarded (comps E cid) (fst kv))) (w ++ upd)).
    split; auto. split; [apply nodup_filter_keys; auto|].
    assert (Hg : forall name, dget (filter (fun kv => negb (discarded (comps E cid) (fst kv))) (w ++ upd)) name
                = if negb (discarded (comps E cid) name) then dget (w ++ upd) name else None).
    { intros name. apply (dget_filter_key (fun k => negb (discarded (comps E cid) k))). }
    split.
    + intros name. rewrite dget_in, Hg, <- Hkeys, dget_in.
      destruct (discarded (comps E cid) name); cbn [negb]; split.
      * intros [v Hv]. discriminate.
      * intros [_ [Hx|Hx]]; discriminate.
      * auto.
      * tauto.
    + intros name f v Hin Hv. rewrite Hg in Hv. destruct (negb _); [|discriminate]. eauto.
Qed.

Lemma discarded_iff fs name f : bound fs -> In (name, f) fs -> discarded fs name = c_discard (conf f).
Proof.
  intros Hb Hi. unfold discarded. destruct (c_discard (conf f)) eqn:Hd.
  - apply existsb_exists. exists (name, f). cbn [fst snd]. rewrite String.eqb_refl, Hd. auto.
  - destruct (existsb _ fs) eqn:Hx; auto. apply existsb_exists in Hx.
    destruct Hx as ([k g] & Hg & Hp). cbn [fst snd] in Hp. apply andb_true_iff in Hp. destruct Hp as [Hk Hp].
    apply String.eqb_eq in Hk. subst k. destruct (bound_assoc _ _ _ Hb Hi). destruct (bound_assoc _ _ _ Hb Hg).
    congruence.
Qed.

Lemma to_dict_keys E n cid vals keep d : instance_of E cid vals ->
  to_dict E n cid vals keep = Ok d ->
  NoDup (dkeys d) /\ forall name, In name (dkeys d) <->
    exists f, In (name, f) (k_comps (cls E cid)) /\ (keep = true \/ c_discard (conf f) = false).
Proof.
  intros Hi H. destruct (to_dict_spec _ _ _ _ _ _ Hi H) as (w & _ & raw & Hr & Hnd & Hk & _).
  rewrite (dicts_of_keys _ _ _ _ Hr). split; auto. intros name. rewrite Hk.
  destruct Hi as (Hwf & _). pose proof (well_formed_bound _ Hwf) as Hb.
  change (k_comps (cls E cid)) with (comps E cid) in *. split.
  - intros [Hin Hor]. apply in_map_iff in Hin. destruct Hin as ([k f] & Hk' & Hin). cbn [fst] in Hk'. subst k.
    exists f. split; auto. rewrite (discarded_iff _ _ _ Hb Hin) in Hor. auto.
  - intros (f & Hin & Hor). split; [apply (in_map fst) in Hin; auto|].
    rewrite (discarded_iff _ _ _ Hb Hin). auto.
Qed.
