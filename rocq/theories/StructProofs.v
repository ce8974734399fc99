(** Structs: dumping, loading, prefixes (C24, C25, C28-C30). *)
From Verif Require Import Tac PyIntProofs StreamProofs.
From Verif Require Export ForwardProofs.

(** ** Dictionaries *)
Lemma assoc_in {A} (l : list (string * A)) name x : assoc l name = Some x -> In (name, x) l.
Proof.
  induction l as [|[k y] l IH]; cbn [assoc]; [discriminate|].
  destruct (String.eqb_spec k name) as [->|Hne].
  - intros [= ->]. left; auto.
  - intros H. right; auto.
Qed.

Lemma assoc_none {A} (l : list (string * A)) name :
  assoc l name = None <-> ~ In name (map fst l).
Proof.
  induction l as [|[k y] l IH]; cbn [assoc map fst In].
  - split; auto.
  - destruct (String.eqb_spec k name) as [->|Hne].
    + split; [discriminate|]. intros H. destruct H; auto.
    + rewrite IH. split; [|tauto]. intros H [->|Hi]; auto.
Qed.

Lemma in_assoc {A} (l : list (string * A)) name x :
  NoDup (map fst l) -> In (name, x) l -> assoc l name = Some x.
Proof.
  induction l as [|[k y] l IH]; cbn [assoc map fst In]; [tauto|].
  intros Hnd Hin. inversion Hnd as [|? ? Hni Hnd']; subst.
  destruct Hin as [[= -> ->]|Hin].
  - rewrite String.eqb_refl. auto.
  - destruct (String.eqb_spec k name) as [->|Hne]; auto.
    destruct Hni. apply (in_map fst) in Hin. exact Hin.
Qed.

Lemma dget_assoc d name : dget d name = assoc d name.
Proof. induction d as [|[k v] d IH]; cbn [dget assoc]; auto. rewrite IH. auto. Qed.

Lemma dget_none d name : dget d name = None <-> ~ In name (dkeys d).
Proof. rewrite dget_assoc. apply assoc_none. Qed.

Lemma dmem_in d name : dmem d name = true <-> In name (dkeys d).
Proof.
  unfold dmem. destruct (dget d name) eqn:H.
  - split; auto. intros _. rewrite dget_assoc in H. apply assoc_in in H.
    apply (in_map fst) in H. exact H.
  - split; [discriminate|]. intros Hi. apply dget_none in H. contradiction.
Qed.

Lemma dget_app d1 d2 name :
  dget (d1 ++ d2) name = match dget d1 name with Some v => Some v | None => dget d2 name end.
Proof.
  induction d1 as [|[k v] d1 IH]; cbn [dget app]; auto. destruct (String.eqb k name); auto.
Qed.

Lemma dset_new d name v : ~ In name (dkeys d) -> dset d name v = d ++ [(name, v)].
Proof.
  induction d as [|[k w] d IH]; cbn [dset dkeys map fst In app]; auto. intros H.
  destruct (String.eqb_spec k name) as [->|Hne]; [destruct H; auto|]. rewrite IH; auto.
Qed.

Lemma dkeys_dset d name v :
  dkeys (dset d name v) = if dmem d name then dkeys d else dkeys d ++ [name].
Proof.
  induction d as [|[k w] d IH]; [reflexivity|]. cbn [dset]. unfold dmem in *. cbn [dget].
  destruct (String.eqb_spec k name) as [->|Hne]; [reflexivity|].
  unfold dkeys in *. cbn [map fst]. rewrite IH. destruct (dget d name); reflexivity.
Qed.

Lemma dget_dset d name v x :
  dget (dset d name v) x = if String.eqb name x then Some v else dget d x.
Proof.
  induction d as [|[k w] d IH]; cbn [dset dget].
  - destruct (String.eqb name x); auto.
  - destruct (String.eqb_spec k name) as [->|Hne]; cbn [dget].
    + destruct (String.eqb_spec name x); auto.
    + rewrite IH. destruct (String.eqb_spec k x) as [->|Hkx]; auto.
      destruct (String.eqb_spec name x) as [->|]; auto. congruence.
Qed.

Lemma ddel_filter d name : NoDup (dkeys d) ->
  ddel d name = filter (fun kv => negb (String.eqb (fst kv) name)) d.
Proof.
  induction d as [|[k w] d IH]; cbn [ddel filter fst]; auto. intros Hnd.
  inversion Hnd as [|? ? Hni Hnd']; subst.
  destruct (String.eqb_spec k name) as [->|Hne]; cbn [negb]; [|rewrite IH; auto].
  clear IH Hnd Hnd'. cbn [fst] in Hni.
  induction d as [|[k' w'] d IH]; cbn [filter fst]; auto.
  cbn [map fst In] in Hni. destruct (String.eqb_spec k' name) as [->|]; [destruct Hni; left; auto|].
  cbn [negb]. rewrite <- IH; [reflexivity|intros Hi; apply Hni; right; exact Hi].
Qed.

Lemma nodup_filter_keys (p : string * value -> bool) d : NoDup (dkeys d) -> NoDup (dkeys (filter p d)).
Proof.
  induction d as [|kv d IH]; cbn [filter]; auto. unfold dkeys in *. cbn [map].
  intros Hnd. inversion Hnd as [|? ? Hni Hnd']; subst. destruct (p kv); auto.
  cbn [map]. constructor; auto. intros Hi. apply Hni.
  apply in_map_iff in Hi. destruct Hi as (y & Hy & Hi). apply filter_In in Hi.
  apply in_map_iff. exists y. tauto.
Qed.

Lemma dget_filter_key (p : string -> bool) d name :
  dget (filter (fun kv => p (fst kv)) d) name = if p name then dget d name else None.
Proof.
  induction d as [|[k v] d IH]; cbn [filter fst dget].
  - destruct (p name); auto.
  - destruct (p k) eqn:Hp; cbn [dget]; rewrite IH.
    + destruct (String.eqb_spec k name) as [->|]; auto. rewrite Hp. auto.
    + destruct (String.eqb_spec k name) as [->|]; auto. rewrite Hp. auto.
Qed.

(** ** Validation (C24) *)
Section Struct.
Variable E : env.

Lemma method_validators_iff n cid vals qs v :
  run_method_validators E n cid vals qs v = Ok tt
  <-> Forall (fun q => run_struct E n cid vals (q v) = Ok tt) qs.
Proof.
  induction qs as [|q qs IH]; cbn [run_method_validators].
  - split; auto.
  - destruct (run_struct E n cid vals (q v)) as [[]|e|] eqn:H; cbn [bind].
    + rewrite IH. split; [auto|]. intros Hf. inversion Hf; auto.
    + split; [discriminate|]. intros Hf. inversion Hf; congruence.
    + split; [discriminate|]. intros Hf. inversion Hf; congruence.
Qed.

Lemma validate_fields_iff n cid vals fvs :
  validate_fields E n cid vals fvs = Ok tt
  <-> forall name methods, In (name, methods) fvs ->
      exists f v, assoc (comps E cid) name = Some f /\ struct_get E n cid vals name = Ok v
        /\ accepts (conf f) v
        /\ Forall (fun q => run_struct E n cid vals (q v) = Ok tt) methods.
Proof.
  induction fvs as [|[nm ms] fvs IH]; cbn [validate_fields In].
  - split; [tauto|auto].
  - destruct (assoc (comps E cid) nm) as [f|] eqn:Ha.
    2: { split; [discriminate|]. intros H. destruct (H nm ms (or_introl eq_refl)) as (f & v & Hf & _).
         congruence. }
    destruct (struct_get E n cid vals nm) as [v|e|] eqn:Hg; cbn [bind].
    2, 3: split; [discriminate|]; intros H;
          destruct (H nm ms (or_introl eq_refl)) as (f' & v' & _ & Hv & _); congruence.
    destruct (run_validators (c_validators (conf f)) v) as [[]|e|] eqn:Hv; cbn [bind].
    2, 3: split; [discriminate|]; intros H;
          destruct (H nm ms (or_introl eq_refl)) as (f' & v' & Hf & Hv' & Hacc & _);
          apply accepts_run in Hacc; congruence.
    destruct (run_method_validators E n cid vals ms v) as [[]|e|] eqn:Hm; cbn [bind].
    2, 3: split; [discriminate|]; intros H;
          destruct (H nm ms (or_introl eq_refl)) as (f' & v' & Hf & Hv' & _ & Hms);
          rewrite Hg in Hv'; injection Hv' as <-; apply method_validators_iff in Hms; congruence.
    rewrite IH. split.
    + intros H name methods [[= <- <-]|Hin]; auto.
      exists f, v. repeat split; auto; [apply run_accepts; auto|apply method_validators_iff; auto].
    + intros H name methods Hin. apply H; auto.
Qed.

Lemma struct_validators_iff n cid vals qs :
  run_struct_validators E n cid vals qs = Ok tt
  <-> Forall (fun q => run_struct E n cid vals q = Ok tt) qs.
Proof.
  induction qs as [|q qs IH]; cbn [run_struct_validators].
  - split; auto.
  - destruct (run_struct E n cid vals q) as [[]|e|] eqn:H; cbn [bind].
    + rewrite IH. split; [auto|]. intros Hf. inversion Hf; auto.
    + split; [discriminate|]. intros Hf. inversion Hf; congruence.
    + split; [discriminate|]. intros Hf. inversion Hf; congruence.
Qed.

Lemma validate_contents_iff n cid vals :
  validate_contents E n cid vals = Ok tt <-> validated E n cid vals.
Proof.
  unfold validate_contents, validated. rewrite <- struct_validators_iff.
  change (k_comps (cls E cid)) with (comps E cid).
  destruct (validate_fields E n cid vals (k_fvals (cls E cid))) as [[]|e|] eqn:H; cbn [bind].
  - pose proof (proj1 (validate_fields_iff _ _ _ _) H). tauto.
  - split; [discriminate|]. intros [Hf _]. apply validate_fields_iff in Hf. congruence.
  - split; [discriminate|]. intros [Hf _]. apply validate_fields_iff in Hf. congruence.
Qed.

(** ** Dumping (C28) *)
Lemma dbind_ok_inv {A B} (m : dumped A) (k : A -> dumped B) out b :
  dbind m k = (out, Ok b) ->
  exists o1 a o2, m = (o1, Ok a) /\ k a = (o2, Ok b) /\ out = o1 ++ o2.
Proof.
  destruct m as [o1 [a|e|]]; cbn [dbind]; try discriminate.
  destruct (k a) as [o2 r] eqn:Hk. intros [= <- ->]. exists o1, a, o2. auto.
Qed.

Lemma dump_fields_ok n fs ctx d : forall out,
  dump_fields (do_dump E n) fs ctx d = (out, Ok tt)
  <-> exists parts, Forall2 (field_part E n ctx d) fs parts /\ out = concat parts.
Proof.
  induction fs as [|[nm f] fs IH]; intros out; cbn [dump_fields].
  - unfold dret. split.
    + intros [= <-]. exists []. split; auto.
    + intros (parts & Hp & ->). inversion Hp; subst. reflexivity.
  - split.
    + intros H. apply dbind_dlift_inv in H. destruct H as (v & Hv & H).
      apply dbind_ok_inv in H. destruct H as (o1 & [] & o2 & H1 & H2 & ->).
      apply IH in H2. destruct H2 as (parts & Hp & ->).
      exists (o1 :: parts). split; [|reflexivity]. constructor; auto.
      exists v. cbn [snd]. split; auto.
      destruct v; cbn [is_not_present] in H1; try (right; split; [discriminate|exact H1]).
      left. unfold dret in H1. split; congruence.
    + intros (parts & Hp & ->). inversion Hp as [|? o1 ? ps Hpart Hps]; subst.
      destruct Hpart as (v & Hv & Hor). cbn [snd] in *. rewrite Hv, dbind_ok.
      cbn [concat].
      assert (H2 : dump_fields (do_dump E n) fs ctx d = (concat ps, Ok tt)) by (apply IH; eauto).
      destruct Hor as [(-> & ->)|(Hnp & Hf)].
      * cbn [is_not_present]. rewrite dbind_dret. exact H2.
      * replace (is_not_present v) with false by (destruct v; auto; congruence).
        unfold field_to_stream in Hf. rewrite Hf. cbn [dbind]. rewrite H2. reflexivity.
Qed.

Lemma dump_fields_fail n fs ctx d : forall out r, is_ok r = false ->
  dump_fields (do_dump E n) fs ctx d = (out, r) ->
  exists pre nf post parts, fs = pre ++ nf :: post /\ Forall2 (field_part E n ctx d) pre parts
    /\ out = concat parts /\ field_fails E n ctx d nf r.
Proof.
  induction fs as [|[nm f] fs IH]; intros out r Hr H; cbn [dump_fields] in H.
  - unfold dret in H. injection H as _ <-. discriminate.
  - destruct (run_dict d (compute_value_for_dump (conf f) ctx)) as [v|e|] eqn:Hv.
    2: { rewrite dbind_raise in H. injection H as <- <-.
         exists [], (nm, f), fs, []. repeat split; auto. cbn [snd]. rewrite Hv. auto. }
    2: { rewrite dbind_oof in H. injection H as <- <-.
         exists [], (nm, f), fs, []. repeat split; auto. cbn [snd]. rewrite Hv. auto. }
    rewrite dbind_ok in H.
    assert (Hrest : forall o1, field_part E n ctx d (nm, f) o1 ->
       (let '(o2, r2) := dump_fields (do_dump E n) fs ctx d in (o1 ++ o2, r2)) = (out, r) ->
       exists pre nf post parts, (nm, f) :: fs = pre ++ nf :: post
         /\ Forall2 (field_part E n ctx d) pre parts
         /\ out = concat parts /\ field_fails E n ctx d nf r).
    { intros o1 Hpart Ho. destruct (dump_fields (do_dump E n) fs ctx d) as [o2 r2] eqn:H2.
      injection Ho as <- <-. destruct (IH _ _ Hr eq_refl) as (pre & nf & post & parts & -> & Hp & -> & Hff).
      exists ((nm, f) :: pre), nf, post, (o1 :: parts). repeat split; auto; apply Hff. }
    destruct (is_not_present v) eqn:Hnp.
    + destruct v; try discriminate. apply (Hrest []).
      * exists VNotPresent. split; auto.
      * rewrite dbind_dret in H. destruct (dump_fields (do_dump E n) fs ctx d). exact H.
    + destruct (field_to_stream_with (do_dump E n) f v ctx d) as [o1 r1] eqn:Hf.
      assert (Hvn : v <> VNotPresent) by (intros ->; discriminate).
      destruct r1 as [[]|e|].
      * cbn [dbind] in H. apply (Hrest o1); [|exact H]. exists v. split; auto.
      * cbn [dbind] in H. injection H as <- <-.
        assert (o1 = []) by (eapply field_dump_atomic; [unfold field_to_stream; exact Hf|auto]). subst.
        exists [], (nm, f), fs, []. repeat split; auto. cbn [snd]. rewrite Hv. split; auto.
        unfold field_to_stream. rewrite Hf. auto.
      * cbn [dbind] in H. injection H as <- <-.
        assert (o1 = []) by (eapply field_dump_atomic; [unfold field_to_stream; exact Hf|auto]). subst.
        exists [], (nm, f), fs, []. repeat split; auto. cbn [snd]. rewrite Hv. split; auto.
        unfold field_to_stream. rewrite Hf. auto.
Qed.

Lemma struct_dump_iff n cid vals ctx out :
  struct_to_stream E n cid vals ctx = (out, Ok tt)
  <-> exists all parts, validated E n cid vals /\ to_dict E n cid vals false = Ok all
      /\ Forall2 (field_part E n ctx all) (k_comps (cls E cid)) parts /\ out = concat parts.
Proof.
  unfold struct_to_stream, struct_to_stream_with. split.
  - intros H. apply dbind_dlift_inv in H. destruct H as ([] & Hv & H).
    apply dbind_dlift_inv in H. destruct H as (all & Ha & H).
    apply dump_fields_ok in H. destruct H as (parts & Hp & ->).
    apply validate_contents_iff in Hv. eauto 8.
  - intros (all & parts & Hv & Ha & Hp & ->). apply validate_contents_iff in Hv. rewrite Hv, dbind_ok, Ha, dbind_ok.
    apply dump_fields_ok. eauto.
Qed.

Lemma struct_dump_fail n cid vals ctx out r : is_ok r = false ->
  struct_to_stream E n cid vals ctx = (out, r) ->
  (out = [] /\ (validate_contents E n cid vals = r
                \/ exists r', to_dict E n cid vals false = r' /\ is_ok r' = false))
  \/ exists all pre nf post parts, to_dict E n cid vals false = Ok all
       /\ k_comps (cls E cid) = pre ++ nf :: post
       /\ Forall2 (field_part E n ctx all) pre parts
       /\ out = concat parts /\ field_fails E n ctx all nf r.
Proof.
  intros Hr H. unfold struct_to_stream, struct_to_stream_with in H.
  destruct (validate_contents E n cid vals) as [[]|e|] eqn:Hv.
  - rewrite dbind_ok in H. destruct (to_dict E n cid vals false) as [all|e|] eqn:Ha.
    + rewrite dbind_ok in H. apply dump_fields_fail in H; auto.
      destruct H as (pre & nf & post & parts & H). right. exists all, pre, nf, post, parts. tauto.
    + rewrite dbind_raise in H. injection H as <- <-. left. split; auto. right.
      exists (Raise e). auto.
    + rewrite dbind_oof in H. injection H as <- <-. left. split; auto. right. exists OOF. auto.
  - rewrite dbind_raise in H. injection H as <- <-. left. auto.
  - rewrite dbind_oof in H. injection H as <- <-. left. auto.
Qed.

(** C25 *)
Lemma absent_part n ctx d nf bs :
  run_dict d (c_present (conf (snd nf)) ctx None) = Ok false ->
  field_part E n ctx d nf bs -> bs = [].
Proof.
  intros Hp (v & Hv & Hor). rewrite compute_run, Hp in Hv.
  destruct (run_dict d (stored_or_fallback (conf (snd nf)))) as [w|e|]; try discriminate.
  assert (v = VNotPresent) by (destruct (is_not_present w); congruence). subst v.
  destruct Hor as [(_ & ->)|(Hne & _)]; congruence.
Qed.

(** ** Loading (C29) *)
Lemma load_fields_iff n fs ctx : forall d s s' d',
  load_fields E (do_load E n) n fs ctx d s = (s', Ok d') <-> loads E n ctx fs d s d' s'.
Proof.
  induction fs as [|[nm f] fs IH]; intros d s s' d'; cbn [load_fields].
  - unfold lret. split; [intros [= <- <-]; constructor|]. inversion 1; subst; auto.
  - unfold lbind. change (field_from_stream_with E (do_load E n) n f ctx d s)
      with (field_from_stream E n f ctx d s).
    destruct (field_from_stream E n f ctx d s) as [s1 [v|e|]] eqn:Hf.
    + rewrite IH. split; [intros; econstructor; eauto|].
      inversion 1 as [|? ? ? ? ? w s2 ? ? Hw Hl]; subst. rewrite Hf in Hw. injection Hw as <- <-. auto.
    + split; [discriminate|]. inversion 1; subst. congruence.
    + split; [discriminate|]. inversion 1; subst. congruence.
Qed.

Lemma init_ok_iff cid values vals :
  struct_init E cid values = Ok vals
  <-> vals = values /\ incl (dkeys values) (map fst (k_comps (cls E cid))).
Proof.
  unfold struct_init. change (k_comps (cls E cid)) with (comps E cid).
  destruct (filter _ (dkeys values)) as [|x l] eqn:Hf.
  - split; [|intros [-> _]; auto]. intros [= ->]. split; auto. intros k Hk.
    destruct (assoc (comps E cid) k) as [f|] eqn:Ha.
    + apply assoc_in in Ha. apply (in_map fst) in Ha. exact Ha.
    + assert (In k []) as []. rewrite <- Hf. apply filter_In. rewrite Ha. auto.
  - split; [discriminate|]. intros [_ Hi].
    assert (Hx : In x (x :: l)) by (left; auto). rewrite <- Hf in Hx. apply filter_In in Hx.
    destruct Hx as [Hx Hb]. apply Hi in Hx. destruct (assoc (comps E cid) x) eqn:Ha; [discriminate|].
    apply assoc_none in Ha. contradiction.
Qed.

Lemma init_unknown cid values : ~ incl (dkeys values) (map fst (k_comps (cls E cid))) ->
  exists extra, struct_init E cid values = Raise (EUnexpectedValue extra)
    /\ forall k, In k extra <-> In k (dkeys values) /\ ~ In k (map fst (k_comps (cls E cid))).
Proof.
  intros Hn. unfold struct_init. change (k_comps (cls E cid)) with (comps E cid).
  assert (Hx : forall k, In k (filter (fun k => match assoc (comps E cid) k with Some _ => false | None => true end) (dkeys values))
     <-> In k (dkeys values) /\ ~ In k (map fst (comps E cid))).
  { intros k. rewrite filter_In, <- assoc_none. destruct (assoc (comps E cid) k); split; intros [? ?]; split; auto; discriminate. }
  destruct (filter _ (dkeys values)) as [|x l] eqn:Hf.
  - destruct Hn. intros k Hk. destruct (assoc (comps E cid) k) as [f|] eqn:Ha.
    + apply assoc_in in Ha. apply (in_map fst) in Ha. exact Ha.
    + apply assoc_none in Ha. assert (In k []) as []. apply Hx. auto.
  - exists (x :: l). auto.
Qed.

(** The instance that results from the loaded values: everything but discard fields. *)
Lemma delete_discard_filter fs : Forall (fun nf => c_name (conf (snd nf)) = Some (fst nf)) fs ->
  forall d, NoDup (dkeys d) ->
  delete_discard fs d = filter (fun kv => negb (discarded fs (fst kv))) d.
Proof.
  intros Hn. induction Hn as [|[nm f] fs Hnm Hn IH]; intros d Hnd; cbn [delete_discard].
  - cbn. symmetry. clear Hnd. induction d as [|kv d IH]; cbn [filter]; [auto|congruence].
  - cbn [snd fst] in Hnm. unfold cname, name_of. rewrite Hnm.
    assert (Hd : NoDup (dkeys (if c_discard (conf f) then ddel d nm else d))).
    { destruct (c_discard (conf f)); auto. rewrite ddel_filter; auto. apply nodup_filter_keys; auto. }
    rewrite IH by auto. unfold discarded. cbn [existsb fst snd].
    destruct (c_discard (conf f)).
    + rewrite ddel_filter by auto. clear. induction d as [|[k v] d IH]; cbn [filter fst]; auto.
      rewrite (String.eqb_sym nm k).
      destruct (String.eqb k nm); cbn [negb andb orb]; [exact IH|]. cbn [filter fst].
      destruct (negb _); rewrite IH; auto.
    + apply filter_ext. intros [k v]. cbn [fst]. rewrite andb_false_r. auto.
Qed.

Lemma loads_keys n fs ctx d s d' s' : loads E n ctx fs d s d' s' ->
  exists new, d' = d ++ new /\ incl (dkeys new) (map fst fs)
    /\ (forall name, In name (dkeys d') <-> In name (dkeys d) \/ In name (map fst fs))
    /\ (NoDup (dkeys d) -> NoDup (dkeys d')).
Proof.
  induction 1 as [d s|name f fs d s v s1 d' s' Hf Hl IH].
  - exists []. rewrite app_nil_r. split; [auto|]. split; [intros x []|]. split; auto.
    intros name. cbn [map In]. tauto.
  - destruct IH as (new & Hd & Hi & Hk & Hn). destruct (dmem d name) eqn:Hm.
    + exists new. split; auto. split; [intros x Hx; right; auto|]. split; auto.
      intros x. rewrite Hk. cbn [map fst In]. split; [tauto|].
      intros [H|[<-|H]]; auto. left. apply dmem_in; auto.
    + exists ((name, v) :: new). rewrite Hd, <- app_assoc. split; auto.
      split; [intros x [<-|Hx]; [left|right]; auto|]. split.
      * intros x. rewrite Hd in Hk. rewrite <- app_assoc in Hk. rewrite Hk.
        unfold dkeys. rewrite map_app, in_app_iff. cbn [map fst In]. tauto.
      * intros Hnd. rewrite Hd, <- app_assoc in Hn. apply Hn. unfold dkeys. rewrite map_app. cbn [map fst].
        assert (Hni : ~ In name (dkeys d)) by (rewrite <- dmem_in; congruence).
        fold (dkeys d). clear -Hnd Hni. induction (dkeys d) as [|x l IH]; cbn [app].
        -- repeat constructor. auto.
        -- inversion Hnd; subst. cbn [In] in Hni. constructor; [|tauto].
           rewrite in_app_iff. cbn [In]. intros [?|[?|[]]]; auto.
Qed.

Lemma struct_load_iff n cid ctx kw s s' vals :
  well_formed (cls E cid) -> NoDup (dkeys kw) ->
  struct_from_stream E n cid ctx kw s = (s', Ok vals)
  <-> exists d, loads E n ctx (k_comps (cls E cid)) kw s d s'
      /\ incl (dkeys kw) (map fst (k_comps (cls E cid)))
      /\ validated E n cid d
      /\ vals = filter (fun kv => negb (discarded (k_comps (cls E cid)) (fst kv))) d.
Proof.
  intros (_ & Hwf & _) Hnd. unfold struct_from_stream, struct_from_stream_with.
  change (k_comps (cls E cid)) with (comps E cid) in *.
  unfold lbind, llift, lret.
  destruct (load_fields E (do_load E n) n (comps E cid) ctx kw s) as [s1 [d|e|]] eqn:Hl.
  2, 3: split; [discriminate|]; intros (d & Hd & _); apply load_fields_iff in Hd; congruence.
  apply load_fields_iff in Hl. destruct (loads_keys _ _ _ _ _ _ _ Hl) as (new & Hd & Hi & Hk & Hn).
  assert (Hincl : incl (dkeys d) (map fst (comps E cid)) <-> incl (dkeys kw) (map fst (comps E cid))).
  { split; intros H x Hx.
    - apply H. apply Hk. auto.
    - apply Hk in Hx. destruct Hx; auto. }
  assert (Huniq : forall d2 s2, loads E n ctx (comps E cid) kw s d2 s2 -> d2 = d /\ s2 = s1).
  { intros d2 s2 H2. apply load_fields_iff in H2. apply load_fields_iff in Hl. split; congruence. }
  destruct (struct_init E cid d) as [vs|e|] eqn:Hs.
  - apply init_ok_iff in Hs. destruct Hs as [-> Hs].
    destruct (validate_contents E n cid d) as [[]|e|] eqn:Hv.
    + apply validate_contents_iff in Hv. split.
      * intros [= <- <-]. exists d. split; auto. split; [apply Hincl; auto|]. split; auto.
        apply delete_discard_filter; auto.
      * intros (d2 & Hd2 & _ & _ & ->). apply Huniq in Hd2. destruct Hd2 as [-> ->].
        rewrite delete_discard_filter; auto.
    + split; [discriminate|]. intros (d2 & Hd2 & _ & Hval & _). apply Huniq in Hd2.
      destruct Hd2 as [-> ->]. apply validate_contents_iff in Hval. congruence.
    + split; [discriminate|]. intros (d2 & Hd2 & _ & Hval & _). apply Huniq in Hd2.
      destruct Hd2 as [-> ->]. apply validate_contents_iff in Hval. congruence.
  - split; [discriminate|]. intros (d2 & Hd2 & Hi2 & _). apply Huniq in Hd2. destruct Hd2 as [-> ->].
    assert (struct_init E cid d = Ok d) by (apply init_ok_iff; split; auto; apply Hincl; auto).
    congruence.
  - split; [discriminate|]. intros (d2 & Hd2 & Hi2 & _). apply Huniq in Hd2. destruct Hd2 as [-> ->].
    assert (struct_init E cid d = Ok d) by (apply init_ok_iff; split; auto; apply Hincl; auto).
    congruence.
Qed.

(** init_kwargs win over loaded values. *)
Lemma loads_override n fs ctx d s d' s' name v : loads E n ctx fs d s d' s' ->
  dget d name = Some v -> dget d' name = Some v.
Proof.
  intros H Hg. destruct (loads_keys _ _ _ _ _ _ _ H) as (new & -> & _). rewrite dget_app, Hg. auto.
Qed.

(** ... and every other value is the one its field loaded. *)
Lemma loads_value n fs ctx d s d' s' pre name f post : loads E n ctx fs d s d' s' ->
  fs = pre ++ (name, f) :: post -> NoDup (map fst fs) -> dget d name = None ->
  exists d1 s1 s2 v, loads E n ctx pre d s d1 s1
    /\ field_from_stream E n f ctx d1 s1 = (s2, Ok v) /\ dget d' name = Some v.
Proof.
  intros H. revert pre. induction H as [d s|nm g fs d s w s1 d' s' Hf Hl IH]; intros pre Hfs Hnd Hg.
  - destruct pre; discriminate.
  - destruct pre as [|[nm' g'] pre].
    + injection Hfs as -> -> ->. exists d, s, s1, w. split; [constructor|]. split; auto.
      assert (Hm : dmem d name = false) by (unfold dmem; rewrite Hg; auto). rewrite Hm in Hl.
      eapply loads_override; eauto. rewrite dget_app, Hg. cbn [dget]. rewrite String.eqb_refl. auto.
    + injection Hfs as <- <- ->. cbn [map fst] in Hnd. inversion Hnd as [|? ? Hni Hnd']; subst.
      destruct (IH pre eq_refl Hnd') as (d1 & s2 & s3 & v & H1 & H2 & H3).
      * destruct (dmem d nm); auto. rewrite dget_app, Hg. cbn [dget].
        destruct (String.eqb_spec nm name) as [->|]; auto. destruct Hni.
        rewrite map_app, in_app_iff. right. left. auto.
      * exists d1, s2, s3, v. split; [|auto]. econstructor; eauto.
Qed.

(** The first failing field decides. *)
Lemma load_fields_fail n fs ctx : forall d s s' r, is_ok r = false ->
  load_fields E (do_load E n) n fs ctx d s = (s', r) ->
  exists pre name f post d1 s1 r1, fs = pre ++ (name, f) :: post
    /\ loads E n ctx pre d s d1 s1 /\ field_from_stream E n f ctx d1 s1 = (s', r1)
    /\ match r1 with Raise e => r = Raise e | OOF => r = OOF | Ok _ => False end.
Proof.
  induction fs as [|[nm f] fs IH]; intros d s s' r Hr H; cbn [load_fields] in H.
  - injection H as _ <-. discriminate.
  - unfold lbind in H. change (field_from_stream_with E (do_load E n) n f ctx d s)
      with (field_from_stream E n f ctx d s) in H.
    destruct (field_from_stream E n f ctx d s) as [s1 [v|e|]] eqn:Hf.
    + destruct (IH _ _ _ _ Hr H) as (pre & nm' & f' & post & d1 & s2 & r1 & -> & Hl & Hf' & Hm).
      exists ((nm, f) :: pre), nm', f', post, d1, s2, r1. repeat split; auto. econstructor; eauto.
    + injection H as <- <-. exists [], nm, f, fs, d, s, (Raise e). repeat split; auto. constructor.
    + injection H as <- <-. exists [], nm, f, fs, d, s, OOF. repeat split; auto. constructor.
Qed.

Lemma struct_load_unknown n cid ctx kw s d s' :
  loads E n ctx (k_comps (cls E cid)) kw s d s' ->
  ~ incl (dkeys kw) (map fst (k_comps (cls E cid))) ->
  exists extra, struct_from_stream E n cid ctx kw s = (s', Raise (EUnexpectedValue extra))
    /\ forall k, In k extra <-> In k (dkeys kw) /\ ~ In k (map fst (k_comps (cls E cid))).
Proof.
  intros Hl Hn. destruct (loads_keys _ _ _ _ _ _ _ Hl) as (_ & _ & _ & Hk & _).
  destruct (init_unknown cid d) as (extra & Hi & Hx).
  { intros H. apply Hn. intros x Hxk. apply H. apply Hk. auto. }
  exists extra. split.
  - unfold struct_from_stream, struct_from_stream_with, lbind, llift.
    apply load_fields_iff in Hl. change (k_comps (cls E cid)) with (comps E cid) in Hl.
    rewrite Hl, Hi. reflexivity.
  - intros k. rewrite Hx, Hk. tauto.
Qed.

(** ** partial_load (C30) *)
Lemma prefix_keys n fs ctx d s d' s' : prefix_loads E n ctx fs d s d' s' ->
  incl (dkeys d') (dkeys d ++ map fst fs).
Proof.
  induction 1 as [d s|name f fs d s v s1 d' s' Hf Hl IH].
  - intros x Hx. apply in_app_iff. auto.
  - intros x Hx. apply IH in Hx. rewrite in_app_iff in *. cbn [map fst In].
    destruct (c_discard (conf f)); [tauto|]. unfold dkeys in *. rewrite map_app, in_app_iff in Hx.
    cbn [map fst In] in Hx. tauto.
Qed.

Lemma partial_fields_none n ctx fs :
  Forall (fun nf => c_name (conf (snd nf)) = Some (fst nf)) fs ->
  NoDup (map fst fs) -> forall d s s' d', (forall k, In k (map fst fs) -> ~ In k (dkeys d)) ->
  (partial_load_fields E n fs None ctx d s = (s', Ok d')
   <-> exists pre post, fs = pre ++ post /\ prefix_loads E n ctx pre d s d' s'
       /\ match post with
          | [] => True
          | (_, f) :: _ => exists s1 e, field_from_stream E n f ctx d' s' = (s1, Raise e)
                                      /\ is_UnexpectedEOFError e = true
          end).
Proof.
  intros Hn. induction Hn as [|[nm f] fs Hnm Hn IH]; intros Hnd d s s' d' Hdis;
    cbn [partial_load_fields].
  - split.
    + intros [= <- <-]. exists [], []. repeat split. constructor.
    + intros (pre & post & Hfs & Hp & _). destruct pre; [|discriminate]. inversion Hp; subst. auto.
  - cbn [snd fst map] in *. inversion Hnd as [|? ? Hni Hnd']; subst.
    unfold cname, name_of. rewrite Hnm.
    destruct (field_from_stream E n f ctx d s) as [s1 [v|e|]] eqn:Hf.
    + assert (Hset : dset d nm v = d ++ [(nm, v)]) by (apply dset_new; apply Hdis; left; auto).
      rewrite Hset. rewrite IH; auto.
      * split.
        -- intros (pre & post & -> & Hp & Hpost). exists ((nm, f) :: pre), post.
           repeat split; auto. econstructor; eauto.
        -- intros (pre & post & Hfs & Hp & Hpost). destruct pre as [|[nm' f'] pre].
           ++ cbn [app] in Hfs. subst post. inversion Hp; subst.
              destruct Hpost as (s2 & e & He & _). congruence.
           ++ injection Hfs as <- <- ->. inversion Hp as [|? ? ? ? ? w s2 ? ? Hw Hl]; subst.
              rewrite Hf in Hw. injection Hw as <- <-. exists pre, post. repeat split; auto.
      * intros k Hk. destruct (c_discard (conf f)); [apply Hdis; right; auto|].
        unfold dkeys. rewrite map_app, in_app_iff. cbn [map fst In].
        intros [H|[<-|[]]]; [eapply Hdis; [right; eauto|exact H]|contradiction].
    + destruct (is_UnexpectedEOFError e) eqn:He.
      * pose proof (field_load_forward _ _ _ _ _ _ _ _ Hf) as (Hd & _).
        rewrite Hd. replace (mkStream (s_data s) (s_pos s)) with s by (destruct s; auto). split.
        -- intros [= <- <-]. exists [], ((nm, f) :: fs). repeat split; [constructor|].
           exists s1, e. auto.
        -- intros (pre & post & Hfs & Hp & Hpost). destruct pre as [|[nm' f'] pre].
           ++ inversion Hp; subst. auto.
           ++ injection Hfs as <- <- ->. inversion Hp; subst. congruence.
      * split; [discriminate|]. intros (pre & post & Hfs & Hp & Hpost).
        destruct pre as [|[nm' f'] pre].
        -- cbn [app] in Hfs. subst post. inversion Hp; subst. destruct Hpost as (s2 & e2 & He2 & Ht). congruence.
        -- injection Hfs as <- <- ->. inversion Hp; subst. congruence.
    + split; [discriminate|]. intros (pre & post & Hfs & Hp & Hpost).
      destruct pre as [|[nm' f'] pre].
      * cbn [app] in Hfs. subst post. inversion Hp; subst. destruct Hpost as (s2 & e2 & He2 & Ht). congruence.
      * injection Hfs as <- <- ->. inversion Hp; subst. congruence.
Qed.

Lemma partial_load_none n cid ctx s s' vals : well_formed (cls E cid) ->
  (partial_load E n cid None ctx s = (s', Ok vals)
   <-> exists pre post, k_comps (cls E cid) = pre ++ post /\ prefix_loads E n ctx pre [] s vals s'
       /\ match post with
          | [] => True
          | (_, f) :: _ => exists s1 e, field_from_stream E n f ctx vals s' = (s1, Raise e)
                                      /\ is_UnexpectedEOFError e = true
          end).
Proof.
  intros (Hnd & Hwf & _). unfold partial_load. unfold lbind, llift.
  change (k_comps (cls E cid)) with (comps E cid) in *.
  rewrite <- (partial_fields_none n ctx (comps E cid) Hwf Hnd [] s s' vals) by (intros; auto).
  destruct (partial_load_fields E n (comps E cid) None ctx [] s) as [s1 [d|e|]] eqn:Hp;
    [|split; discriminate|split; discriminate].
  assert (Hi : struct_init E cid d = Ok d).
  { apply init_ok_iff. split; auto.
    apply (partial_fields_none n ctx (comps E cid) Hwf Hnd [] s s1 d) in Hp; [|intros; auto].
    destruct Hp as (pre & post & Hc & Hl & _). apply prefix_keys in Hl.
    change (k_comps (cls E cid)) with (comps E cid). rewrite Hc, map_app. intros x Hx.
    apply Hl in Hx. apply in_app_iff. left. exact Hx. }
  rewrite Hi. reflexivity.
Qed.

Lemma partial_fields_last n ctx last fs :
  Forall (fun nf => c_name (conf (snd nf)) = Some (fst nf)) fs ->
  NoDup (map fst fs) -> In last (map fst fs) ->
  forall d s s' d', (forall k, In k (map fst fs) -> ~ In k (dkeys d)) ->
  (partial_load_fields E n fs (Some last) ctx d s = (s', Ok d')
   <-> exists pre f post, fs = pre ++ (last, f) :: post
       /\ prefix_loads E n ctx (pre ++ [(last, f)]) d s d' s').
Proof.
  intros Hn. induction Hn as [|[nm f] fs Hnm Hn IH]; intros Hnd Hlast d s s' d' Hdis;
    cbn [partial_load_fields]; [destruct Hlast|].
  cbn [snd fst map] in *. inversion Hnd as [|? ? Hni Hnd']; subst.
  unfold cname, name_of. rewrite Hnm.
  destruct (field_from_stream E n f ctx d s) as [s1 [v|e|]] eqn:Hf.
  - assert (Hset : dset d nm v = d ++ [(nm, v)]) by (apply dset_new; apply Hdis; left; auto).
    rewrite Hset. destruct (String.eqb_spec nm last) as [->|Hne].
    + split.
      * intros [= <- <-]. exists [], f, fs. split; auto. cbn [app]. econstructor; eauto. constructor.
      * intros (pre & f' & post & Hfs & Hp). destruct pre as [|[nm' g'] pre].
        -- injection Hfs as <- <-. cbn [app] in Hp. inversion Hp as [|? ? ? ? ? w ? ? ? Hw Hl]; subst.
           rewrite Hf in Hw. injection Hw as <- <-. inversion Hl; subst. reflexivity.
        -- injection Hfs as <- <- ->. destruct Hni. rewrite map_app, in_app_iff. right. left. auto.
    + assert (Hlast' : In last (map fst fs)) by (destruct Hlast; [congruence|auto]).
      rewrite IH; auto.
      * split.
        -- intros (pre & f' & post & -> & Hp). exists ((nm, f) :: pre), f', post. split; auto.
           cbn [app]. econstructor; eauto.
        -- intros (pre & f' & post & Hfs & Hp). destruct pre as [|[nm' g'] pre].
           ++ injection Hfs as -> _ _. congruence.
           ++ injection Hfs as <- <- ->. cbn [app] in Hp.
              inversion Hp as [|? ? ? ? ? w s2 ? ? Hw Hl]; subst.
              rewrite Hf in Hw. injection Hw as <- <-. exists pre, f', post. split; auto.
      * intros k Hk. destruct (c_discard (conf f)); [apply Hdis; right; auto|].
        unfold dkeys. rewrite map_app, in_app_iff. cbn [map fst In].
        intros [H|[<-|[]]]; [eapply Hdis; [right; eauto|exact H]|contradiction].
  - replace (if is_UnexpectedEOFError e then (s1, Raise e) else (s1, Raise e))
      with (s1, @Raise dict e) by (destruct (is_UnexpectedEOFError e); auto).
    split; [discriminate|]. intros (pre & f' & post & Hfs & Hp).
    destruct pre as [|[nm' g'] pre]; [injection Hfs as -> -> ->|injection Hfs as <- <- ->];
      cbn [app] in Hp; inversion Hp; subst; congruence.
  - split; [discriminate|]. intros (pre & f' & post & Hfs & Hp).
    destruct pre as [|[nm' g'] pre]; [injection Hfs as -> -> ->|injection Hfs as <- <- ->];
      cbn [app] in Hp; inversion Hp; subst; congruence.
Qed.

Lemma partial_load_last n cid last ctx s s' vals : well_formed (cls E cid) ->
  (partial_load E n cid (Some last) ctx s = (s', Ok vals)
   <-> exists pre f post, k_comps (cls E cid) = pre ++ (last, f) :: post
       /\ prefix_loads E n ctx (pre ++ [(last, f)]) [] s vals s').
Proof.
  intros (Hnd & Hwf & _). unfold partial_load. unfold lbind, llift.
  change (k_comps (cls E cid)) with (comps E cid) in *.
  destruct (assoc (comps E cid) last) as [g|] eqn:Ha.
  2: { split; [discriminate|]. intros (pre & f & post & Hc & _). apply assoc_none in Ha.
       destruct Ha. rewrite Hc, map_app, in_app_iff. right. left. auto. }
  assert (Hin : In last (map fst (comps E cid))).
  { apply assoc_in in Ha. apply (in_map fst) in Ha. exact Ha. }
  rewrite <- (partial_fields_last n ctx last (comps E cid) Hwf Hnd Hin [] s s' vals) by (intros; auto).
  destruct (partial_load_fields E n (comps E cid) (Some last) ctx [] s) as [s1 [d|e|]] eqn:Hp;
    [|split; discriminate|split; discriminate].
  assert (Hi : struct_init E cid d = Ok d).
  { apply init_ok_iff. split; auto.
    apply (partial_fields_last n ctx last (comps E cid) Hwf Hnd Hin [] s s1 d) in Hp; [|intros; auto].
    destruct Hp as (pre & f & post & Hc & Hl). apply prefix_keys in Hl.
    change (k_comps (cls E cid)) with (comps E cid). rewrite Hc, map_app. intros x Hx.
    apply Hl in Hx. cbn [dkeys map app] in Hx. rewrite map_app, in_app_iff in Hx. rewrite in_app_iff.
    cbn [map fst In] in *. tauto. }
  rewrite Hi. reflexivity.
Qed.

(** The prefix is what a full load would have read. *)
Lemma prefix_is_loads n fs ctx d s d' s' :
  Forall (fun nf => c_discard (conf (snd nf)) = false) fs ->
  NoDup (map fst fs) -> (forall k, In k (map fst fs) -> ~ In k (dkeys d)) ->
  (prefix_loads E n ctx fs d s d' s' <-> loads E n ctx fs d s d' s').
Proof.
  intros Hd. revert d s. induction Hd as [|[nm f] fs Hdf Hd IH]; intros d s Hnd Hdis.
  - split; inversion 1; subst; constructor.
  - cbn [map fst snd] in *. inversion Hnd as [|? ? Hni Hnd']; subst.
    assert (Hm : dmem d nm = false).
    { destruct (dmem d nm) eqn:H; auto. apply dmem_in in H. exact (False_ind _ (Hdis nm (or_introl eq_refl) H)). }
    assert (Hdis' : forall v k, In k (map fst fs) -> ~ In k (dkeys (d ++ [(nm, v)]))).
    { intros v k Hk. unfold dkeys. rewrite map_app, in_app_iff. cbn [map fst In].
      intros [H|[<-|[]]]; [eapply Hdis; [right; eauto|exact H]|contradiction]. }
    split; inversion 1; subst.
    + econstructor; eauto. rewrite Hm. apply IH; auto. rewrite Hdf in *. auto.
    + econstructor; eauto. rewrite Hdf. apply IH; auto. rewrite Hm in *. auto.
Qed.

End Struct.

(** ** More about single fields *)

(** Assigning to a const or computed field fails; the instance keeps its values. *)
Lemma setitem_immutable E cid vals name f v : assoc (k_comps (cls E cid)) name = Some f ->
  c_const (conf f) <> VUndefined \/ c_compute (conf f) <> None ->
  struct_setitem E cid vals name v = Raise (EImmutable (c_name (conf f))).
Proof.
  intros Ha Hor. unfold struct_setitem. change (comps E cid) with (k_comps (cls E cid)). rewrite Ha.
  unfold field_set. destruct Hor as [Hc|Hc].
  - replace (is_undefined (c_const (conf f))) with false by (destruct (c_const (conf f)); auto; congruence).
    rewrite orb_true_r. auto.
  - destruct (c_compute (conf f)); [reflexivity|congruence].
Qed.

(** [null_value=DEFAULT] on a field without a size. *)
Lemma null_default_unsized_dump E n f ctx d : c_null (conf f) = VDefault ->
  c_size (conf f) = SNone -> oget d (c_name (conf f)) = Some VNone -> accepts (conf f) VNone ->
  field_to_stream E n f VNone ctx d = ([], Raise (EBuggyField (c_name (conf f)))).
Proof.
  intros Hn Hs Hd Ha. unfold field_to_stream, field_to_stream_with, to_stream_with.
  cbn [is_default]. rewrite dbind_ok. cbn [is_undefined is_default is_none orb].
  rewrite (accepts_run _ _ Ha), dbind_ok. unfold null_repr, null_repr_with. rewrite Hn.
  unfold ges, get_expected_size_with, expected_unsized. rewrite Hs, Hd. cbn [bind is_none].
  unfold unsized_null_len. rewrite Hn. reflexivity.
Qed.

Lemma null_default_unsized_load E n f ctx d s : c_null (conf f) = VDefault ->
  c_size (conf f) = SNone -> oget d (c_name (conf f)) = None -> default_of (conf f) = Ok VUndefined ->
  always_present (conf f) ->
  field_from_stream E n f ctx d s = (s, Raise (ECannotDetermineNull (c_name (conf f)))).
Proof.
  intros Hn Hs Hd Hdef Hp. unfold field_from_stream, field_from_stream_with, from_stream_with.
  rewrite Hp. unfold allow_null. rewrite Hn. cbn [is_undefined negb].
  unfold null_repr, null_repr_with. rewrite Hn.
  unfold ges, get_expected_size_with, expected_unsized. rewrite Hs, Hd, Hdef. reflexivity.
Qed.

(** A default that comes only from [factory=] is not used when a struct is dumped. *)
Lemma value_factory_only c ctx d : oget d (c_name c) = None -> c_default c = VUndefined ->
  c_compute c = None -> c_factory c <> None -> run_dict d (c_present c ctx None) = Ok true ->
  run_dict d (compute_value_for_dump c ctx) = Raise (EMissingRequired (c_name c)).
Proof. intros; apply value_missing; auto. Qed.

(** Loading stops at the end of the data if it started inside it. *)
Lemma forward_inside s s' : forward s s' -> (s_pos s <= length (s_data s))%nat ->
  (s_pos s' <= length (s_data s'))%nat.
Proof. intros (Hd & _ & Hm) H. rewrite Hd. lia. Qed.

(** [Field.from_bytes(exact=True)] accepts iff nothing is left over. *)
Lemma from_bytes_exact_all E n f data ctx d v :
  field_from_bytes E n f data ctx true d = Ok v
  <-> field_from_stream E n f ctx d (mkStream data 0) = (mkStream data (length data), Ok v).
Proof.
  rewrite from_bytes_exact_iff. split.
  - intros (s' & H & Hle). pose proof (field_load_forward _ _ _ _ _ _ _ _ H) as (Hd & _ & Hm).
    rewrite H. cbn [s_data s_pos] in *. unfold tell, zlen in Hle. destruct s' as [dd p]. cbn [s_data s_pos] in *.
    subst dd. do 2 f_equal. lia.
  - intros H. eexists. split; [exact H|]. unfold tell, zlen. cbn. lia.
Qed.

Lemma none_dump_bytes E n f ctx d nb : c_null (conf f) = VBytes nb -> accepts (conf f) VNone ->
  field_to_stream E n f VNone ctx d = (nb, Ok tt).
Proof. intros H. apply none_dump. unfold null_form. rewrite H. reflexivity. Qed.

Lemma struct_dump_validated E n cid vals ctx out :
  struct_to_stream E n cid vals ctx = (out, Ok tt) -> validated E n cid vals.
Proof. intros H. apply struct_dump_iff in H. destruct H as (? & ? & H & _). auto. Qed.

Lemma struct_load_validated E n cid ctx kw s s' vals :
  well_formed (cls E cid) -> NoDup (dkeys kw) ->
  struct_from_stream E n cid ctx kw s = (s', Ok vals) ->
  exists d, loads E n ctx (k_comps (cls E cid)) kw s d s' /\ validated E n cid d.
Proof. intros Hw Hn H. apply struct_load_iff in H; auto. destruct H as (d & H). exists d. tauto. Qed.

Lemma struct_dump_rejected E n cid vals ctx e : validate_contents E n cid vals = Raise e ->
  struct_to_stream E n cid vals ctx = ([], Raise e).
Proof.
  intros H. unfold struct_to_stream, struct_to_stream_with. rewrite H. apply dbind_raise.
Qed.

Lemma value_not_present c ctx d nm : c_name c = Some nm -> dget d nm = Some VNotPresent ->
  run_dict d (compute_value_for_dump c ctx) = Ok VNotPresent.
Proof. intros Hn Hd. eapply value_absent; [eapply stored_explicit; eauto|auto]. Qed.

Lemma value_absent_explicit c ctx d nm v : c_name c = Some nm -> dget d nm = Some v ->
  run_dict d (c_present c ctx None) = Ok false ->
  run_dict d (compute_value_for_dump c ctx) = Ok VNotPresent.
Proof. intros Hn Hd Hp. eapply value_absent; [eapply stored_explicit; eauto|auto]. Qed.

Lemma value_absent_unset c ctx d v : oget d (c_name c) = None -> c_compute c = None ->
  default_of c = Ok v -> run_dict d (c_present c ctx None) = Ok false ->
  run_dict d (compute_value_for_dump c ctx) = Ok VNotPresent.
Proof.
  intros Ho Hc Hdef Hp.
  assert (exists w, run_dict d (stored_or_fallback c) = Ok w) as [w Hw].
  { rewrite (stored_missing _ _ Ho). unfold fallback_value. rewrite Hc.
    destruct (negb (is_undefined (c_default c))); [|eexists; reflexivity].
    unfold default_query, default_of in *. destruct (c_factory c) as [[x|e]|]; try discriminate; eexists; reflexivity. }
  eapply value_absent; eauto.
Qed.
