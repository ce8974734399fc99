(** Subclasses and their base classes (C81). *)
From Coq Require Import List String.
From Verif Require Import Tac FieldProofs StructProofs ToDictProofs.
From Verif Require Export SpecInherit.
Import ListNotations.

(** ** Callables *)
Lemma looks_same {A} names mem mem' get get' keys keys' (q : query A) : looks_at names q ->
  (forall name, In name names -> mem name = mem' name) ->
  (forall name, In name names -> get name = get' name) -> run_q mem get keys q = run_q mem' get' keys' q.
Proof.
  intros H Hm Hg. induction H as [a|e|name k Hn _ IH|name k Hn _ IH]; cbn [run_q]; auto.
  - rewrite (Hm name Hn). apply IH.
  - rewrite (Hg name Hn). destruct (get' name); auto.
Qed.

Lemma looks_bind {A B} names (q : query A) (k : A -> query B) : looks_at names q -> (forall a, looks_at names (k a)) ->
  looks_at names (qbind q k).
Proof.
  intros H Hk. induction H as [a|e|name f Hn _ IH|name f Hn _ IH]; cbn [qbind]; auto.
  - constructor.
  - constructor; auto.
  - apply looks_get; auto.
Qed.

Lemma agree_dict {A} names d d' (q : query A) : agree names d d' -> looks_at names q -> run_dict d q = run_dict d' q.
Proof.
  intros Ha Hq. unfold run_dict. eapply looks_same; eauto.
  - intros name Hn. unfold dmem. rewrite (Ha name Hn). auto.
  - intros name Hn. unfold dget_res. rewrite (Ha name Hn). auto.
Qed.

Lemma fallback_looks names c : (forall q, c_compute c = Some q -> looks_at names q) -> looks_at names (fallback_value c).
Proof.
  intros H. unfold fallback_value. destruct (negb (is_undefined (c_default c))).
  - unfold default_query. destruct (c_factory c) as [[|]|]; constructor.
  - destruct (c_compute c); auto. constructor.
Qed.

Lemma compute_looks names c ctx name : c_name c = Some name -> In name names ->
  (forall ctx s, looks_at names (c_present c ctx s)) -> (forall q, c_compute c = Some q -> looks_at names q) ->
  looks_at names (compute_value_for_dump c ctx).
Proof.
  intros Hc Hn Hp Hq. unfold compute_value_for_dump. apply looks_bind.
  - unfold stored_or_fallback. rewrite Hc. constructor; auto. intros [|]; [|apply fallback_looks; auto].
    apply looks_get; auto. intros [|]; constructor.
  - intros v. destruct (is_not_present v); [constructor|]. apply looks_bind; auto.
    intros p. destruct (negb p); [constructor|]. destruct (is_undefined v); constructor.
Qed.

(** ** Dumping a field *)
Lemma size_agree names dd dd' c k d d' : size_within names c -> agree names d d' -> (forall v, dd v = dd' v) ->
  get_expected_size_with dd c k d = get_expected_size_with dd' c k d'.
Proof.
  intros Hs Ha Hdd. unfold get_expected_size_with, size_within in *. destruct (c_size c) as [|z|name]; auto.
  - unfold expected_unsized. destruct (c_name c) as [name|]; cbn [oget] in *; [rewrite (Ha name Hs)|].
    + destruct (match dget d' name with Some v => Ok v | None => _ end) as [v|e|]; auto. cbn [bind].
      destruct (is_none v); auto. unfold unsized_null_len. destruct (c_null c); auto; destruct k; auto; rewrite Hdd; auto.
    + destruct (do dv <- default_of c; _) as [v|e|]; auto. cbn [bind].
      destruct (is_none v); auto. unfold unsized_null_len. destruct (c_null c); auto; destruct k; auto; rewrite Hdd; auto.
  - rewrite (Ha name Hs). auto.
Qed.

Lemma null_agree dd dd' g c : (forall v, dd v = dd' v) -> null_repr_with dd g c = null_repr_with dd' g c.
Proof. intros H. unfold null_repr_with. destruct (c_null c); auto; rewrite H; auto. Qed.

Lemma to_stream_agree nr g c k v dd dd' : (forall v, dd v = dd' v) ->
  to_stream_with nr dd g c k v = to_stream_with nr dd' g c k v.
Proof.
  intros H. unfold to_stream_with. unfold dbind, dlift.
  destruct (if is_default v then default_of c else Ok v) as [w|e|]; auto.
  destruct (is_undefined w || is_default w); auto. rewrite H. auto.
Qed.

Lemma contained_size names f : self_contained names f -> size_within names (conf f).
Proof. destruct 1; auto. Qed.

Lemma field_agree_step E names n f ctx d d' : self_contained names f -> agree names d d' ->
  (forall v ctx, do_dump E n f v ctx d = do_dump E n f v ctx d') ->
  forall v, field_to_stream_with (do_dump E n) f v ctx d = field_to_stream_with (do_dump E n) f v ctx d'.
Proof.
  intros Hs Ha H v. unfold field_to_stream_with, null_repr, ges.
  rewrite (size_agree names _ (fun v => do_dump E n f v VNone d') (conf f) (kind f) d d'); auto using contained_size.
  rewrite (null_agree _ (fun v => do_dump E n f v VNone d')); auto.
  apply to_stream_agree. auto.
Qed.

Lemma dump_agree E names : forall n f v ctx d d', self_contained names f -> agree names d d' ->
  do_dump E n f v ctx d = do_dump E n f v ctx d'.
Proof.
  induction n as [|n IH]; intros f v ctx d d' Hs Ha.
  - destruct Hs as [c k Hk Hz|c comp cnt halt Hz Hc Hs|c cid Hz|c choices ld dd Hz Hd Hs]; auto.
    rewrite !do_dump_leaf by (destruct k; auto; contradiction).
    rewrite (size_agree names _ (fun _ => draise ETypeErr) c k d d'); auto.
  - assert (Hf : forall f ctx, self_contained names f -> forall v,
              field_to_stream_with (do_dump E n) f v ctx d = field_to_stream_with (do_dump E n) f v ctx d').
    { intros g ctx' Hg. apply (field_agree_step E names); auto. }
    destruct Hs as [c k Hk Hz|c comp cnt halt Hz Hc Hs|c cid Hz|c choices ld dd Hz Hd Hs].
    + rewrite !do_dump_leaf by (destruct k; auto; contradiction).
      rewrite (size_agree names _ (fun _ => draise ETypeErr) c k d d'); auto.
    + cbn [do_dump kind]. unfold array_dump.
      assert (Hcnt : get_final_element_count cnt d = get_final_element_count cnt d').
      { unfold get_final_element_count. destruct cnt as [|z|name|]; auto. rewrite (Ha name); auto. }
      rewrite Hcnt. destruct (get_final_element_count cnt d') as [ne|e|]; auto. rewrite !dbind_ok.
      assert (Hit : forall l, dump_items (fun x => field_to_stream_with (do_dump E n) comp x ctx d) l
                = dump_items (fun x => field_to_stream_with (do_dump E n) comp x ctx d') l).
      { induction l as [|x l IHl]; cbn [dump_items]; auto. rewrite (Hf comp ctx Hs x). rewrite IHl. auto. }
      assert (Hun : forall l nm ne w, dump_unsized (fun x => field_to_stream_with (do_dump E n) comp x ctx d) nm ne w l
                = dump_unsized (fun x => field_to_stream_with (do_dump E n) comp x ctx d') nm ne w l).
      { induction l as [|x l IHl]; intros nm ne' w; cbn [dump_unsized]; auto. rewrite (Hf comp ctx Hs x). rewrite IHl. auto. }
      destruct (sized_items v) as [l|]; [|destruct v; auto].
      rewrite Hit. auto.
    + auto.
    + cbn [do_dump kind]. rewrite (Hd v ctx d d' Ha). destruct (dd v ctx d') as [i|e|]; auto. rewrite !dbind_ok.
      destruct (nth_error choices i) as [[g|cid]|] eqn:Hi; auto. apply Hf. apply Hs. eapply nth_error_In; eauto.
Qed.

Lemma field_agree E names n f v ctx d d' : self_contained names f -> agree names d d' ->
  field_to_stream E n f v ctx d = field_to_stream E n f v ctx d'.
Proof. intros Hs Ha. apply (field_agree_step E names); auto. intros. apply (dump_agree E names); auto. Qed.

(** ** Parts of a dict *)
Definition among (names : list string) (name : string) : bool := existsb (String.eqb name) names.
Lemma among_iff names name : among names name = true <-> In name names.
Proof.
  unfold among. rewrite existsb_exists. split.
  - intros (x & Hx & He). apply String.eqb_eq in He. subst. auto.
  - intros H. exists name. split; auto. apply String.eqb_refl.
Qed.
Lemma among_not names name : among names name = false <-> ~ In name names.
Proof. rewrite <- among_iff. destruct (among names name); split; congruence. Qed.

Lemma part_cons names k v d : part names ((k, v) :: d) = if among names k then (k, v) :: part names d else part names d.
Proof. reflexivity. Qed.

Lemma part_get names d name : In name names -> dget (part names d) name = dget d name.
Proof.
  intros Hn. apply among_iff in Hn. induction d as [|[k v] d IH]; auto. rewrite part_cons. cbn [dget].
  destruct (String.eqb_spec k name) as [->|Hne].
  - rewrite Hn. cbn [dget]. rewrite String.eqb_refl. auto.
  - destruct (among names k); auto. cbn [dget]. apply String.eqb_neq in Hne. rewrite Hne. auto.
Qed.

Lemma part_agree names d : agree names d (part names d).
Proof. intros name Hn. rewrite part_get; auto. Qed.

Lemma part_app names d d' : part names (d ++ d') = part names d ++ part names d'.
Proof. apply filter_app. Qed.

Lemma part_all names d : incl (dkeys d) names -> part names d = d.
Proof.
  induction d as [|[k v] d IH]; intros H; auto. rewrite part_cons.
  assert (Hk : among names k = true) by (apply among_iff; apply H; left; auto). rewrite Hk, IH; auto.
  intros x Hx. apply H. right. auto.
Qed.

Lemma part_none names d : (forall name, In name (dkeys d) -> ~ In name names) -> part names d = [].
Proof.
  induction d as [|[k v] d IH]; intros H; auto. rewrite part_cons.
  assert (Hk : among names k = false) by (apply among_not; apply H; left; auto). rewrite Hk, IH; auto.
  intros x Hx. apply H. right. auto.
Qed.

Lemma part_dset names d name v :
  part names (dset d name v) = if among names name then dset (part names d) name v else part names d.
Proof.
  induction d as [|[k w] d IH].
  - cbn [dset]. rewrite part_cons. destruct (among names name); auto.
  - cbn [dset]. destruct (String.eqb_spec k name) as [->|Hne]; rewrite !part_cons.
    + destruct (among names name); auto. cbn [dset]. rewrite String.eqb_refl. auto.
    + rewrite IH. destruct (among names k); auto. destruct (among names name); auto. cbn [dset].
      apply String.eqb_neq in Hne. rewrite Hne. auto.
Qed.

Lemma part_ddel names d name : NoDup (dkeys d) ->
  part names (ddel d name) = if among names name then ddel (part names d) name else part names d.
Proof.
  induction d as [|[k w] d IH]; intros Hnd.
  - destruct (among names name); auto.
  - inversion Hnd as [|? ? Hk Hd]; subst. cbn [ddel]. destruct (String.eqb_spec k name) as [->|Hne]; rewrite !part_cons.
    + destruct (among names name); auto. cbn [ddel]. rewrite String.eqb_refl. auto.
    + rewrite IH by auto. destruct (among names k); auto. destruct (among names name); auto. cbn [ddel].
      apply String.eqb_neq in Hne. rewrite Hne. auto.
Qed.

Lemma part_dupdate names upd : forall d, part names (dupdate d upd) = dupdate (part names d) (part names upd).
Proof.
  unfold dupdate. induction upd as [|[k v] upd IH]; intros d; auto. cbn [fold_left fst snd]. rewrite IH, part_dset, part_cons.
  destruct (among names k); auto.
Qed.

Lemma part_keys names d : dkeys (part names d) = filter (among names) (dkeys d).
Proof.
  unfold dkeys. induction d as [|[k v] d IH]; auto. rewrite part_cons. cbn [map fst filter].
  destruct (among names k); cbn [map fst]; congruence.
Qed.

Lemma part_struct_keys names vals : struct_keys (part names vals) = filter (among names) (struct_keys vals).
Proof.
  unfold struct_keys. induction vals as [|[k v] d IH]; auto. rewrite part_cons.
  destruct (among names k) eqn:Hk; cbn [map fst filter snd]; destruct (negb (is_undefined v)); cbn [map fst filter];
    rewrite ?Hk; congruence.
Qed.

Lemma part_struct_mem names vals name : In name names -> struct_mem (part names vals) name = struct_mem vals name.
Proof.
  intros Hn. apply eq_true_iff_eq. rewrite !struct_mem_in, part_struct_keys, filter_In, among_iff. tauto.
Qed.

Lemma part_nodup names d : NoDup (dkeys d) -> NoDup (dkeys (part names d)).
Proof. intros H. rewrite part_keys. apply NoDup_filter. auto. Qed.

Lemma part_mapM {B} names (g : string * value -> res (string * B)) l : forall ys,
  (forall x y, g x = Ok y -> fst y = fst x) ->
  mapM g l = Ok ys ->
  mapM g (filter (fun kv => among names (fst kv)) l) = Ok (filter (fun kv => among names (fst kv)) ys).
Proof.
  intros ys Hg H. apply mapM_iff in H. apply mapM_iff. induction H as [|x y l ys Hxy _ IH]; [constructor|].
  cbn [filter]. rewrite (Hg _ _ Hxy). destruct (among names (fst x)); auto.
Qed.

(** ** A class and its base *)
Section Inherit.
Variable E : env.
Variables cs cb : nat.
Notation names := (map fst (k_comps (cls E cb))).

Lemma assoc_front {A} (l l' : list (string * A)) name : In name (map fst l) -> assoc (l ++ l') name = assoc l name.
Proof.
  induction l as [|[k x] l IH]; cbn [map fst In app assoc]; [tauto|]. intros H.
  destruct (String.eqb_spec k name) as [->|Hne]; auto. apply IH. tauto.
Qed.

Lemma in_assoc_names {A} (l : list (string * A)) name : In name (map fst l) -> exists f, assoc l name = Some f.
Proof.
  induction l as [|[k x] l IH]; cbn [map fst In assoc]; [tauto|]. intros H.
  destruct (String.eqb_spec k name) as [->|Hne]; eauto. apply IH. tauto.
Qed.

(** Values stored for the subclass are read the same way through the base class. *)
Lemma struct_get_part n : forall vals, extends E cs cb -> well_formed (cls E cb) -> closed (cls E cb) ->
  forall name, In name names -> struct_get E n cs vals name = struct_get E n cb (part names vals) name.
Proof.
  intros vals [[own Hc] _] (Hnd & Hb & _) [_ Hf]. induction n as [|n IH]; intros name Hn.
  - cbn [struct_get]. unfold comps. rewrite Hc, assoc_front by auto.
    destruct (in_assoc_names _ _ Hn) as [f Ha]. rewrite Ha.
    pose proof (assoc_in _ _ _ Ha) as Hi. rewrite Forall_forall in Hb. specialize (Hb _ Hi). cbn [fst snd] in Hb.
    unfold name_of. rewrite Hb. cbn [oget]. rewrite part_get by auto. auto.
  - cbn [struct_get]. unfold comps. rewrite Hc, assoc_front by auto.
    destruct (in_assoc_names _ _ Hn) as [f Ha]. rewrite Ha.
    pose proof (assoc_in _ _ _ Ha) as Hi. rewrite Forall_forall in Hb. specialize (Hb _ Hi). cbn [fst snd] in Hb.
    unfold name_of. rewrite Hb. cbn [oget]. rewrite part_get by auto. destruct (dget vals name); auto.
    destruct (Hf _ _ Hi) as (_ & Hp & Hq).
    eapply looks_same; [eapply compute_looks; eauto| |].
    + intros x Hx. symmetry. apply part_struct_mem. auto.
    + intros x Hx. apply IH. auto.
Qed.

Lemma run_struct_part {A} n vals (q : query A) : extends E cs cb -> well_formed (cls E cb) -> closed (cls E cb) ->
  looks_at names q -> run_struct E n cs vals q = run_struct E n cb (part names vals) q.
Proof.
  intros He Hw Hc Hq. unfold run_struct. eapply looks_same; eauto.
  - intros x Hx. symmetry. apply part_struct_mem. auto.
  - intros x Hx. apply struct_get_part; auto.
Qed.

Lemma validated_part n vals vals' : extends E cs cb -> well_formed (cls E cb) -> validators_closed (cls E cb) ->
  (forall name, In name names -> struct_get E n cs vals name = struct_get E n cb vals' name) ->
  (forall name, In name names -> struct_mem vals name = struct_mem vals' name) ->
  validated E n cs vals -> validated E n cb vals'.
Proof.
  intros ([own Hc] & Hfv & [more Hsv]) (_ & _ & Hin) [Hm Hs] Hget Hmem [Hv Hsvs].
  assert (Hrun : forall A (q : query A), looks_at names q -> run_struct E n cs vals q = run_struct E n cb vals' q).
  { intros A q Hq. unfold run_struct. eapply looks_same; eauto. }
  split.
  - intros name methods Hi. assert (Hn : In name names) by (apply Hin; apply (in_map fst) in Hi; auto).
    destruct (Hfv _ _ Hi) as [ms Hi']. destruct (Hv _ _ Hi') as (f & v & Ha & Hg & Hacc & Hall).
    exists f, v. rewrite Hc, assoc_front in Ha by auto. rewrite <- Hget by auto. repeat (split; auto).
    apply Forall_app in Hall. destruct Hall as [Hall _]. rewrite Forall_forall in *. intros q Hq.
    rewrite <- Hrun; eauto.
  - rewrite Hsv in Hsvs. apply Forall_app in Hsvs. destruct Hsvs as [Hall _]. rewrite Forall_forall in *. intros q Hq.
    rewrite <- Hrun; auto.
Qed.

(** *** Loading *)
Lemma loads_app n ctx fs gs : forall d s d' s', loads E n ctx (fs ++ gs) d s d' s' ->
  exists d1 s1, loads E n ctx fs d s d1 s1 /\ loads E n ctx gs d1 s1 d' s'.
Proof.
  induction fs as [|[nm f] fs IH]; intros d s d' s' H.
  - exists d, s. split; auto. constructor.
  - cbn [app] in H. inversion H; subst. destruct (IH _ _ _ _ H8) as (d1 & s2 & H1 & H2).
    exists d1, s2. split; auto. econstructor; eauto.
Qed.

Lemma dkeys_app d d' : dkeys (d ++ d') = dkeys d ++ dkeys d'.
Proof. apply map_app. Qed.

Lemma loads_grows n ctx fs : forall d s d' s', loads E n ctx fs d s d' s' ->
  exists more, d' = d ++ more /\ incl (dkeys more) (map fst fs).
Proof.
  induction fs as [|[nm f] fs IH]; intros d s d' s' H; inversion H; subst.
  - exists []. rewrite app_nil_r. split; auto. intros x [].
  - destruct (IH _ _ _ _ H8) as (more & -> & Hm). cbn [map fst].
    destruct (dmem d nm).
    + exists more. split; auto. apply incl_tl. auto.
    + exists ((nm, v) :: more). rewrite <- app_assoc. split; auto. cbn [dkeys map fst].
      intros x [<-|Hx]; [left; auto|right; auto].
Qed.

Lemma loads_has n ctx fs : forall d s d' s', loads E n ctx fs d s d' s' ->
  forall name, In name (map fst fs) -> In name (dkeys d').
Proof.
  induction fs as [|[nm f] fs IH]; intros d s d' s' H name; inversion H; subst; cbn [map fst In]; [tauto|].
  intros [->|Hn]; [|eauto]. destruct (loads_grows _ _ _ _ _ _ _ H8) as (more & -> & _).
  rewrite dkeys_app. apply in_or_app. left. destruct (dmem d name) eqn:Hm.
  - unfold dmem in Hm. destruct (dget d name) eqn:Hg; [|discriminate]. apply dget_in. eauto.
  - rewrite dkeys_app. apply in_or_app. right. left. auto.
Qed.

Lemma filter_comm {A} (p q : A -> bool) l : filter p (filter q l) = filter q (filter p l).
Proof.
  induction l as [|x l IH]; auto. cbn [filter]. destruct (q x) eqn:Hq, (p x) eqn:Hp; cbn [filter]; rewrite ?Hq, ?Hp; congruence.
Qed.

Lemma discarded_front fs gs name : NoDup (map fst (fs ++ gs)) -> In name (map fst fs) ->
  discarded (fs ++ gs) name = discarded fs name.
Proof.
  intros Hnd Hn. unfold discarded. rewrite existsb_app.
  replace (existsb _ gs) with false; [apply Bool.orb_false_r|]. symmetry.
  rewrite map_app in Hnd. apply Bool.not_true_iff_false. rewrite existsb_exists. intros ([k f] & Hk & Hd).
  apply andb_prop in Hd. destruct Hd as [Hd _]. apply String.eqb_eq in Hd. cbn [fst] in Hd. subst k.
  apply (in_map fst) in Hk. cbn [fst] in Hk. clear -Hnd Hn Hk. induction (map fst fs) as [|x l IH]; [contradiction|].
  cbn [app] in Hnd. inversion Hnd; subst. destruct Hn as [->|Hn]; auto. apply H1. apply in_or_app. auto.
Qed.

Lemma load_part n ctx s s' vals : extends E cs cb -> well_formed (cls E cs) -> well_formed (cls E cb) ->
  validators_closed (cls E cb) ->
  struct_from_stream E n cs ctx [] s = (s', Ok vals) ->
  exists s1, struct_from_stream E n cb ctx [] s = (s1, Ok (part names vals))
    /\ exists own d d', k_comps (cls E cs) = k_comps (cls E cb) ++ own
         /\ loads E n ctx (k_comps (cls E cb)) [] s d s1 /\ loads E n ctx own d s1 d' s'.
Proof.
  intros He Hws Hwb Hv H. pose proof He as [[own Hc] _].
  apply struct_load_iff in H; [|auto|constructor]. destruct H as (d' & Hl & _ & Hval & ->).
  rewrite Hc in Hl. apply loads_app in Hl. destruct Hl as (d & s1 & H1 & H2).
  destruct (loads_grows _ _ _ _ _ _ _ H1) as (more1 & E1 & Hin). cbn [app] in E1. subst more1.
  destruct (loads_grows _ _ _ _ _ _ _ H2) as (more & -> & Hmore).
  assert (Hd : part names (d ++ more) = d).
  { rewrite part_app, (part_all names d), (part_none names more), app_nil_r; auto.
    intros x Hx Hn. apply Hmore in Hx. destruct Hws as (Hnd & _). rewrite Hc, map_app in Hnd.
    clear -Hnd Hx Hn. induction names as [|y l IH]; [contradiction|].
    cbn [app] in Hnd. inversion Hnd; subst. destruct Hn as [->|Hn]; auto. apply H1. apply in_or_app. auto. }
  exists s1. split; [|exists own, d, (d ++ more); auto].
  apply struct_load_iff; [auto|constructor|]. exists d. split; auto. split; [intros x []|]. split.
  - apply (validated_part n (d ++ more) d); auto.
    + intros name Hn. destruct (dget d name) as [v|] eqn:Hg.
      2:{ apply (loads_has _ _ _ _ _ _ _ H1) in Hn. apply dget_none in Hg. contradiction. }
      assert (Hg' : dget (d ++ more) name = Some v) by (rewrite <- (part_get names), Hd; auto).
      destruct n; cbn [struct_get]; unfold comps; rewrite Hc, assoc_front by auto;
      destruct (in_assoc_names _ _ Hn) as [f Ha]; rewrite Ha;
      pose proof (assoc_in _ _ _ Ha) as Hi; destruct Hwb as (_ & Hb & _); rewrite Forall_forall in Hb; specialize (Hb _ Hi);
      cbn [fst snd] in Hb; unfold name_of; rewrite Hb; cbn [oget]; rewrite Hg, Hg'; auto.
    + intros name Hn. rewrite <- (part_struct_mem names (d ++ more)) by auto. rewrite Hd. auto.
  - unfold part. rewrite filter_comm. fold (part names (d ++ more)). rewrite Hd.
    apply filter_ext_in. intros [k v] Hk. cbn [fst]. f_equal. rewrite Hc. apply discarded_front.
    + destruct Hws as (Hnd & _). rewrite Hc in Hnd. auto.
    + apply Hin. apply (in_map fst) in Hk. auto.
Qed.

(** *** to_dict *)
Lemma mapM_app {A B} (f : A -> res B) l l' ys : mapM f (l ++ l') = Ok ys ->
  exists y1 y2, ys = y1 ++ y2 /\ mapM f l = Ok y1 /\ mapM f l' = Ok y2.
Proof.
  intros H. apply mapM_iff in H. apply Forall2_app_inv_l in H. destruct H as (y1 & y2 & H1 & H2 & ->).
  exists y1, y2. split; auto. split; apply mapM_iff; auto.
Qed.

Lemma possible_app n cid vals fs gs : forall dct,
  possible_values E n cid vals (fs ++ gs) dct
  = (do d <- possible_values E n cid vals fs dct; possible_values E n cid vals gs d).
Proof.
  induction fs as [|[nm f] fs IH]; intros dct; cbn [app possible_values]; auto.
  destruct (run_struct E n cid vals (compute_value_for_dump (conf f) VNone)) as [v|e|]; auto.
  destruct (is_binobj_Error e); auto.
Qed.

Lemma possible_other n cid vals gs : forall dct d', (forall name f, In (name, f) gs -> ~ In (cname f) names) ->
  possible_values E n cid vals gs dct = Ok d' -> part names d' = part names dct.
Proof.
  induction gs as [|[nm f] gs IH]; intros dct d' Hg; cbn [possible_values]; [congruence|].
  assert (Hgs : forall name f, In (name, f) gs -> ~ In (cname f) names) by (intros; eapply Hg; right; eauto).
  destruct (run_struct E n cid vals (compute_value_for_dump (conf f) VNone)) as [v|e|]; [|destruct (is_binobj_Error e)|];
    try discriminate; intros H; apply IH in H; auto.
  rewrite H, part_dset.
  replace (among names (cname f)) with false; auto. symmetry. apply among_not. eapply Hg. left. eauto.
Qed.

Lemma possible_keys n cid vals fs : forall dct d', (forall name f, In (name, f) fs -> In (cname f) names) ->
  part names dct = dct -> possible_values E n cid vals fs dct = Ok d' -> part names d' = d'.
Proof.
  induction fs as [|[nm f] gs IH]; intros dct d' Hg Hd; cbn [possible_values]; [congruence|].
  assert (Hgs : forall name f, In (name, f) gs -> In (cname f) names) by (intros; eapply Hg; right; eauto).
  destruct (run_struct E n cid vals (compute_value_for_dump (conf f) VNone)) as [v|e|]; [|destruct (is_binobj_Error e)|];
    try discriminate; apply IH; auto.
  rewrite part_dset. replace (among names (cname f)) with true; [congruence|]. symmetry. apply among_iff. eapply Hg. left. eauto.
Qed.

Hypothesis He : extends E cs cb.
Hypothesis Hws : well_formed (cls E cs).
Hypothesis Hwb : well_formed (cls E cb).
Hypothesis Hcl : closed (cls E cb).

Lemma base_in name f : In (name, f) (k_comps (cls E cb)) -> In name names /\ cname f = name /\ c_name (conf f) = Some name.
Proof.
  intros Hi. destruct Hwb as (_ & Hb & _). rewrite Forall_forall in Hb. specialize (Hb _ Hi). cbn [fst snd] in Hb.
  split; [apply (in_map fst) in Hi; auto|]. unfold cname, name_of. rewrite Hb. auto.
Qed.

Lemma own_out own name f : k_comps (cls E cs) = k_comps (cls E cb) ++ own -> In (name, f) own -> ~ In (cname f) names.
Proof.
  intros Hc Hi Hn. destruct Hws as (Hnd & Hb & _). rewrite Hc in Hnd, Hb. rewrite map_app in Hnd.
  rewrite Forall_forall in Hb. specialize (Hb (name, f)).
  assert (Hx : c_name (conf f) = Some name) by (apply Hb; apply in_or_app; auto).
  unfold cname, name_of in Hn. rewrite Hx in Hn. apply (in_map fst) in Hi. cbn [fst] in Hi.
  clear -Hnd Hn Hi. induction names as [|x l IH]; [contradiction|].
  cbn [app] in Hnd. inversion Hnd; subst. destruct Hn as [->|Hn]; auto. apply H1. apply in_or_app. auto.
Qed.

Lemma base_looks name f ctx : In (name, f) (k_comps (cls E cb)) -> looks_at names (compute_value_for_dump (conf f) ctx).
Proof.
  intros Hi. destruct (base_in _ _ Hi) as (Hn & _ & Hx). destruct Hcl as [_ Hf]. destruct (Hf _ _ Hi) as (_ & Hp & Hq).
  eapply compute_looks; eauto.
Qed.

Lemma possible_base n vals fs : forall dct, incl fs (k_comps (cls E cb)) ->
  possible_values E n cs vals fs dct = possible_values E n cb (part names vals) fs dct.
Proof.
  induction fs as [|[nm f] fs IH]; intros dct Hi; cbn [possible_values]; auto.
  assert (Hf : In (nm, f) (k_comps (cls E cb))) by (apply Hi; left; auto).
  assert (Hfs : incl fs (k_comps (cls E cb))) by (intros x Hx; apply Hi; right; auto).
  rewrite (run_struct_part n vals) by (eauto using base_looks).
  destruct (run_struct E n cb (part names vals) (compute_value_for_dump (conf f) VNone)) as [v|e|]; auto.
  destruct (is_binobj_Error e); auto.
Qed.

Lemma forall2_part (R R' : string -> string * value -> Prop) l ys :
  Forall2 R l ys -> (forall k y, R k y -> fst y = k) -> (forall k y, In k names -> R k y -> R' k y) ->
  Forall2 R' (filter (among names) l) (part names ys).
Proof.
  intros H Hk HR. induction H as [|k [k' v] l ys Hky _ IH]; [constructor|].
  rewrite part_cons. cbn [filter]. pose proof (Hk _ _ Hky) as Hx. cbn [fst] in Hx. subst k'.
  destruct (among names k) eqn:Ha; auto. constructor; auto. apply HR; auto. apply among_iff. auto.
Qed.

Lemma whatever_part n vals w : to_dict_whatever_possible E n cs vals = Ok w ->
  to_dict_whatever_possible E n cb (part names vals) = Ok (part names w).
Proof.
  unfold to_dict_whatever_possible, comps. pose proof He as [[own Hc] _]. rewrite Hc, possible_app.
  rewrite (possible_base n vals (k_comps (cls E cb)) []) by (intros x Hx; auto).
  destruct (possible_values E n cb (part names vals) (k_comps (cls E cb)) []) as [d1|e|] eqn:H1; try discriminate. cbn [bind].
  destruct (possible_values E n cs vals own d1) as [d|e|] eqn:H2; try discriminate. cbn [bind].
  assert (Hd1 : part names d1 = d1).
  { apply (possible_keys n cb (part names vals) (k_comps (cls E cb)) [] d1); auto. intros name f Hi. destruct (base_in _ _ Hi) as (Hn & -> & _). auto. }
  assert (Hd : part names d = d1).
  { rewrite <- Hd1. eapply possible_other; [|exact H2]. intros name f Hi. eapply own_out; eauto. }
  destruct (mapM _ (struct_keys vals)) as [first|e|] eqn:Hm; try discriminate. cbn [bind]. intros [= <-].
  rewrite part_struct_keys. apply mapM_iff in Hm.
  match goal with |- (do first <- mapM ?g ?l; _) = _ => assert (Hm' : mapM g l = Ok (part names first)) end.
  { apply mapM_iff. refine (forall2_part _ _ _ _ Hm _ _).
    - intros k [k' v]. cbn [fst]. destruct (dget d k); [intros [= <- _]; auto|].
      destruct (struct_get E n cs vals k); try discriminate. intros [= <- _]; auto.
    - intros k y Hk. rewrite <- Hd, part_get by auto. rewrite <- struct_get_part by auto. auto. }
  rewrite Hm'. cbn [bind]. f_equal. rewrite part_app. f_equal.
  change (part names (filter ?p d)) with (filter (fun kv => among names (fst kv)) (filter p d)). rewrite filter_comm.
  change (filter (fun kv => among names (fst kv)) d) with (part names d). rewrite Hd. apply filter_ext_in. intros [k v] Hk. cbn [fst]. f_equal.
  apply part_struct_mem. rewrite <- Hd1 in Hk. apply filter_In in Hk. destruct Hk as [_ Hk]. apply among_iff. auto.
Qed.

Lemma dmem_part w name : In name names -> dmem (part names w) name = dmem w name.
Proof. intros Hn. unfold dmem. rewrite part_get; auto. Qed.

Lemma mapM_congr {A B} (f g : A -> res B) l : (forall x, In x l -> f x = g x) -> mapM f l = mapM g l.
Proof.
  induction l as [|x l IH]; intros H; cbn [mapM]; auto. rewrite (H x) by (left; auto).
  rewrite IH; auto. intros y Hy. apply H. right. auto.
Qed.

Lemma missing_part w upd : missing_values (k_comps (cls E cs)) w = Ok upd ->
  missing_values (k_comps (cls E cb)) (part names w) = Ok (part names upd).
Proof.
  pose proof He as [[own Hc] _]. rewrite Hc. unfold missing_values. rewrite filter_app. intros H.
  apply mapM_app in H. destruct H as (u1 & u2 & -> & H1 & H2).
  assert (Hk : forall (fs : list (string * field)) u, mapM (fun nf => do v <- run_dict w (compute_value_for_dump (conf (snd nf)) VNone);
               Ok (cname (snd nf), v)) fs = Ok u -> forall x, In x (dkeys u) -> exists nf, In nf fs /\ x = cname (snd nf)).
  { intros fs u Hm. apply mapM_iff in Hm. induction Hm as [|nf [k v] fs u Hx _ IH]; cbn [dkeys map fst In]; [tauto|].
    intros x [<-|Hi].
    - exists nf. split; auto. destruct (run_dict w _); try discriminate. cbn [bind] in Hx. congruence.
    - destruct (IH x Hi) as (nf' & Hn & ->). eauto. }
  rewrite part_app, (part_all names u1), (part_none names u2), app_nil_r.
  - etransitivity; [|exact H1]. rewrite (filter_ext_in (fun nf => negb (dmem (part names w) (cname (snd nf))))
      (fun nf => negb (dmem w (cname (snd nf))))).
    2:{ intros [name f] Hi. cbn [snd]. f_equal. apply dmem_part. destruct (base_in _ _ Hi) as (Hn & -> & _). auto. }
    apply mapM_congr. intros [name f] Hi. apply filter_In in Hi. destruct Hi as [Hi _]. cbn [snd].
    rewrite <- (agree_dict names w (part names w)); auto using part_agree. eapply base_looks. eauto.
  - intros x Hx. destruct (Hk _ _ H2 x Hx) as ([name f] & Hi & ->). apply filter_In in Hi. destruct Hi as [Hi _]. cbn [snd].
    eapply own_out; eauto.
  - intros x Hx. destruct (Hk _ _ H1 x Hx) as ([name f] & Hi & ->). apply filter_In in Hi. destruct Hi as [Hi _]. cbn [snd].
    destruct (base_in _ _ Hi) as (Hn & -> & _). auto.
Qed.

Lemma nodup_ddel d name : NoDup (dkeys d) -> NoDup (dkeys (ddel d name)).
Proof. intros H. rewrite ddel_filter by auto. unfold dkeys in *. clear -H. induction d as [|[k v] d IH]; auto.
  cbn [map fst filter] in *. inversion H; subst. destruct (negb _); cbn [map fst]; auto. constructor; auto.
  intros Hi. apply H2. apply in_map_iff in Hi. destruct Hi as (x & <- & Hx). apply filter_In in Hx. apply in_map. tauto.
Qed.

Lemma drop_base fs : forall d d', (forall name f, In (name, f) fs -> In (cname f) names) -> NoDup (dkeys d) ->
  drop_discard fs d = Ok d' -> drop_discard fs (part names d) = Ok (part names d') /\ NoDup (dkeys d').
Proof.
  induction fs as [|[nm f] fs IH]; intros d d' Hi Hnd; cbn [drop_discard].
  - intros [= <-]. auto.
  - assert (Hn : In (cname f) names) by (eapply Hi; left; eauto).
    assert (Hi' : forall name f, In (name, f) fs -> In (cname f) names) by (intros; eapply Hi; right; eauto).
    destruct (c_discard (conf f)); [|apply IH; auto]. rewrite dmem_part by auto.
    destruct (dmem d (cname f)); [|discriminate]. intros H. apply IH in H; auto using nodup_ddel.
    rewrite part_ddel in H by auto. apply among_iff in Hn. rewrite Hn in H. auto.
Qed.

Lemma drop_other fs : forall d d', (forall name f, In (name, f) fs -> ~ In (cname f) names) -> NoDup (dkeys d) ->
  drop_discard fs d = Ok d' -> part names d' = part names d.
Proof.
  induction fs as [|[nm f] fs IH]; intros d d' Hi Hnd; cbn [drop_discard]; [congruence|].
  assert (Hn : ~ In (cname f) names) by (eapply Hi; left; eauto).
  assert (Hi' : forall name f, In (name, f) fs -> ~ In (cname f) names) by (intros; eapply Hi; right; eauto).
  destruct (c_discard (conf f)); [|apply IH; auto].
  destruct (dmem d (cname f)); [|discriminate]. intros H. apply IH in H; auto using nodup_ddel.
  rewrite part_ddel in H by auto. apply among_not in Hn. rewrite Hn in H. auto.
Qed.

Lemma drop_app fs gs : forall d d', drop_discard (fs ++ gs) d = Ok d' ->
  exists d1, drop_discard fs d = Ok d1 /\ drop_discard gs d1 = Ok d'.
Proof.
  induction fs as [|[nm f] fs IH]; intros d d'; cbn [app drop_discard]; eauto.
  destruct (c_discard (conf f)); auto. destruct (dmem d (cname f)); auto. discriminate.
Qed.

Lemma dicts_part n d d' : dicts_of E n d = Ok d' -> dicts_of E n (part names d) = Ok (part names d').
Proof.
  intros H. apply part_mapM with (names := names) in H; auto.
  intros [k v] [k' v']. cbn [fst snd]. destruct (recursive_to_dicts E n v); try discriminate. cbn [bind]. congruence.
Qed.

Lemma to_dict_part n vals keep d : instance_of E cs vals -> to_dict E n cs vals keep = Ok d ->
  to_dict E n cb (part names vals) keep = Ok (part names d).
Proof.
  intros Hi. unfold to_dict, comps.
  destruct (to_dict_whatever_possible E n cs vals) as [w|e|] eqn:Hw; try discriminate. cbn [bind].
  rewrite (whatever_part _ _ _ Hw). cbn [bind].
  destruct (whatever_spec _ _ _ _ _ Hi Hw) as (Hnd & _).
  destruct (missing_values (k_comps (cls E cs)) w) as [upd|e|] eqn:Hm; try discriminate. cbn [bind].
  rewrite (missing_part _ _ Hm). cbn [bind]. rewrite <- part_dupdate. cbv zeta.
  pose proof (missing_keys _ _ _ (well_formed_bound _ Hws) Hm) as (Hu & Hdis & _).
  rewrite (dupdate_spec upd w); auto. 2:{ intros name Hn. apply Hdis in Hn. tauto. }
  assert (Hnd2 : NoDup (dkeys (w ++ upd))).
  { rewrite dkeys_app. apply nodup_app; auto. intros name Hn Hn2. apply Hdis in Hn2. tauto. }
  destruct keep; cbn [bind].
  - apply dicts_part.
  - destruct (drop_discard (k_comps (cls E cs)) (w ++ upd)) as [dd|e|] eqn:Hd; try discriminate. cbn [bind].
    pose proof He as [[own Hc] _]. rewrite Hc in Hd. apply drop_app in Hd. destruct Hd as (d1 & H1 & H2).
    apply drop_base in H1; auto.
    2:{ intros name f Hx. destruct (base_in _ _ Hx) as (Hn & -> & _). auto. }
    destruct H1 as [H1 Hnd1]. apply drop_other in H2; auto.
    2:{ intros name f Hx. eapply own_out; eauto. }
    rewrite H1. cbn [bind]. rewrite <- H2. apply dicts_part.
Qed.

(** *** Dumping *)
Lemma dump_part n vals ctx out : instance_of E cs vals -> struct_to_stream E n cs vals ctx = (out, Ok tt) ->
  exists out1 out2, out = out1 ++ out2 /\ struct_to_stream E n cb (part names vals) ctx = (out1, Ok tt).
Proof.
  intros Hi H. apply struct_dump_iff in H. destruct H as (all & parts & Hv & Ha & Hp & ->).
  pose proof He as [[own Hc] _]. rewrite Hc in Hp. apply Forall2_app_inv_l in Hp. destruct Hp as (p1 & p2 & H1 & H2 & ->).
  exists (concat p1), (concat p2). rewrite concat_app. split; auto. apply struct_dump_iff.
  exists (part names all), p1. split; [|split; [apply to_dict_part; auto|split; auto]].
  - apply (validated_part n vals); auto.
    + destruct Hcl; auto.
    + intros name Hn. apply struct_get_part; auto.
    + intros name Hn. symmetry. apply part_struct_mem. auto.
  - assert (Hall : forall nf, In nf (k_comps (cls E cb)) -> forall bs, field_part E n ctx all nf bs -> field_part E n ctx (part names all) nf bs).
    { intros [name f] Hf bs (v & Hr & Hb). exists v. cbn [snd] in *.
      rewrite <- (agree_dict names all); auto using part_agree. 2: eapply base_looks; eauto.
      split; auto. destruct Hb as [Hb|[Hb1 Hb2]]; auto. right. split; auto.
      rewrite <- (field_agree E names n f v ctx all); auto using part_agree. destruct Hcl as [_ Hx]. apply (Hx _ _ Hf). }
    revert Hall. generalize (part names all) as all2. clear -H1. intros all2 Hall.
    induction H1 as [|nf bs fs p Hb _ IH]; constructor.
    + apply Hall; auto. left. auto.
    + apply IH. intros x Hx. apply Hall. right. auto.
Qed.
End Inherit.

(** ** Class creation *)
From Verif Require Import Decl SpecDecl DeclProofs PepProofs.

Definition prolongs (t0 t : fvals) : Prop :=
  forall name methods, In (name, methods) t0 -> exists more, In (name, methods ++ more) t.

Lemma set_other t name l : forall x m, In (x, m) t -> x <> name -> In (x, m) (set_fvals t name l).
Proof.
  induction t as [|[k v] t IH]; intros x m; cbn [set_fvals In]; [tauto|].
  destruct (String.eqb_spec k name) as [->|Hne].
  - intros [Hx|Hi] Hd; [congruence|right; auto].
  - intros [Hx|Hi] Hd; [left; auto|right; auto].
Qed.

Lemma set_more t name l l' : assoc t name = Some l -> prolongs t (set_fvals t name (l ++ l')).
Proof.
  induction t as [|[k v] t IH]; cbn [assoc set_fvals]; [discriminate|].
  destruct (String.eqb_spec k name) as [->|Hne].
  - intros [= ->] x m [Hx|Hi].
    + injection Hx as -> ->. exists l'. left. auto.
    + exists []. rewrite app_nil_r. right. auto.
  - intros Ha x m [Hx|Hi].
    + exists []. rewrite app_nil_r. left. auto.
    + destruct (IH Ha x m Hi) as [more Hm]. exists more. right. auto.
Qed.

Lemma prolongs_trans t1 t2 t3 : prolongs t1 t2 -> prolongs t2 t3 -> prolongs t1 t3.
Proof.
  intros H1 H2 x m Hi. destruct (H1 _ _ Hi) as [m1 Hm1]. destruct (H2 _ _ Hm1) as [m2 Hm2].
  exists (m1 ++ m2). rewrite app_assoc. auto.
Qed.

Lemma attach_prolongs names q : forall t t', attach names q t = Ok t' -> prolongs t t'.
Proof.
  induction names as [|name names IH]; intros t t'; cbn [attach].
  - intros [= ->] x m Hi. exists []. rewrite app_nil_r. auto.
  - destruct (assoc t name) as [l|] eqn:Ha; [|discriminate]. intros H. apply IH in H.
    eapply prolongs_trans; [|exact H]. apply set_more. auto.
Qed.

Lemma bind_prolongs ns : forall t sv t' sv', bind_validators ns t sv = Ok (t', sv') ->
  prolongs t t' /\ exists more, sv' = sv ++ more.
Proof.
  induction ns as [|[name i] ns IH]; intros t sv t' sv'; cbn [bind_validators].
  - intros [= -> ->]. split; [intros x m Hi; exists []; rewrite app_nil_r; auto|]. exists []. rewrite app_nil_r. auto.
  - destruct i; try apply IH.
    + destruct (attach names q t) as [t1|e|] eqn:Ha; try discriminate. cbn [bind]. intros H. apply IH in H.
      destruct H as [H1 H2]. split; auto. eapply prolongs_trans; [|exact H1]. eapply attach_prolongs; eauto.
    + intros H. apply IH in H. destruct H as [H1 [more ->]]. split; auto. exists ([q] ++ more). rewrite app_assoc. auto.
Qed.

Lemma own_prolongs ns : forall t x m, (forall d, ~ In (x, IField d) ns) -> In (x, m) t -> In (x, m) (own_fvals ns t).
Proof.
  induction ns as [|[name i] ns IH]; intros t x m Hn Hi; cbn [own_fvals]; auto.
  assert (Hn' : forall d, ~ In (x, IField d) ns) by (intros d Hd; apply (Hn d); right; auto).
  destruct i; try (apply IH; auto; fail). apply IH; auto. apply set_other; auto. intros ->.
  eapply Hn. left. eauto.
Qed.

Lemma collect_new defaults ns : forall cs i off found r, 
  collect_assigned_fields defaults ns cs i off found = Ok r ->
  (exists own, fst r = cs ++ own) /\ forall x d, In (x, IField d) ns -> ~ In x (map fst cs).
Proof.
  induction ns as [|[name it] ns IH]; intros cs i off found r; cbn [collect_assigned_fields].
  - intros [= <-]. split; [exists []; rewrite app_nil_r; auto|]. intros x d [].
  - destruct it; try (intros H; apply IH in H; destruct H as [H1 H2]; split; auto; intros x d0 [Hx|Hi]; [discriminate|eauto]; fail).
    destruct (assoc cs name) as [f|] eqn:Ha; [discriminate|].
    destruct (bind_to_container _ _ _ _ _) as [f|e|]; try discriminate. cbn [bind]. intros H. apply IH in H.
    destruct H as [[own H1] H2]. split; [exists ((name, f) :: own); rewrite H1, <- app_assoc; auto|].
    intros x d0 [Hx|Hi].
    + injection Hx as -> _. apply assoc_none in Ha. auto.
    + intros Hx. eapply H2; eauto. rewrite map_app. apply in_or_app. auto.
Qed.

Lemma created_extends E n name b meta ns k : well_formed (cls E b) -> create_class E n name [b] meta ns = Ok k ->
  forall E' cs cb, cls E' cs = k -> cls E' cb = cls E b -> extends E' cs cb.
Proof.
  intros (_ & _ & Hin). unfold create_class.
  destruct (set_names ns) as [u|e|]; try discriminate. cbn [bind].
  destruct (get_size E n b) as [off|e|]; try discriminate. cbn [bind].
  destruct (collect_assigned_fields _ _ _ _ _ _) as [c|e|] eqn:Hc; try discriminate. cbn [bind].
  destruct (bind_validators _ _ _) as [[t sv]|e|] eqn:Hb; try discriminate. cbn [bind fst snd].
  intros [= <-] E' cs cb Hs Hcb. apply collect_new in Hc. destruct Hc as [[own Ho] Hnew].
  apply bind_prolongs in Hb. destruct Hb as [Hp Hsv].
  unfold extends. rewrite Hs, Hcb. cbn [k_comps k_fvals k_svals]. split; [eauto|]. split; [|exact Hsv].
  intros x m Hi. apply Hp. apply own_prolongs; auto. intros d Hd. eapply Hnew; eauto.
  apply Hin. apply (in_map fst) in Hi. auto.
Qed.

Lemma dataclass_extends native E n name b meta ns k hs attr k' : well_formed (cls E b) ->
  create_class E n name [b] meta ns = Ok k -> dataclass native E n k hs attr = Ok k' ->
  forall E' cs cb, cls E' cs = k' -> cls E' cb = cls E b -> extends E' cs cb.
Proof.
  intros Hw Hk Hd E' cs cb Hs Hb.
  destruct (created_extends _ _ _ _ _ _ _ Hw Hk [k; cls E b] 0%nat 1%nat eq_refl eq_refl) as ([o1 H1] & H2 & H3).
  cbn in H1, H2, H3. apply dataclass_inv in Hd. destruct Hd as (_ & ds & own & _ & Hc & _ & _ & _ & Hf & Hv & _).
  unfold extends. rewrite Hs, Hb, Hc, Hf, Hv, H1. split; [exists (o1 ++ own); symmetry; apply app_assoc|]. auto.
Qed.
