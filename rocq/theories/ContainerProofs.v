(** Unions, discard fields, context-dependent presence (C44-C46). *)
From Verif Require Import Tac.
From Verif Require Export ToDictProofs.

(** ** Union *)
Lemma union_dump_field E n c choices ld dd v ctx d i g :
  c_size c = SNone -> is_data v = true -> accepts c v ->
  dd v ctx d = Ok i -> nth_error choices i = Some (CField g) ->
  field_to_stream E (S n) (Field c (KUnion choices ld dd)) v ctx d
  = field_to_stream E n g v ctx d.
Proof.
  intros Hs Hd Ha Hi Hg. unfold field_to_stream at 1, field_to_stream_with.
  rewrite to_stream_data by auto. cbn [conf kind do_dump]. rewrite Hi, dbind_ok, Hg.
  change (field_to_stream_with (do_dump E n) g v ctx d) with (field_to_stream E n g v ctx d).
  destruct (field_to_stream E n g v ctx d) as [bs [[]|e|]] eqn:Hf.
  - apply sized_write_exact; intros; congruence.
  - rewrite (field_dump_atomic _ _ _ _ _ _ _ _ Hf eq_refl). auto.
  - rewrite (field_dump_atomic _ _ _ _ _ _ _ _ Hf eq_refl). auto.
Qed.

Lemma union_dump_struct E n c choices ld dd vals ctx d i cid out :
  c_size c = SNone -> accepts c (VDict vals) ->
  dd (VDict vals) ctx d = Ok i -> nth_error choices i = Some (CStruct cid) ->
  field_to_stream E (S n) (Field c (KUnion choices ld dd)) (VDict vals) ctx d = (out, Ok tt)
  <-> incl (dkeys vals) (map fst (k_comps (cls E cid)))
      /\ struct_to_stream E n cid vals ctx = (out, Ok tt).
Proof.
  intros Hs Ha Hi Hg. unfold field_to_stream at 1, field_to_stream_with.
  rewrite to_stream_data by auto. cbn [conf kind do_dump]. rewrite Hi, dbind_ok, Hg.
  change (struct_to_stream E n cid) with (struct_to_stream_with E (do_dump E n) n cid).
  destruct (struct_init E cid vals) as [w|e|] eqn:Hini.
  - rewrite dbind_ok. apply init_ok_iff in Hini. destruct Hini as [-> Hincl].
    destruct (struct_to_stream_with E (do_dump E n) n cid vals ctx) as [bs [[]|e|]].
    + rewrite sized_write_exact by (intros; congruence). tauto.
    + split; [|intros [_ H]]; discriminate.
    + split; [|intros [_ H]]; discriminate.
  - rewrite dbind_raise. split; [discriminate|]. intros [Hincl _].
    assert (H : struct_init E cid vals = Ok vals) by (apply init_ok_iff; auto). congruence.
  - rewrite dbind_oof. split; [discriminate|]. intros [Hincl _].
    assert (H : struct_init E cid vals = Ok vals) by (apply init_ok_iff; auto). congruence.
Qed.

Lemma do_dump_unchecked E n f v ctx d : do_dump E n (unchecked f) v ctx d = do_dump E n f v ctx d.
Proof. destruct f as [c k]. destruct n, k; reflexivity. Qed.

Lemma do_load_unchecked E n f ctx d : do_load E n (unchecked f) ctx d = do_load E n f ctx d.
Proof.
  destruct f as [c k].
  assert (Hg : forall k d', leaf_kind k = true ->
     get_expected_size_with (fun v => do_dump E n (unchecked (Field c k)) v VNone d') (conf (unchecked (Field c k))) k d'
     = get_expected_size_with (fun v => do_dump E n (Field c k) v VNone d') c k d').
  { intros k0 d' _. cbn [unchecked conf].
    transitivity (get_expected_size_with (fun v => do_dump E n (Field c k0) v VNone d')
      (conf (unchecked (Field c k0))) k0 d'); [|reflexivity].
    apply ges_with_ext. intros v. apply do_dump_unchecked. }
  destruct n, k; try reflexivity; cbn [do_load unchecked kind conf];
    rewrite <- (Hg _ d eq_refl), <- (Hg _ [] eq_refl); reflexivity.
Qed.

Lemma union_load_field E c choices ld dd ctx d s s' v i g :
  always_present c -> c_null c = VUndefined -> c_const c = VUndefined ->
  ld s ctx d = Ok i -> nth_error choices i = Some (CField g) -> c_null (conf g) = VUndefined ->
  loads_to E (Field c (KUnion choices ld dd)) ctx d s s' v
  <-> accepts c v /\ loads_to E (unchecked g) ctx d s s' v.
Proof.
  intros Hp Hn Hc Hi Hg Hgn.
  assert (Hun : forall n, field_from_stream E n (unchecked g) ctx d s = (s', Ok v)
                 <-> do_load E n g ctx d s = (s', Ok v)).
  { intros n. unfold unchecked at 1.
    rewrite present_load_iff by (try intros ? ? ?; reflexivity || exact Hgn).
    change (Field _ (kind g)) with (unchecked g). rewrite do_load_unchecked.
    split; [tauto|]. intros H. split; auto. constructor. }
  split.
  - intros [n H]. apply present_load_iff in H; auto. destruct H as [H Ha]. split; auto.
    destruct n as [|n]; [discriminate|]. cbn [do_load kind] in H. rewrite Hi, Hg in H.
    exists n. apply Hun. auto.
  - intros [Ha [n H]]. exists (S n). apply present_load_iff; auto. split; auto.
    cbn [do_load kind]. rewrite Hi, Hg. apply Hun. auto.
Qed.

(** ** Discard *)
Lemma load_drops_discard E n cid ctx kw s s' vals name f :
  well_formed (cls E cid) -> NoDup (dkeys kw) ->
  In (name, f) (k_comps (cls E cid)) -> c_discard (conf f) = true ->
  struct_from_stream E n cid ctx kw s = (s', Ok vals) -> dget vals name = None.
Proof.
  intros Hwf Hnd Hin Hd H. apply struct_load_iff in H; auto. destruct H as (d & _ & _ & _ & ->).
  rewrite (dget_filter_key (fun k => negb (discarded (k_comps (cls E cid)) k))).
  rewrite (discarded_iff _ _ _ (well_formed_bound _ Hwf) Hin), Hd. auto.
Qed.

Lemma discard_not_in_dict E n cid vals all name f :
  instance_of E cid vals -> In (name, f) (k_comps (cls E cid)) -> c_discard (conf f) = true ->
  to_dict E n cid vals false = Ok all -> dget all name = None.
Proof.
  intros Hi Hin Hd H. apply to_dict_keys in H; auto. destruct H as [_ Hk]. apply dget_none. intros Hn.
  apply Hk in Hn. destruct Hn as (g & Hg & [Hx|Hx]); [discriminate|].
  destruct Hi as (Hwf & _). pose proof (well_formed_bound _ Hwf) as Hb.
  destruct (bound_assoc _ _ _ Hb Hin). destruct (bound_assoc _ _ _ Hb Hg). congruence.
Qed.

Lemma instance_name E cid vals name f : instance_of E cid vals -> In (name, f) (k_comps (cls E cid)) ->
  c_name (conf f) = Some name.
Proof.
  intros (Hwf & _) Hi. destruct (bound_assoc _ _ _ (well_formed_bound _ Hwf) Hi). auto.
Qed.

Lemma discard_dumps_default E n cid vals all name f v ctx bs :
  instance_of E cid vals -> In (name, f) (k_comps (cls E cid)) -> c_discard (conf f) = true ->
  to_dict E n cid vals false = Ok all ->
  c_default (conf f) <> VUndefined -> default_of (conf f) = Ok v -> v <> VUndefined ->
  v <> VNotPresent -> run_dict all (c_present (conf f) ctx None) = Ok true ->
  field_part E n ctx all (name, f) bs <-> field_to_stream E n f v ctx all = (bs, Ok tt).
Proof.
  intros Hi Hin Hd H Hdf Hdo Hu Hnp Hp.
  assert (Hv : run_dict all (compute_value_for_dump (conf f) ctx) = Ok v).
  { apply value_default; auto. rewrite (instance_name _ _ _ _ _ Hi Hin). cbn [oget].
    eapply discard_not_in_dict; eauto. }
  unfold field_part. cbn [snd]. split.
  - intros (w & Hw & Hor). assert (w = v) by congruence. subst w.
    destruct Hor as [[]|[]]; auto. contradiction.
  - intros Hs. exists v. auto.
Qed.

Lemma discard_without_default E n cid vals name f ctx out :
  instance_of E cid vals -> In (name, f) (k_comps (cls E cid)) -> c_discard (conf f) = true ->
  c_default (conf f) = VUndefined -> c_compute (conf f) = None -> always_present (conf f) ->
  struct_to_stream E n cid vals ctx <> (out, Ok tt).
Proof.
  intros Hi Hin Hd Hdf Hc Hp H. apply struct_dump_iff in H. destruct H as (all & parts & _ & Ha & Hf & _).
  assert (Hpart : exists bs, field_part E n ctx all (name, f) bs).
  { clear - Hf Hin. induction Hf as [|nf bs fs parts Hb _ IH]; [destruct Hin|].
    destruct Hin as [->|Hin]; eauto. }
  destruct Hpart as (bs & v & Hv & _). cbn [snd] in Hv.
  rewrite value_missing in Hv; auto; [discriminate|].
  rewrite (instance_name _ _ _ _ _ Hi Hin). cbn [oget]. eapply discard_not_in_dict; eauto.
Qed.

(** ** Context *)
Lemma run_compute mem get keys c ctx :
  run_q mem get keys (compute_value_for_dump c ctx)
  = match run_q mem get keys (stored_or_fallback c) with
    | Ok v =>
      if is_not_present v then Ok VNotPresent
      else match run_q mem get keys (c_present c ctx None) with
           | Ok true => if is_undefined v then Raise (EMissingRequired (c_name c)) else Ok v
           | Ok false => Ok VNotPresent
           | Raise e => Raise e
           | OOF => OOF
           end
    | Raise e => Raise e
    | OOF => OOF
    end.
Proof.
  unfold compute_value_for_dump. rewrite run_qbind.
  destruct (run_q _ _ _ (stored_or_fallback c)) as [v|e|]; auto.
  destruct (is_not_present v); [reflexivity|]. rewrite run_qbind.
  destruct (run_q _ _ _ (c_present c ctx None)) as [[|]|e|]; cbn [negb]; auto.
  destruct (is_undefined v); reflexivity.
Qed.

Lemma absent_without_context E n cid vals all name f :
  instance_of E cid vals -> In (name, f) (k_comps (cls E cid)) -> c_discard (conf f) = false ->
  (forall mem get keys, run_q mem get keys (c_present (conf f) VNone None) = Ok false) ->
  to_dict E n cid vals false = Ok all -> dget all name = Some VNotPresent.
Proof.
  intros Hi Hin Hd Hp H. pose proof (instance_name _ _ _ _ _ Hi Hin) as Hname.
  pose proof Hi as (Hwf & Hnd & _). pose proof (well_formed_bound _ Hwf) as Hb.
  destruct (to_dict_spec _ _ _ _ _ _ Hi H) as (w & Hw & raw & Hr & _ & Hk & Hval).
  assert (Hmem : In name (dkeys raw)).
  { apply Hk. split; [apply (in_map fst) in Hin; auto|]. right.
    change (comps E cid) with (k_comps (cls E cid)). rewrite (discarded_iff _ _ _ Hb Hin). auto. }
  apply dget_in in Hmem. destruct Hmem as [v Hv].
  assert (v = VNotPresent).
  { destruct (Hval name f v Hin Hv) as [Hg|[Hg Hrun]].
    - apply whatever_spec in Hw; auto. destruct Hw as (_ & _ & Hw). specialize (Hw name f Hin).
      unfold run_struct in Hw. rewrite run_compute in Hw. rewrite Hp in Hw.
      destruct (run_q _ _ _ (stored_or_fallback (conf f))) as [u|e|] eqn:Hs.
      + destruct (is_not_present u); congruence.
      + destruct Hw as [He Hw]. destruct (struct_mem vals name) eqn:Hm; [|congruence].
        exfalso. unfold stored_or_fallback in Hs. rewrite Hname in Hs. cbn [run_q] in Hs. rewrite Hm in Hs.
        cbn [run_q] in Hs. destruct (bound_assoc _ _ _ Hb Hin) as [Has _].
        rewrite (struct_get_stored E n cid vals name f v) in Hs; auto; [discriminate|congruence].
      + destruct Hw.
    - unfold run_dict in Hrun. rewrite run_compute in Hrun. rewrite Hp in Hrun.
      destruct (run_q _ _ _ (stored_or_fallback (conf f))) as [u|e|] eqn:Hs; try discriminate.
      destruct (is_not_present u); congruence. }
  subst v. pose proof (dicts_of_get _ _ _ _ Hr name) as Hg. rewrite Hv in Hg.
  destruct Hg as (v' & Hrec & ->). destruct n; [discriminate|]. cbn in Hrec. congruence.
Qed.

Lemma stored_absent_part E n ctx all name f bs : c_name (conf f) = Some name ->
  dget all name = Some VNotPresent -> field_part E n ctx all (name, f) bs -> bs = [].
Proof.
  intros Hn Hg (v & Hv & Hor). cbn [snd] in *. rewrite compute_run in Hv.
  rewrite (stored_explicit _ _ name VNotPresent) in Hv by auto. cbn [is_not_present] in Hv.
  destruct Hor as [[]|[]]; auto. congruence.
Qed.

Lemma context_ignored E n cid vals name f ctx out :
  instance_of E cid vals -> In (name, f) (k_comps (cls E cid)) -> c_discard (conf f) = false ->
  (forall mem get keys, run_q mem get keys (c_present (conf f) VNone None) = Ok false) ->
  struct_to_stream E n cid vals ctx = (out, Ok tt) ->
  exists all parts, Forall2 (field_part E n ctx all) (k_comps (cls E cid)) parts
    /\ out = concat parts /\ dget all name = Some VNotPresent
    /\ forall bs, field_part E n ctx all (name, f) bs -> bs = [].
Proof.
  intros Hi Hin Hd Hp H. apply struct_dump_iff in H. destruct H as (all & parts & _ & Ha & Hf & ->).
  assert (Hg : dget all name = Some VNotPresent) by (eapply absent_without_context; eauto).
  exists all, parts. split; auto. split; auto. split; auto. intros bs Hb.
  eapply stored_absent_part; eauto. eapply instance_name; eauto.
Qed.
