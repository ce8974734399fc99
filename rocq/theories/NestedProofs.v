(** Nested fields (C86). *)
From Verif Require Import Tac SpecAccess.
From Verif Require Export ContainerProofs LeafMore ArrayProofs ContainedProofs DumpErrors RebuildProofs.
From Coq Require Import String ZArith List Lia.
Import ListNotations.
Open Scope list_scope.
Open Scope Z_scope.

(** ** The field alone *)
Lemma nested_size g c cid bs out d :
  (forall name, c_size c = SRef name -> g = match dget d name with
     | Some (VInt n) => Ok n | Some _ => Raise ETypeErr | None => Raise (EMissingRequired (Some name)) end) ->
  sized_write g c (KNested cid) bs = (out, Ok tt) <-> out = bs /\ fits_size c d bs.
Proof. exact (sized_write_fits g c (Field c KBytes) CntNone None bs out d). Qed.

Lemma nested_size' E n c cid bs out d :
  sized_write (ges (do_dump E n) (Field c (KNested cid)) d) c (KNested cid) bs = (out, Ok tt)
  <-> out = bs /\ fits_size c d bs.
Proof. apply nested_size. intros nm Hs. unfold ges, get_expected_size_with. cbn [conf]. rewrite Hs. reflexivity. Qed.

Lemma nested_instance E n c cid cid' vals ctx d out : accepts c (VStruct cid' vals) ->
  field_to_stream E (S n) (Field c (KNested cid)) (VStruct cid' vals) ctx d = (out, Ok tt)
  <-> struct_to_stream E n cid' vals ctx = (out, Ok tt) /\ fits_size c d out.
Proof.
  intros Ha. unfold field_to_stream, field_to_stream_with. rewrite to_stream_data by auto. cbn [conf kind].
  change (do_dump E (S n) (Field c (KNested cid)) (VStruct cid' vals) ctx d) with (struct_to_stream E n cid' vals ctx).
  destruct (struct_to_stream E n cid' vals ctx) as [bs [[]|e|]].
  - rewrite nested_size'. split; [intros [-> H]; auto|intros [H1 H2]; injection H1 as <-; auto].
  - split; [discriminate|intros [H _]; discriminate].
  - split; [discriminate|intros [H _]; discriminate].
Qed.

Lemma nested_instance_fails E n c cid cid' vals ctx d bs e : accepts c (VStruct cid' vals) ->
  struct_to_stream E n cid' vals ctx = (bs, Raise e) ->
  field_to_stream E (S n) (Field c (KNested cid)) (VStruct cid' vals) ctx d = ([], Raise e).
Proof.
  intros Ha H. unfold field_to_stream, field_to_stream_with. rewrite to_stream_data by auto. cbn [conf kind do_dump].
  unfold struct_to_stream in H. rewrite H. auto.
Qed.

Lemma nested_dict E n c cid vals ctx d out : accepts c (VDict vals) ->
  field_to_stream E (S n) (Field c (KNested cid)) (VDict vals) ctx d = (out, Ok tt)
  <-> incl (dkeys vals) (map fst (k_comps (cls E cid)))
      /\ struct_to_stream E n cid vals ctx = (out, Ok tt) /\ fits_size c d out.
Proof.
  intros Ha. unfold field_to_stream, field_to_stream_with. rewrite to_stream_data by auto. cbn [conf kind].
  change (do_dump E (S n) (Field c (KNested cid)) (VDict vals) ctx d)
    with (ddo vals <- dlift (struct_init E cid vals); struct_to_stream E n cid vals ctx).
  destruct (struct_init E cid vals) as [w|e|] eqn:Hi.
  - rewrite dbind_ok. apply init_ok_iff in Hi. destruct Hi as [-> Hincl].
    destruct (struct_to_stream E n cid vals ctx) as [bs [[]|e|]].
    + rewrite nested_size'. split; [intros [-> H]; auto|intros (_ & H1 & H2); injection H1 as <-; auto].
    + split; [discriminate|intros (_ & H & _); discriminate].
    + split; [discriminate|intros (_ & H & _); discriminate].
  - rewrite FieldProofs.dbind_raise. split; [discriminate|]. intros [H _].
    assert (struct_init E cid vals = Ok vals) by (apply init_ok_iff; auto). congruence.
  - rewrite dbind_oof. split; [discriminate|]. intros [H _].
    assert (struct_init E cid vals = Ok vals) by (apply init_ok_iff; auto). congruence.
Qed.

Lemma nested_unknown E n c cid vals ctx d name : accepts c (VDict vals) -> In name (dkeys vals) ->
  ~ In name (map fst (k_comps (cls E cid))) ->
  exists names, field_to_stream E (S n) (Field c (KNested cid)) (VDict vals) ctx d = ([], Raise (EUnexpectedValue names))
    /\ forall x, In x names <-> In x (dkeys vals) /\ ~ In x (map fst (k_comps (cls E cid))).
Proof.
  intros Ha Hin Hno. unfold field_to_stream, field_to_stream_with. rewrite to_stream_data by auto. cbn [conf kind do_dump].
  unfold struct_init.
  set (extra := filter (fun k => match assoc (comps E cid) k with Some _ => false | None => true end) (dkeys vals)).
  assert (Hx : forall x, In x extra <-> In x (dkeys vals) /\ ~ In x (map fst (k_comps (cls E cid)))).
  { intros x. unfold extra. rewrite filter_In. change (k_comps (cls E cid)) with (comps E cid).
    destruct (assoc (comps E cid) x) as [f|] eqn:Hf.
    - split; [intros [_ H]; discriminate|]. intros [_ H]. destruct H. apply assoc_in in Hf.
      apply (in_map fst) in Hf. exact Hf.
    - apply assoc_none in Hf. tauto. }
  destruct extra as [|x l] eqn:Hl; [destruct (proj2 (Hx name)); auto|].
  exists (x :: l). rewrite FieldProofs.dbind_raise. split; auto.
Qed.

(** Loading. *)
Lemma nested_load E n c cid ctx d s s' v : always_present c -> c_null c = VUndefined -> c_const c = VUndefined ->
  field_from_stream E (S n) (Field c (KNested cid)) ctx d s = (s', Ok v)
  <-> exists vals, struct_from_stream E n cid ctx [] s = (s', Ok vals) /\ v = VStruct cid vals /\ accepts c v.
Proof.
  intros Hp Hn Hc. unfold field_from_stream, field_from_stream_with.
  rewrite from_stream_present by (cbn; auto). unfold checked. cbn [conf do_load kind]. rewrite Hc. cbn [is_undefined negb bind].
  unfold lbind, lret, struct_from_stream.
  destruct (struct_from_stream_with E (do_load E n) n cid ctx [] s) as [s1 [vals|e|]].
  - destruct (run_validators (c_validators c) (VStruct cid vals)) as [[]|e|] eqn:Hv; cbn [bind].
    + split.
      * intros H. injection H as <- <-. exists vals. split; auto. split; auto. apply run_accepts. auto.
      * intros (w & H & -> & _). injection H as <- <-. auto.
    + split; [discriminate|]. intros (w & H & -> & Ha). injection H as <- <-. apply accepts_run in Ha. congruence.
    + split; [discriminate|]. intros (w & H & -> & Ha). injection H as <- <-. apply accepts_run in Ha. congruence.
  - split; [discriminate|]. intros (w & H & _). discriminate.
  - split; [discriminate|]. intros (w & H & _). discriminate.
Qed.

Lemma nested_load_fails E n c cid ctx d s s' e : always_present c -> c_null c = VUndefined ->
  struct_from_stream E n cid ctx [] s = (s', Raise e) ->
  field_from_stream E (S n) (Field c (KNested cid)) ctx d s = (s', Raise (set_field (c_name c) e)).
Proof.
  intros Hp Hn H. unfold field_from_stream, field_from_stream_with.
  rewrite from_stream_present by (cbn; auto). unfold checked. cbn [conf do_load kind].
  unfold lbind, lret. unfold struct_from_stream in H. rewrite H. auto.
Qed.

(** ** The field in a struct *)

(** What a stored value becomes before the components are dumped. *)
Lemma passed_value E n cid vals all name f v : instance_of E cid vals -> to_dict E n cid vals false = Ok all ->
  In (name, f) (k_comps (cls E cid)) -> unconditional (conf f) -> c_discard (conf f) = false ->
  dget vals name = Some v -> v <> VUndefined -> v <> VNotPresent ->
  exists v', recursive_to_dicts E n v = Ok v' /\ dget all name = Some v'.
Proof.
  intros Hi Hall Hin Hun Hdis Hg Hu Hn.
  destruct (to_dict_spec _ _ _ _ _ _ Hi Hall) as (w & Hw & raw & Hraw & _ & Hkeys & Hval).
  pose proof Hi as (Hwf & Hnd & _).
  assert (Hwv : dget w name = Some v).
  { apply whatever_spec in Hw; auto. destruct Hw as (_ & _ & Hw). specialize (Hw name f Hin).
    assert (Hm : struct_mem vals name = true).
    { apply struct_mem_in, struct_keys_in; auto. exists v. auto. }
    assert (Hrun : run_struct E n cid vals (compute_value_for_dump (conf f) VNone) = Ok v).
    { unfold run_struct. rewrite cvd_run, (stored_run _ _ _ _ name), Hm by (eapply instance_name; eauto).
      destruct (bound_assoc _ _ _ (well_formed_bound _ Hwf) Hin) as [Hc Ha].
      rewrite (struct_get_stored _ _ _ _ _ f v) by auto. rewrite (Hun _ _ _ VNone None).
      replace (is_not_present v) with false by (destruct v; cbn; congruence).
      replace (is_undefined v) with false by (destruct v; cbn; congruence). auto. }
    rewrite Hrun in Hw. auto. }
  assert (Hr : exists x, dget raw name = Some x).
  { apply ToDictProofs.dget_in. apply Hkeys. split; [apply (in_map fst) in Hin; auto|]. right.
    rewrite (discarded_iff _ name f); auto. apply well_formed_bound; auto. }
  destruct Hr as [x Hr]. destruct (Hval name f x Hin Hr) as [Hx|[Hx _]]; [|congruence].
  assert (x = v) by congruence. subst x.
  pose proof (dicts_of_get _ _ _ _ Hraw name) as Hd. rewrite Hr in Hd. exact Hd.
Qed.

Lemma part_split {A B} (R : A -> list B -> Prop) pre x post parts : Forall2 R (pre ++ x :: post) parts ->
  exists p1 b p2, R x b /\ concat parts = p1 ++ b ++ p2 /\ exists ps1, Forall2 R pre ps1 /\ p1 = concat ps1.
Proof.
  intros H. apply Forall2_app_inv_l in H. destruct H as (ps1 & ps2 & H1 & H2 & ->).
  inversion H2 as [|? b ? ps3 Hb Hp]; subst. exists (concat ps1), b, (concat ps3). split; auto. split; [|eauto].
  rewrite concat_app. reflexivity.
Qed.

Lemma nested_in_struct E n cid vals ctx out name c inner cid' nv : instance_of E cid vals ->
  In (name, Field c (KNested inner)) (k_comps (cls E cid)) -> unconditional c -> c_discard c = false ->
  dget vals name = Some (VStruct cid' nv) ->
  struct_to_stream E (S n) cid vals ctx = (out, Ok tt) ->
  exists dn before bs after, to_dict E n cid' nv false = Ok dn
    /\ incl (dkeys dn) (map fst (k_comps (cls E inner)))
    /\ struct_to_stream E n inner dn ctx = (bs, Ok tt) /\ out = before ++ bs ++ after.
Proof.
  intros Hi Hin Hun Hdis Hg H. apply struct_dump_iff in H. destruct H as (all & parts & _ & Hall & Hp & ->).
  destruct (passed_value _ _ _ _ _ _ _ _ Hi Hall Hin Hun Hdis Hg) as (v & Hv & Hga); [discriminate|discriminate|].
  cbn [recursive_to_dicts] in Hv.
  change (match to_dict E n cid' nv false with Ok d => Ok (VDict d) | Raise e => Raise e | OOF => OOF end = Ok v) in Hv.
  destruct (to_dict E n cid' nv false) as [dn| |] eqn:Hdn; try discriminate. injection Hv as <-.
  destruct (in_split _ _ Hin) as (pre & post & Hs). rewrite Hs in Hp. apply part_split in Hp.
  destruct Hp as (p1 & b & p2 & Hb & -> & _). destruct Hb as (x & Hx & Hor). cbn [snd conf] in *.
  rewrite (value_explicit _ _ _ name (VDict dn)) in Hx;
    [|apply (instance_name _ _ _ _ _ Hi Hin)|auto|discriminate|discriminate|apply Hun].
  injection Hx as <-. destruct Hor as [[Hx _]|[_ Hx]]; [discriminate|].
  assert (Ha : accepts c (VDict dn)).
  { unfold field_to_stream, field_to_stream_with, to_stream_with in Hx. cbn [is_default] in Hx. rewrite dbind_ok in Hx.
    cbn [is_undefined is_default orb] in Hx. apply dbind_dlift_inv in Hx. destruct Hx as ([] & Hx & _).
    apply run_accepts. exact Hx. }
  apply nested_dict in Hx; auto. destruct Hx as (H1 & H2 & _). eauto 10.
Qed.

(** So every field that is not discarded of the class of the instance is a field of the
    declared class. *)
Lemma nested_fields E n cid vals ctx out name c inner cid' nv x f : instance_of E cid vals -> instance_of E cid' nv ->
  In (name, Field c (KNested inner)) (k_comps (cls E cid)) -> unconditional c -> c_discard c = false ->
  dget vals name = Some (VStruct cid' nv) ->
  struct_to_stream E n cid vals ctx = (out, Ok tt) ->
  In (x, f) (k_comps (cls E cid')) -> c_discard (conf f) = false -> In x (map fst (k_comps (cls E inner))).
Proof.
  intros Hi Hi' Hin Hun Hdis Hg H Hx Hf.
  pose proof (struct_to_stream_mono E n (S n) cid vals ctx (Nat.le_succ_diag_r n)) as Hm. rewrite H in Hm.
  destruct Hm as [Hm|Hm]; [discriminate|]. symmetry in Hm || idtac.
  destruct (nested_in_struct E n cid vals ctx out name c inner cid' nv) as (dn & _ & _ & _ & Hd & Hincl & _); auto.
  apply Hincl. destruct (to_dict_keys _ _ _ _ _ _ Hi' Hd) as [_ Hk]. apply Hk. eauto.
Qed.

(** An instance of exactly the declared class, inside a struct, is dumped as its class dumps it. *)
Lemma nested_same_class E n cid vals ctx out name c inner nv d : instance_of E cid vals -> instance_of E inner nv ->
  In (name, Field c (KNested inner)) (k_comps (cls E cid)) -> unconditional c -> c_discard c = false ->
  dget vals name = Some (VStruct inner nv) ->
  to_dict E n inner nv false = Ok d ->
  (forall name f x, In (name, f) (k_comps (cls E inner)) -> dget d name = Some x ->
     x <> VNotPresent -> run_struct E n inner d (c_present (conf f) VNone None) = Ok true) ->
  (forall name f, In (name, f) (k_comps (cls E inner)) -> c_discard (conf f) = true ->
     exists v, run_struct E n inner d (compute_value_for_dump (conf f) VNone) = Ok v) ->
  validated E n inner nv -> validated E n inner d ->
  struct_to_stream E (S n) cid vals ctx = (out, Ok tt) ->
  exists before bs after, struct_to_stream E n inner nv ctx = (bs, Ok tt) /\ out = before ++ bs ++ after.
Proof.
  intros Hi Hi' Hin Hun Hdis Hg Hd Hp Hx Hv1 Hv2 H.
  destruct (nested_in_struct E n cid vals ctx out name c inner inner nv) as (dn & before & bs & after & Hd' & _ & Hs & ->); auto.
  rewrite Hd in Hd'. injection Hd' as <-. exists before, bs, after. split; [|reflexivity].
  rewrite <- Hs. symmetry. exact (rebuilt_dump E n inner nv d Hi' Hd Hp Hx ctx Hv1 Hv2).
Qed.
