(** Chains of classes, sizes of constructed fields, dataclasses (C37, C48, C49, C54, C55). *)
From Verif Require Import Tac.
From Verif Require Export DeclProofs LeafMore.

(** ---------------------------------------------------------------- chains *)
Lemma expected_without_default E n f z : get_expected_size E n f [] = Ok z ->
  (c_size (conf f) = SNone -> c_default (conf f) = VUndefined /\ c_factory (conf f) = None) ->
  c_size (conf f) = SInt z.
Proof.
  unfold get_expected_size, ges, get_expected_size_with. intros H Hd.
  destruct (c_size (conf f)) as [|m|nm]; [|congruence|discriminate].
  destruct Hd as [Hd Hf]; auto. unfold expected_unsized in H.
  replace (oget [] (c_name (conf f))) with (@None value) in H by (destruct (c_name (conf f)); reflexivity).
  unfold default_of in H. rewrite Hf, Hd in H. discriminate.
Qed.

Lemma sum_sizes_inv E n fs z : sum_sizes E n fs [] = Ok z ->
  (forall name f, In (name, f) fs -> c_size (conf f) = SNone ->
     c_default (conf f) = VUndefined /\ c_factory (conf f) = None) ->
  exists zs, fixed_sizes fs zs /\ sum zs = z.
Proof.
  revert z. induction fs as [|[name f] fs IH]; intros z H Hd.
  - injection H as <-. exists []. split; [constructor|reflexivity].
  - cbn [sum_sizes] in H. bind_res H as a Ha. bind_res H as b Hb. injection H as <-.
    destruct (IH b eq_refl) as (zs & Hz & Hs). { intros nm g Hi. apply (Hd nm g). right. auto. }
    exists (a :: zs). split.
    + constructor; auto. cbn [snd]. eapply expected_without_default; eauto. apply (Hd name f). left. auto.
    + cbn. unfold sum in Hs. rewrite Hs. auto.
Qed.

Lemma get_size_rule E n b start : get_size E n b = Ok start -> no_unsized_default (cls E b) ->
  offset_rule (Some 0) (k_comps (cls E b)) start.
Proof.
  unfold get_size, get_size_values, comps. intros H Hd.
  destruct (sum_sizes E n (k_comps (cls E b)) []) as [z|e|] eqn:Hs; [| |discriminate].
  - injection H as <-. destruct (sum_sizes_inv _ _ _ _ Hs Hd) as (zs & Hz & <-). left. exists 0, zs. auto.
  - destruct (is_UndefinedSizeError e || is_MissingRequiredValueError e); [|discriminate]. injection H as <-.
    right. split; auto. right. intros (zs & Hz). rewrite (sum_sizes_fixed _ _ _ zs) in Hs by auto. discriminate.
Qed.

Lemma fixed_split fs gs zs : fixed_sizes (fs ++ gs) zs -> exists a b, zs = a ++ b /\ fixed_sizes fs a /\ fixed_sizes gs b.
Proof. intros H. apply Forall2_app_inv_l in H as (a & b & H1 & H2 & ->). eauto. Qed.

Lemma offset_compose fs gs o o' : offset_rule (Some 0) fs o -> offset_rule o gs o' ->
  offset_rule (Some 0) (fs ++ gs) o'.
Proof.
  intros [(s & zs & [= <-] & Hz & ->)|[Hn ->]].
  - intros [(s & ys & [= <-] & Hy & ->)|[Hn ->]].
    + left. exists 0, (zs ++ ys). split; auto. split; [apply fixed_app; auto|]. rewrite sum_app. f_equal; lia.
    + right. split; auto. right. intros (xs & Hx). apply fixed_split in Hx as (a & b & -> & Ha & Hb).
      destruct Hn as [Hn|Hn]; [discriminate|]. apply Hn. eauto.
  - intros [(s & ys & [=] & _)|[_ ->]]. right. split; auto. right. intros (xs & Hx).
    apply fixed_split in Hx as (a & b & -> & Ha & Hb). destruct Hn as [Hn|Hn]; [discriminate|]. apply Hn. eauto.
Qed.

(** An element of a concatenation is in one of the parts. *)
Lemma split_app {A} (l m pre : list A) x post : l ++ m = pre ++ x :: post ->
  (exists post', l = pre ++ x :: post') \/ (exists pre', pre = l ++ pre' /\ m = pre' ++ x :: post).
Proof.
  revert pre. induction l as [|a l IH]; intros pre H; [right; exists pre; auto|].
  destruct pre as [|b pre].
  - injection H as -> _. left. exists l. auto.
  - injection H as -> H. apply IH in H as [(p & ->)|(p & -> & ->)]; [left|right]; exists p; auto.
Qed.

Definition class_ok (k : classdef) : Prop :=
  numbered k /\ NoDup (map fst (k_comps k))
  /\ (forall name, In name (map fst (k_fvals k)) <-> In name (map fst (k_comps k))).

Lemma in_keys {A} (l : list (string * A)) name : In name (map fst l) <-> assoc l name <> None.
Proof.
  destruct (assoc l name) as [x|] eqn:H.
  - split; [discriminate|]. intros _. apply assoc_in in H. apply in_map_iff. exists (name, x). auto.
  - apply assoc_none_iff in H. tauto.
Qed.

Lemma class_ok_wf k : class_ok k -> well_formed k.
Proof.
  intros (H1 & H2 & H3). split; auto. split; [|intros x Hx; apply H3; auto].
  apply Forall_forall. intros [name f] Hin. apply in_split in Hin as (pre & post & Heq).
  apply (H1 _ _ _ _ Heq).
Qed.

Lemma empty_ok : class_ok empty_class.
Proof.
  split; [|split; [constructor|tauto]]. intros pre name f post H. destruct pre; discriminate.
Qed.

Lemma body_names defaults ds own : Forall2 (bound_as defaults) ds own -> map fst own = map fst ds.
Proof. intros H. induction H as [|nd nf ds own (Hn & _) _ IH]; cbn [map]; [auto|]. rewrite Hn, IH. auto. Qed.

Lemma create_ok E n name bases meta ns k : create_class E n name bases meta ns = Ok k ->
  class_ok (base_class E bases) -> class_ok k.
Proof.
  intros H (Hnum & Hnd & Hfv). apply create_inv in H as (_ & start & own & _ & _ & _ & Hc & _ & (Ha1 & Ha2) & Hn & Hf & _).
  split; [|split; [auto|]].
  - intros pre nm f post Heq. rewrite Hc in Heq. apply split_app in Heq as [(p & Heq)|(p & -> & Heq)].
    + apply (Hnum _ _ _ _ Heq).
    + destruct (Ha2 _ _ _ _ Heq) as (H1 & H2 & _). split; auto. rewrite H2. f_equal. unfold zlen. rewrite app_length. lia.
  - intros x. rewrite in_keys, Hf, Hc, map_app, in_app_iff, (body_names _ _ _ Ha1), <- Hfv, in_keys.
    destruct (existsb _ _) eqn:He.
    + apply existsb_exists in He as (y & Hy & He). apply String.eqb_eq in He as ->. split; [auto|discriminate].
    + assert (Hni : ~ In x (map fst (body_fields ns))).
      { intros Hi. apply not_true_iff_false in He. apply He. apply existsb_exists. exists x. split; auto. apply String.eqb_refl. }
      destruct (assoc (k_fvals (base_class E bases)) x); cbn; intuition discriminate.
Qed.

Lemma cls_app E k cid : cls (E ++ [k]) cid = if (cid <? length E)%nat then cls E cid
  else if (cid =? length E)%nat then k else empty_class.
Proof.
  unfold cls. destruct (Nat.ltb_spec cid (length E)).
  - apply app_nth1. auto.
  - rewrite app_nth2 by lia. destruct (Nat.eqb_spec cid (length E)) as [->|Hne].
    + rewrite Nat.sub_diag. reflexivity.
    + destruct (cid - length E)%nat as [|m] eqn:Hm; [lia|]. cbn. destruct m; reflexivity.
Qed.

Lemma declared_ok E : declared E -> forall cid, class_ok (cls E cid).
Proof.
  induction 1 as [|E n name bases meta ns k HE IH Hk]; intros cid.
  - unfold cls. destruct cid; apply empty_ok.
  - rewrite cls_app. destruct (_ <? _)%nat; auto. destruct (_ =? _)%nat; [|apply empty_ok].
    eapply create_ok; eauto. unfold base_class. destruct bases as [|b [|]]; auto using empty_ok.
Qed.

Lemma declared_placed E : declared E -> (forall cid, no_unsized_default (cls E cid)) ->
  forall cid, placed (cls E cid).
Proof.
  induction 1 as [|E n name bases meta ns k HE IH Hk]; intros Hd cid.
  - intros pre nm f post Heq. unfold cls in Heq. destruct cid, pre; discriminate.
  - assert (HdE : forall c, no_unsized_default (cls E c)).
    { intros c. destruct (Nat.ltb_spec c (length E)) as [Hc|Hc].
      - specialize (Hd c). rewrite cls_app in Hd. apply Nat.ltb_lt in Hc. rewrite Hc in Hd. auto.
      - unfold cls. rewrite nth_overflow by auto. intros ? ? []. }
    specialize (IH HdE).
    rewrite cls_app. destruct (_ <? _)%nat; auto. destruct (_ =? _)%nat; [|intros pre nm f post Heq; destruct pre; discriminate].
    apply create_inv in Hk as (_ & start & own & Hst & _ & _ & Hc & _ & (Ha1 & Ha2) & _).
    intros pre nm f post Heq. rewrite Hc in Heq. apply split_app in Heq as [(p & Heq)|(p & -> & Heq)].
    + unfold base_class in Heq. destruct bases as [|b [|]]; try (destruct pre; discriminate). apply (IH b _ _ _ _ Heq).
    + destruct (Ha2 _ _ _ _ Heq) as (_ & _ & Ho). eapply offset_compose; eauto.
      destruct Hst as [[-> ->]|(b & -> & Hg)]; [apply offset_nil|]. eapply get_size_rule; eauto.
Qed.

(** ---------------------------------------------------------------- sizes from const *)
Lemma base_init_const k kw c : base_init k kw = Ok c -> a_size kw = SNone -> a_const kw <> VUndefined ->
  exists c0 s, size_for_const c0 k = Ok s /\ c = set_size s c0 /\ c_const c0 = a_const kw
    /\ c_validators c0 = a_validate kw.
Proof.
  unfold base_init. intros H Hs Hc. rewrite Hs in H.
  replace (is_undefined (a_const kw)) with false in H by (destruct (a_const kw); auto; contradiction).
  destruct (a_factory kw); [destruct (match a_default kw with DValue VUndefined => false | _ => true end); [discriminate|]|];
    bind_res H as sz Hsz; injection H as <-; (eexists; exists sz; split; [exact Hsz|]; auto).
Qed.

Lemma base_init_sized k kw c : base_init k kw = Ok c -> a_size kw <> SNone \/ a_const kw = VUndefined ->
  c_size c = a_size kw.
Proof.
  unfold base_init. intros H Hor.
  destruct (a_factory kw); [destruct (match a_default kw with DValue VUndefined => false | _ => true end); [discriminate|]|];
  (destruct (a_size kw) eqn:Hs; [destruct Hor as [Hor|Hor]; [contradiction|rewrite Hor in H]|..];
   cbn [is_undefined] in H; injection H as <-; cbn [c_size]; auto).
Qed.

Section Construct.
Variable native : endian.
Variable E : env.

Lemma measuring_inv n x k kw d : measuring x k kw -> construct native E n x = Ok d ->
  exists c, base_init k kw = Ok c /\ d_field d = Field c k.
Proof.
  intros Hm H. destruct Hm; cbn [construct] in H; bind_res H as c Hc; injection H as <-; exists c; auto.
Qed.

Lemma const_size n x k kw d : measuring x k kw -> construct native E n x = Ok d ->
  a_size kw = SNone -> a_const kw <> VUndefined ->
  exists z, c_size (conf (d_field d)) = SInt z
    /\ forall bs, const_form k (a_const kw) bs -> zlen bs = z
       /\ forall m ctx dct, accepts (conf (d_field d)) (a_const kw) ->
            field_to_stream E m (d_field d) (a_const kw) ctx dct = (bs, Ok tt).
Proof.
  intros Hm H Hs Hc. destruct (measuring_inv _ _ _ _ _ Hm H) as (c & Hi & Hd). rewrite Hd. cbn [conf].
  apply base_init_const in Hi as (c0 & s & Hsz & -> & Hk & _); auto.
  assert (Hcases : exists z, s = SInt z /\ forall bs, const_form k (a_const kw) bs -> zlen bs = z).
  { destruct Hm; cbn [size_for_const] in Hsz; rewrite Hk in Hsz; cbn [size_for_value] in Hsz.
    - destruct (py_len (a_const kw)) as [z|] eqn:Hl; [|discriminate]. injection Hsz as <-. exists z. split; auto.
      intros bs Hf. inversion Hf as [b Hb Hv Hw| | |]; subst. rewrite <- Hv in Hl. injection Hl as <-. auto.
    - destruct (a_const kw); try discriminate. bind_res Hsz as sz Hz. injection Hsz as <-.
      bind_res Hz as bs He. injection Hz as <-. exists (zlen bs). split; auto.
      intros b Hf. inversion Hf; subst. congruence.
    - destruct (a_const kw); try discriminate. bind_res Hsz as sz Hz. injection Hsz as <-.
      bind_res Hz as bs He. injection Hz as <-. exists (zlen bs). split; auto.
      intros b Hf. inversion Hf; subst. congruence.
    - bind_res Hsz as sz Hz. injection Hsz as <-.
      bind_res Hz as bs He. injection Hz as <-. exists (zlen bs). split; auto.
      intros b Hf. inversion Hf as [| | |? ? ? ? Hb Hm Hk1 Hc1]; subst. rewrite <- Hc1 in He. cbn in He. congruence. }
  destruct Hcases as (z & -> & Hlen). exists z. split; auto. intros bs Hf. split; auto.
  intros m ctx dct Ha. assert (Hz : zlen bs = z) by auto.
  assert (Hdecl : forall d, declared_size (set_size (SInt z) c0) d (zlen bs)) by (intros; left; cbn; congruence).
  destruct Hf as [bs|cd pad t bs He|cd pad t bs He|fmt mx v bs He Hmx].
  - rewrite (bytes_to_stream _ _ _ (zlen bs)); auto. rewrite Z.eqb_refl. auto.
  - rewrite (string_to_stream _ _ _ _ _ (zlen bs)); auto. unfold encode_and_resize. rewrite He. cbn [bind].
    rewrite Z.sub_diag. reflexivity.
  - rewrite (stringz_sized_to_stream _ _ _ _ _ (zlen bs) _ bs); auto. rewrite Z.ltb_irrefl. auto.
  - rewrite field_to_stream_leaf by auto. rewrite vli_dump_eq, He.
    replace (match mx with Some m0 => m0 <? zlen bs | None => false end) with false.
    + apply sized_write_exact; cbn; intros; congruence.
    + destruct mx; auto. specialize (Hmx _ eq_refl). lia.
Qed.

(** The constructor fails when the value cannot be encoded. *)
Lemma const_unencodable n x k kw e : measuring x k kw -> a_size kw = SNone -> a_factory kw = None ->
  match k, a_const kw with
  | KString cd _, VStr t => encode cd t = Raise e
  | KStringZ cd _, VStr t => encode cd (t ++ [0]) = Raise e
  | KVli fmt _, VInt z => vli_encode fmt z = Raise e
  | _, _ => False
  end -> construct native E n x = Raise e.
Proof.
  intros Hm Hs Hf Hk. destruct Hm; [destruct Hk|..]; cbn [construct]; unfold base_init; rewrite Hf, Hs;
    destruct (a_const kw); try contradiction; cbn [is_undefined size_for_const c_const size_for_value vli_encode_value];
    rewrite Hk; reflexivity.
Qed.

Lemma const_unmeasured n x kw d : not_measuring x kw -> a_size kw = SNone -> a_const kw <> VUndefined ->
  construct native E n x <> Ok d.
Proof.
  intros Hm Hs Hc H.
  assert (Hb : forall k c, base_init k kw = Ok c ->
    match k with KInt _ _ | KArray _ _ _ | KNested _ | KUnion _ _ _ => False | _ => True end).
  { intros k c Hi. apply base_init_const in Hi as (c0 & s0 & Hz & _); auto. destruct k; auto; discriminate. }
  destruct Hm as [c e sg kw Hn Hu|comp cnt halt kw|cid kw|cs ld dd kw]; cbn [construct] in H.
  - rewrite Hn, Hu in H. cbn [class_size bind] in H. bind_res H as s0 Hs0. bind_res H as c0 Hc0. apply Hb in Hc0. auto.
  - bind_res H as s0 Hs0. bind_res H as c0 Hc0. apply Hb in Hc0. auto.
  - bind_res H as c0 Hc0. apply Hb in Hc0. auto.
  - bind_res H as s0 Hs0. bind_res H as c0 Hc0. apply Hb in Hc0. auto.
Qed.

Lemma const_attribute_error n kw cid comp cnt halt d : a_size kw = SNone -> a_const kw <> VUndefined ->
  a_factory kw = None -> construct native E n comp = Ok d ->
  construct native E n (XNested cid kw) = Raise EAttrErr
  /\ construct native E n (XArray comp cnt halt kw) = Raise EAttrErr.
Proof.
  intros Hs Hc Hf Hd. cbn [construct]. rewrite Hd. cbn [bind]. unfold base_init. rewrite Hf, Hs.
  replace (is_undefined (a_const kw)) with false by (destruct (a_const kw); auto; contradiction). auto.
Qed.

(** ---------------------------------------------------------------- sizes of built-in classes *)
Lemma int_constructed n c e sg kw d : construct native E n (XInt c e sg kw) = Ok d ->
  (forall z, int_size c = Some z -> c_size (conf (d_field d)) = SInt z)
  /\ kind (d_field d) = KInt (if int_unsigned c then false else match sg with Some s => s | None => true end)
                            (match e with Some (Some o) => o | _ => native end).
Proof.
  cbn [construct]. intros H. bind_res H as kw' Hkw. bind_res H as s Hs. bind_res H as c0 Hc. injection H as <-.
  cbn [d_field conf kind]. split.
  - intros z Hz. rewrite Hz in Hkw. cbn [class_size] in Hkw. destruct (a_size kw); try discriminate. injection Hkw as <-.
    apply base_init_sized in Hc; [|left; discriminate]. auto.
  - f_equal. destruct (int_unsigned c), sg; congruence.
Qed.

Lemma float_constructed n c e kw d : construct native E n (XFloat c e kw) = Ok d ->
  c_size (conf (d_field d)) = SInt (ff_bytes (float_format c))
  /\ kind (d_field d) = KFloat (float_format c) (match e with Some (Some o) => o | _ => native end).
Proof.
  cbn [construct]. intros H. bind_res H as kw' Hkw. bind_res H as c0 Hc. injection H as <-.
  split; [|reflexivity]. cbn [class_size] in Hkw. destruct (a_size kw); try discriminate. injection Hkw as <-.
  apply base_init_sized in Hc; [|left; discriminate]. auto.
Qed.

Lemma uuid_constructed n fmt kw d : construct native E n (XUuid fmt kw) = Ok d ->
  c_size (conf (d_field d)) = SInt (uuid_size fmt) /\ kind (d_field d) = KUuid fmt.
Proof.
  cbn [construct]. intros H. bind_res H as kw' Hkw. bind_res H as c0 Hc. injection H as <-.
  split; [|reflexivity]. cbn [class_size] in Hkw. destruct (a_size kw); try discriminate. injection Hkw as <-.
  apply base_init_sized in Hc; [|left; discriminate]. auto.
Qed.

Lemma time_constructed n c r tz e sg kw d : construct native E n (XTime c r tz e sg kw) = Ok d ->
  match time_size c with Some z => c_size (conf (d_field d)) = SInt z | None => c_size (conf (d_field d)) <> SNone end
  /\ kind (d_field d) = KTime r tz sg (match e with Some (Some o) => o | _ => native end).
Proof.
  cbn [construct]. intros H. bind_res H as kw' Hkw. bind_res H as u Hu. bind_res H as c0 Hc. injection H as <-.
  split; [|reflexivity]. cbn [d_field conf].
  apply base_init_sized in Hc; [|left; intros Hx; rewrite Hx in Hu; discriminate].
  destruct c; cbn [time_size class_size] in *; try (destruct (a_size kw); try discriminate; injection Hkw as <-; auto; fail).
  injection Hkw as <-. rewrite Hc. intros Hx. rewrite Hx in Hu. discriminate.
Qed.

Lemma nested_constructed n cid kw d : construct native E n (XNested cid kw) = Ok d ->
  exists sz, get_size E n cid = Ok sz
    /\ c_size (conf (d_field d)) = match sz with Some z => SInt z | None => SNone end
    /\ kind (d_field d) = KNested cid.
Proof.
  cbn [construct]. intros H. bind_res H as c Hc. bind_res H as sz Hz. injection H as <-. exists sz. auto.
Qed.

Lemma set_name_conf nm f : c_name (conf (set_name nm f)) = nm /\ c_size (conf (set_name nm f)) = c_size (conf f)
  /\ kind (set_name nm f) = kind f.
Proof. destruct f as [c k]. auto. Qed.

Lemma array_constructed n comp cnt halt kw d : construct native E n (XArray comp cnt halt kw) = Ok d ->
  exists dc comp', construct native E n comp = Ok dc /\ kind (d_field d) = KArray comp' cnt halt
    /\ attributes_kept (d_field dc) comp' /\ kind comp' = kind (d_field dc)
    /\ c_name (conf comp') = c_name (conf (d_field d))
    /\ (forall m z, cnt = CntInt m -> c_size (conf (d_field dc)) = SInt z ->
          c_size (conf (d_field d)) = SInt (m * z))
    /\ ((forall m z, cnt = CntInt m -> c_size (conf (d_field dc)) <> SInt z) ->
         c_size (conf (d_field d)) = a_size kw).
Proof.
  cbn [construct]. intros H. bind_res H as dc Hdc. bind_res H as fc Hfc. bind_res H as nm Hnm. injection H as <-.
  destruct (set_name_conf nm (d_field dc)) as (H1 & H2 & H3).
  exists dc, (set_name nm (d_field dc)). split; auto. split; auto.
  split; [unfold attributes_kept; destruct (d_field dc) as [[] []]; cbn; intuition|].
  split; auto. split; [rewrite H1; cbn [d_field conf]; cbn [set_size c_name]|].
  - unfold maybe_assign_name in Hnm. destruct (name_of (d_field dc)) as [x|]; [|congruence].
    destruct (c_name fc) as [s|]; [|discriminate]. destruct (String.eqb_spec s x); [|discriminate]. congruence.
  - cbn [d_field conf set_size c_size]. split.
    + intros m z -> Hz. rewrite H2, Hz. auto.
    + intros Hn.
      assert (Hsz : c_size fc = a_size kw).
      { apply (base_init_sized _ _ _ Hfc). destruct (a_size kw) eqn:Hs; try (left; discriminate). right.
        destruct (a_const kw) eqn:Hk; auto; exfalso; apply base_init_const in Hfc as (c0 & s0 & Hz & _); auto; try congruence; discriminate. }
      rewrite H2, Hsz. destruct cnt; auto. destruct (c_size (conf (d_field dc))) eqn:Hs; auto. destruct (Hn n0 n1); auto.
Qed.

Lemma array_named_component n comp cnt halt kw dc nm : construct native E n comp = Ok dc ->
  c_name (conf (d_field dc)) = Some nm -> a_name kw <> Some nm -> forall d,
  construct native E n (XArray comp cnt halt kw) <> Ok d.
Proof.
  intros Hdc Hn Hkw d H. cbn [construct] in H. rewrite Hdc in H. cbn [bind] in H. bind_res H as fc Hfc.
  assert (Hname : c_name fc = a_name kw).
  { revert Hfc. unfold base_init. destruct (a_factory kw); [destruct (match a_default kw with DValue VUndefined => false | _ => true end); [discriminate|]|];
    (destruct (a_size kw); [destruct (is_undefined (a_const kw)); [|intros Hx; bind_res Hx as s0 Hs0; injection Hx as <-; auto]|..]; intros [= <-]; auto). }
  unfold name_of in H. rewrite Hn, Hname in H. unfold maybe_assign_name in H.
  destruct (a_name kw) as [y|]; [|discriminate]. destruct (String.eqb_spec y nm); [congruence|discriminate].
Qed.

End Construct.
