(** Annotations that are struct classes, timestamps too large for a float, and nulls that cannot be
    dumped. *)
From Coq Require Import QArith.
From Verif Require Import Tac DeclProofs DeclMore PepProofs PyIntProofs StreamProofs LeafMore VarintsMore FieldProofs LeafProofs LoadProofs FloatTies.
From Verif Require Export DetailProofs.
Open Scope Z_scope.

(** ** Struct classes as annotations *)

Lemma make_struct native E n name a cid o : make_field native E n name a (AStructClass cid) = Ok o ->
  exists d sz, o = Some d /\ get_size E n cid = Ok sz /\ kind (d_field d) = KNested cid
    /\ c_size (conf (d_field d)) = match sz with Some z => SInt z | None => SNone end
    /\ (forall c, c = conf (d_field d) ->
        c_const c = VUndefined /\ c_default c = VUndefined /\ c_factory c = None /\ c_null c = VUndefined
        /\ c_discard c = false /\ c_validators c = [] /\ always_present c
        /\ c_npv c = VNotPresent /\ c_compute c = None).
Proof.
  cbn [make_field construct]. unfold base_init, no_args. cbn.
  destruct (get_size E n cid) as [sz|e|]; cbn [bind]; try discriminate.
  intros [= <-]. exists (mkDecl "Nested" false (Field (set_size (match sz with Some z => SInt z | None => SNone end)
    (mkConf None VUndefined VUndefined None false VUndefined SNone [] (fun _ _ => QRet true) VNotPresent None None None)) (KNested cid))), sz.
  split; [reflexivity|]. repeat (split; [reflexivity|]). intros c ->. cbn. unfold always_present. cbn. tauto.
Qed.

Lemma make_fields_struct native E n name a anns ds cid : make_fields native E n name a anns = Ok ds ->
  In (AStructClass cid) anns ->
  exists d, make_field native E n name a (AStructClass cid) = Ok (Some d) /\ In d ds.
Proof.
  revert ds. induction anns as [|x anns IH]; intros ds H Hi; [destruct Hi|]. cbn [make_fields] in H.
  destruct (make_field native E n name a x) as [o|e|] eqn:Hx; try discriminate. cbn [bind] in H.
  destruct (make_fields native E n name a anns) as [ds'|e|] eqn:Hm; try discriminate. cbn [bind] in H.
  injection H as <-. destruct Hi as [->|Hi].
  - destruct (make_struct _ _ _ _ _ _ _ Hx) as (d & sz & -> & _). exists d. split; auto. left; auto.
  - destruct (IH _ eq_refl Hi) as (d & H1 & H2). exists d. split; auto. destruct o; auto. right; auto.
Qed.

Lemma annotated_struct native E n attr hs ds : annotated native E n attr hs ds ->
  forall name anns cid, In (name, anns) hs -> In (AStructClass cid) anns ->
  exists d, In (name, d) ds /\ make_field native E n name (attr name) (AStructClass cid) = Ok (Some d).
Proof.
  induction 1 as [|nm an hs ds Hu Hm H IH|nm an hs d ds Hu Hm H IH]; intros name anns cid Hi Hf.
  - destruct Hi.
  - destruct Hi as [[= <- <-]|Hi]; [|eauto]. destruct (make_fields_struct _ _ _ _ _ _ _ _ Hm Hf) as (? & _ & []).
  - destruct Hi as [[= <- <-]|Hi].
    + destruct (make_fields_struct _ _ _ _ _ _ _ _ Hm Hf) as (d' & H1 & [->|[]]). exists d'. split; [left|]; auto.
    + destruct (IH _ _ _ Hi Hf) as (d' & H1 & H2). exists d'. split; auto. right; auto.
Qed.

(** The field is a Nested of the class, whatever the attribute and Optional say. *)
Lemma annotation_struct native E n k hs attr k' name anns cid :
  dataclass native E n k hs attr = Ok k' -> In (name, anns) hs -> In (AStructClass cid) anns ->
  exists f sz, In (name, f) (k_comps k') /\ kind f = KNested cid /\ get_size E n cid = Ok sz
    /\ plain_field name (DValue VUndefined) false (match sz with Some z => SInt z | None => SNone end) (conf f).
Proof.
  intros H Hi Hf. destruct (annotated_creation _ _ _ _ _ _ _ H) as (ds & own & Ha & Hc & _ & _ & Hb & _).
  destruct (annotated_struct _ _ _ _ _ _ Ha _ _ _ Hi Hf) as (d & Hd & Hm).
  destruct (forall2_in _ _ _ _ Hb Hd) as ([nm f] & Hin & Hn & Hcn & Hk & Ho). cbn [fst snd] in *. subst nm.
  destruct (make_struct _ _ _ _ _ _ _ Hm) as (d0 & sz & [= <-] & Hsz & Hkd & Hs & Hp). specialize (Hp _ eq_refl).
  exists f, sz. split; [rewrite Hc; apply in_or_app; auto|].
  destruct Hk as [Hk1 Hk2]. rewrite Hkd in Hk2. split; [auto|]. split; auto.
  unfold plain_field, default_from, always_present in *.
  destruct (conf (d_field d)), (conf f). cbn in *.
  destruct Hk1 as (K1 & K2 & K3 & K4 & K5 & K6 & K7 & K8 & K9 & K10). subst. intuition.
Qed.

(** ** Timestamps that are no floats *)

Lemma rnd64_int_none z : rnd64 (z, 1) = None <-> (overflow_bound double <= inject_Z (Z.abs z))%Q.
Proof.
  rewrite <- float_of_int_none. unfold rnd64, float_of_int.
  destruct (round_mag binary64 (Z.abs z) 1) as [m|]; [|split; auto].
  destruct (unpack_mag binary64 m) as [a e]. destruct (dyadic a e) as [p q]. split; discriminate.
Qed.

Lemma time_overflow r tz z : (overflow_bound double <= inject_Z (Z.abs z))%Q -> time_of_int r tz z = Raise EOverflow.
Proof. intros H. apply rnd64_int_none in H. unfold time_of_int. rewrite H. destruct r; auto. Qed.

Lemma time_too_large E n c r tz sg e sz z ctx d pre bs suf : c_size c = SInt sz -> always_present c ->
  c_null c = VUndefined -> accepts c (VInt z) ->
  field_to_stream E n (Field c (KInt sg e)) (VInt z) ctx d = (bs, Ok tt) ->
  (overflow_bound double <= inject_Z (Z.abs z))%Q ->
  field_from_stream E n (Field c (KTime r tz sg e)) ctx d (at_data pre bs suf)
  = (after_data pre bs suf, Raise EOverflow).
Proof.
  intros Hs Hp Hn Ha Hb Hz. rewrite (LeafProofs.int_to_stream E n c sg e sz z ctx d Hs Ha) in Hb.
  destruct (py_to_bytes z sz e sg) as [bs'|x|] eqn:Hb'; try discriminate. injection Hb as ->. rename Hb' into Hb.
  rewrite (load_fails E n c (KTime r tz sg e) ctx d _ (after_data pre bs suf) EOverflow Hp Hn); auto.
  rewrite do_load_leaf by auto. cbn [leaf_load].
  destruct (py_to_bytes_ok _ _ _ _ _ Hb) as (_ & _ & Hl & _). subst sz.
  unfold get_expected_size_with. rewrite Hs. unfold lbind, llift.
  rewrite (read_int_ok _ bs suf) by apply rest_at. rewrite (py_from_to_bytes _ _ _ _ _ Hb), (time_overflow r tz z Hz).
  rewrite advance_at. reflexivity.
Qed.

(** ** Nulls that cannot be dumped *)

Lemma none_null_repr E n f ctx d out e : accepts (conf f) VNone ->
  field_to_stream E n f VNone ctx d = (out, Raise e) -> null_repr (do_dump E n) f d = Raise e.
Proof.
  intros Ha H. unfold field_to_stream, field_to_stream_with, to_stream_with in H.
  cbn [is_default] in H. rewrite dbind_ok in H. cbn [is_undefined is_default is_none orb] in H.
  rewrite (accepts_run _ _ Ha), dbind_ok in H.
  destruct (null_repr (do_dump E n) f d) as [nb|x|]; cbn in H; congruence.
Qed.

Lemma null_error E n f ctx ctx' d out e s : always_present (conf f) -> c_null (conf f) <> VUndefined ->
  accepts (conf f) VNone -> field_to_stream E n f VNone ctx d = (out, Raise e) ->
  (forall x, e <> EUnserializable x) -> (forall x, e <> EValueSize x) ->
  field_from_stream E n f ctx' d s = (s, Raise e).
Proof.
  intros Hp Hn Ha H H1 H2. apply none_null_repr in H; auto.
  unfold field_from_stream, field_from_stream_with, from_stream_with. rewrite Hp. cbn [run_dict].
  assert (Hal : allow_null (conf f) = true).
  { unfold allow_null. destruct (c_null (conf f)); auto. }
  rewrite Hal. rewrite H. destruct e; auto; exfalso; [eapply H1|eapply H2]; reflexivity.
Qed.

(** The size of a String without a size that holds None. *)
Lemma unsized_null_text E n c cd pad t d : c_size c = SNone -> c_null c = VStr t ->
  oget d (c_name c) = Some VNone ->
  get_expected_size E n (Field c (KString cd pad)) d
  = match encode cd t with Ok _ => Raise (EBuggyField (c_name c)) | Raise e => Raise e | OOF => OOF end.
Proof.
  intros Hs Hn Ho. unfold get_expected_size, ges, get_expected_size_with. cbn [conf kind]. rewrite Hs.
  unfold expected_unsized. rewrite Ho. cbn [bind is_none]. unfold unsized_null_len. rewrite Hn.
  destruct (encode cd t); auto.
Qed.

Lemma unsized_not_nullable E n c k d : c_size c = SNone -> c_null c = VUndefined ->
  oget d (c_name c) = Some VNone ->
  get_expected_size E n (Field c k) d = Raise (EUnserializable (c_name c)).
Proof.
  intros Hs Hn Ho. unfold get_expected_size, ges, get_expected_size_with. cbn [conf kind]. rewrite Hs.
  unfold expected_unsized. rewrite Ho. cbn [bind is_none]. unfold unsized_null_len. rewrite Hn. reflexivity.
Qed.

Lemma unsized_null_time E n c r tz sg e us tz' d : c_size c = SNone -> c_null c = VTime us tz' ->
  oget d (c_name c) = Some VNone ->
  get_expected_size E n (Field c (KTime r tz sg e)) d = Raise (EBuggyField (c_name c)).
Proof.
  intros Hs Hn Ho. unfold get_expected_size, ges, get_expected_size_with. cbn [conf kind]. rewrite Hs.
  unfold expected_unsized. rewrite Ho. cbn [bind is_none]. unfold unsized_null_len. rewrite Hn. reflexivity.
Qed.
