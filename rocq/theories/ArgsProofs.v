(** Constructor arguments: specification vocabulary and proofs (C60, C55). *)
From Verif Require Import Tac DeclMore.
From Verif Require Export SpecDecl.

(** The keyword arguments of a constructor call. *)
Definition arguments (x : fexpr) : kwargs :=
  match x with
  | XInt _ _ _ kw | XVli _ _ kw | XFloat _ _ kw | XTime _ _ _ _ _ kw | XBytes kw
  | XString _ _ kw | XStringZ _ _ kw | XUuid _ kw | XArray _ _ _ kw | XNested _ kw
  | XUnion _ _ _ kw => kw
  end.

(** What becomes of [default=], [factory=] and [const=]. *)
Inductive default_rule (kw : kwargs) : value -> option (value + exn) -> Prop :=
| rule_value : forall v, a_default kw = DValue v -> v <> VUndefined -> a_factory kw = None ->
    default_rule kw v None
| rule_callable : forall r, a_default kw = DCall r -> a_factory kw = None ->
    default_rule kw VUndefined (Some r)
| rule_missing : a_default kw = DValue VUndefined ->
    default_rule kw (a_const kw) (a_factory kw).

(** The attributes of the new field. *)
Definition attributes_of (kw : kwargs) (c : fconf) : Prop :=
  c_name c = a_name kw /\ c_const c = a_const kw /\ c_discard c = a_discard kw
  /\ c_null c = a_null kw /\ c_validators c = a_validate kw /\ c_present c = a_present kw
  /\ c_npv c = a_npv kw /\ default_rule kw (c_default c) (c_factory c)
  /\ c_compute c = None /\ c_index c = None /\ c_offset c = None.

(** The number of bytes of the sized integer classes. *)
Inductive int_bytes : int_class -> Z -> Prop :=
| bytes_int8 : int_bytes Int8 1 | bytes_int16 : int_bytes Int16 2
| bytes_int32 : int_bytes Int32 4 | bytes_int64 : int_bytes Int64 8
| bytes_uint8 : int_bytes UInt8 1 | bytes_uint16 : int_bytes UInt16 2
| bytes_uint32 : int_bytes UInt32 4 | bytes_uint64 : int_bytes UInt64 8
| bytes_subclass : forall name c z, int_bytes c z -> int_bytes (IntSubclass name c) z.

Inductive always_unsigned : int_class -> Prop :=
| unsigned_any : always_unsigned UnsignedInteger
| unsigned_8 : always_unsigned UInt8 | unsigned_16 : always_unsigned UInt16
| unsigned_32 : always_unsigned UInt32 | unsigned_64 : always_unsigned UInt64
| unsigned_subclass : forall name c, always_unsigned c -> always_unsigned (IntSubclass name c).

Lemma int_bytes_size c z : int_bytes c z -> int_size c = Some z.
Proof. induction 1; auto. Qed.

Lemma always_unsigned_iff c : always_unsigned c <-> int_unsigned c = true.
Proof.
  split; [induction 1; auto|]. induction c; try discriminate; intros; constructor; auto.
Qed.

Lemma base_init_attributes k kw c : base_init k kw = Ok c -> attributes_of kw c.
Proof.
  intros H. unfold base_init in H.
  assert (Hgo : forall s, attributes_of kw (set_size s c) -> attributes_of kw c) by (intros s Hs; exact Hs).
  set (c0 := mkConf _ _ _ _ _ _ _ _ _ _ _ _ _) in H.
  assert (Hc0 : attributes_of kw c0 \/ (a_factory kw <> None /\ a_default kw <> DValue VUndefined)).
  { destruct (a_default kw) as [v|r] eqn:Hd.
    - destruct (is_undefined v) eqn:Hv.
      + left. destruct v; try discriminate. unfold c0, attributes_of. cbn. repeat split; auto.
        apply rule_missing. auto.
      + assert (Hne : v <> VUndefined) by (intros ->; discriminate).
        destruct (a_factory kw) as [fc|] eqn:Hf; [right; split; congruence|]. left.
        unfold c0, attributes_of. cbn. repeat split; auto.
        destruct v; try (apply rule_value; auto; fail). contradiction.
    - destruct (a_factory kw) as [fc|] eqn:Hf; [right; split; congruence|]. left.
      unfold c0, attributes_of. cbn. repeat split; auto. apply rule_callable; auto. }
  destruct Hc0 as [Hc0|[Hf Hd]].
  - assert (H' : (match a_size kw with
                 | SNone => if is_undefined (a_const kw) then Ok c0
                            else do s <- size_for_const c0 k; Ok (set_size s c0)
                 | _ => Ok c0 end) = Ok c).
    { destruct (a_factory kw); [destruct (a_default kw) as [[]|]|]; try discriminate; exact H. }
    clear H. destruct (a_size kw); try (injection H' as <-; exact Hc0).
    destruct (is_undefined (a_const kw)); [injection H' as <-; exact Hc0|].
    bind_res H' as s Hs. injection H' as <-. exact Hc0.
  - exfalso. destruct (a_factory kw) as [fc|]; [|congruence].
    destruct (a_default kw) as [[]|]; try discriminate. congruence.
Qed.

Lemma class_size_keeps own kw kw' c : class_size own kw = Ok kw' -> attributes_of kw' c -> attributes_of kw c.
Proof.
  unfold class_size. destruct own as [z|]; [|intros [= <-]; auto].
  destruct (a_size kw); try discriminate. intros [= <-] (H1 & H2 & H3 & H4 & H5 & H6 & H7 & H8 & H9).
  repeat split; auto; try tauto.
  inversion H8; [eapply rule_value|eapply rule_callable|eapply rule_missing]; eauto.
Qed.

Section Construct.
Variable native : endian.
Variable E : env.

Lemma constructed_attributes n x d : construct native E n x = Ok d ->
  attributes_of (arguments x) (conf (d_field d)).
Proof.
  destruct x; cbn [construct arguments]; intros H.
  - bind_res H as kw' Hkw. bind_res H as s Hs. bind_res H as c0 Hc. injection H as <-.
    eapply class_size_keeps; eauto. eapply base_init_attributes; eauto.
  - bind_res H as c0 Hc. injection H as <-. eapply base_init_attributes; eauto.
  - bind_res H as kw' Hkw. bind_res H as c0 Hc. injection H as <-.
    eapply class_size_keeps; eauto. eapply base_init_attributes; eauto.
  - bind_res H as kw' Hkw. bind_res H as u Hu. bind_res H as c0 Hc. injection H as <-.
    eapply class_size_keeps; eauto. eapply base_init_attributes; eauto.
  - bind_res H as c0 Hc. injection H as <-. eapply base_init_attributes; eauto.
  - bind_res H as c0 Hc. injection H as <-. eapply base_init_attributes; eauto.
  - bind_res H as c0 Hc. injection H as <-. eapply base_init_attributes; eauto.
  - bind_res H as kw' Hkw. bind_res H as c0 Hc. injection H as <-.
    eapply class_size_keeps; eauto. eapply base_init_attributes; eauto.
  - bind_res H as dc Hdc. bind_res H as c0 Hc. bind_res H as nm Hnm. injection H as <-.
    apply base_init_attributes in Hc. exact Hc.
  - bind_res H as c0 Hc. bind_res H as sz Hz. injection H as <-.
    apply base_init_attributes in Hc. exact Hc.
  - bind_res H as cs Hcs. bind_res H as c0 Hc. injection H as <-. eapply base_init_attributes; eauto.
Qed.

(** Both [default=] and [factory=] given. *)
Lemma both_given n x : a_factory (arguments x) <> None -> a_default (arguments x) <> DValue VUndefined ->
  (forall d, construct native E n x <> Ok d)
  /\ forall k, measuring x k (arguments x) -> construct native E n x = Raise (EConfig (a_name (arguments x))).
Proof.
  intros Hf Hd. split.
  - intros d H. apply constructed_attributes in H. destruct H as (_ & _ & _ & _ & _ & _ & _ & H & _).
    inversion H; congruence.
  - intros k Hm. destruct Hm; cbn [construct arguments] in *; unfold base_init;
      (destruct (a_factory kw) as [fc|]; [|congruence]); destruct (a_default kw) as [[]|]; auto; congruence.
Qed.

(** A size argument for a class that has one of its own. *)
Lemma integer_sizes n c e sg kw d z : construct native E n (XInt c e sg kw) = Ok d -> int_bytes c z ->
  c_size (conf (d_field d)) = SInt z /\ a_size kw = SNone.
Proof.
  intros H Hb. apply int_bytes_size in Hb. split; [eapply int_constructed; eauto|].
  cbn [construct] in H. rewrite Hb in H. cbn [class_size] in H. destruct (a_size kw); auto; discriminate.
Qed.

Lemma unsigned_kinds n c e sg kw d : construct native E n (XInt c e sg kw) = Ok d ->
  (always_unsigned c -> sg = None /\ exists o, kind (d_field d) = KInt false o)
  /\ (~ always_unsigned c -> exists o, kind (d_field d) = KInt (match sg with Some s => s | None => true end) o).
Proof.
  intros H. destruct (int_constructed _ _ _ _ _ _ _ _ H) as [_ Hk]. rewrite always_unsigned_iff. split.
  - intros Hu. rewrite Hu in Hk. split; [|eauto]. cbn [construct] in H.
    bind_res H as kw' Hkw. rewrite Hu in H. destruct sg; auto; discriminate.
  - intros Hu. destruct (int_unsigned c); [congruence|]. eauto.
Qed.

(** Sizes of the other classes, in numbers. *)
Lemma size_table n x d : construct native E n x = Ok d ->
  match x with
  | XFloat Float16 _ _ => c_size (conf (d_field d)) = SInt 2
  | XFloat Float32 _ _ => c_size (conf (d_field d)) = SInt 4
  | XFloat Float64 _ _ => c_size (conf (d_field d)) = SInt 8
  | XTime Timestamp32 _ _ _ _ _ => c_size (conf (d_field d)) = SInt 4
  | XTime Timestamp64 _ _ _ _ _ => c_size (conf (d_field d)) = SInt 8
  | XUuid BINARY_VARIANT_1 _ | XUuid BINARY_VARIANT_2 _ => c_size (conf (d_field d)) = SInt 16
  | XUuid CANONICAL_STRING _ => c_size (conf (d_field d)) = SInt 36
  | XUuid HEX_STRING _ => c_size (conf (d_field d)) = SInt 32
  | _ => True
  end.
Proof.
  destruct x; auto; intros H.
  - apply float_constructed in H. destruct H as [H _]. destruct c; exact H.
  - apply time_constructed in H. destruct H as [H _]. destruct c; auto; exact H.
  - apply uuid_constructed in H. destruct H as [H _]. destruct fmt; exact H.
Qed.
End Construct.

(** [field.computes] *)
Lemma computes_ok q d d' : computes q d = Ok d' ->
  c_compute (conf (d_field d)) = None /\ c_const (conf (d_field d)) = VUndefined
  /\ d_class d' = d_class d /\ d_endian_given d' = d_endian_given d
  /\ d_field d' = Field (match conf (d_field d) with
       | mkConf nm cst df fc di nu si va pr np _ ix off => mkConf nm cst df fc di nu si va pr np (Some q) ix off
       end) (kind (d_field d)).
Proof.
  destruct d as [cl eg [[nm cst df fc di nu si va pr np [q0|] ix off] k]]; unfold computes; cbn; [discriminate|].
  destruct cst; cbn; intros H; try discriminate. injection H as <-. auto 6.
Qed.

Lemma computes_cases q d :
  (c_compute (conf (d_field d)) = None /\ c_const (conf (d_field d)) = VUndefined -> exists d', computes q d = Ok d')
  /\ (c_compute (conf (d_field d)) <> None \/ c_const (conf (d_field d)) <> VUndefined ->
      computes q d = Raise (EConfig (c_name (conf (d_field d))))).
Proof.
  destruct d as [cl eg [[nm cst df fc di nu si va pr np [q0|] ix off] k]]; unfold computes; cbn.
  - split; [intros [? _]; discriminate|auto].
  - split; [intros [_ ->]; cbn; eexists; reflexivity|]. intros [H|H]; [congruence|]. destruct cst; cbn; congruence.
Qed.

Lemma omitted_arguments native E n x d : construct native E n x = Ok d -> arguments x = no_args ->
  let c := conf (d_field d) in
  c_name c = None /\ c_const c = VUndefined /\ c_default c = VUndefined /\ c_factory c = None
  /\ c_discard c = false /\ c_null c = VUndefined /\ c_validators c = []
  /\ (forall ctx s, c_present c ctx s = QRet true) /\ c_npv c = VNotPresent /\ c_compute c = None.
Proof.
  intros H Ha c. apply constructed_attributes in H. fold c in H. rewrite Ha in H.
  destruct H as (H1 & H2 & H3 & H4 & H5 & H6 & H7 & H8 & H9 & _).
  assert (Hd : c_default c = VUndefined /\ c_factory c = None).
  { inversion H8 as [v Hv Hn|r Hr|Hm]; auto; cbn in *; try congruence. }
  destruct Hd as [Hd Hf]. rewrite H6. repeat split; auto.
Qed.
