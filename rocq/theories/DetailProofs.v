(** Errors that are skipped (C70), fields made from annotations (C71), unknown names. *)
From Coq Require Import QArith Qabs Lqa.
From Verif Require Import Tac ToDictProofs DeclProofs DeclMore PepProofs PyIntProofs StreamProofs LeafMore LoadProofs CanonLeaf TimeProofs.
From Verif Require Import VarintsMore FieldProofs FloatMore LeafProofs.
From Verif Require Export StructModel Decl SpecDecl Spec SpecField SpecNum VarintSpec.
Open Scope Z_scope.

(** ** Skipped errors *)

(** Exceptions that are not the library's own. *)
Inductive foreign : exn -> Prop :=
| fo_value : foreign EValueErr
| fo_overflow : foreign EOverflow
| fo_type : foreign ETypeErr
| fo_attr : foreign EAttrErr
| fo_key name : foreign (EKeyErr name)
| fo_encode : foreign EUnicodeEncode
| fo_decode : foreign EUnicodeDecode
| fo_unicode : foreign EUnicodeErr
| fo_eof : foreign EEOF
| fo_os : foreign EOSErr
| fo_other code : foreign (EOther code).

Lemma foreign_iff e : foreign e <-> is_binobj_Error e = false.
Proof.
  split.
  - intros []; reflexivity.
  - destruct e; intros H; try discriminate H; constructor.
Qed.

(** What computing the value of the field [f] of an instance gives. *)
Definition value_of (E : env) (n : nat) (cid : nat) (vals : dict) (f : field) : res value :=
  run_struct E n cid vals (compute_value_for_dump (conf f) VNone).

Lemma possible_values_foreign E n cid vals before name f after e : forall dct,
  Forall (fun nf => (exists v, value_of E n cid vals (snd nf) = Ok v)
                    \/ exists x, value_of E n cid vals (snd nf) = Raise x /\ ~ foreign x) before ->
  value_of E n cid vals f = Raise e -> foreign e ->
  possible_values E n cid vals (before ++ (name, f) :: after) dct = Raise e.
Proof.
  unfold value_of. intros dct Hb Hf He. apply foreign_iff in He. revert dct.
  induction Hb as [|[nm g] before Hg Hb IH]; intros dct; cbn [app possible_values].
  - rewrite Hf, He. auto.
  - cbn [snd] in Hg. destruct Hg as [(v & ->)|(x & -> & Hx)]; auto.
    rewrite foreign_iff in Hx. destruct (is_binobj_Error x); auto. destruct Hx; auto.
Qed.

Lemma foreign_escapes E n cid vals before name f after e :
  comps E cid = before ++ (name, f) :: after ->
  Forall (fun nf => (exists v, value_of E n cid vals (snd nf) = Ok v)
                    \/ exists x, value_of E n cid vals (snd nf) = Raise x /\ ~ foreign x) before ->
  value_of E n cid vals f = Raise e -> foreign e ->
  (forall keep, to_dict E n cid vals keep = Raise e) /\ struct_len E n cid vals = Raise e.
Proof.
  intros Hc Hb Hf He.
  assert (H : to_dict_whatever_possible E n cid vals = Raise e).
  { unfold to_dict_whatever_possible. rewrite Hc, (possible_values_foreign E n cid vals _ _ _ _ e) by auto. auto. }
  split; [intros keep; unfold to_dict|unfold struct_len]; rewrite H; reflexivity.
Qed.

Lemma skipped_only_own E n cid vals name f : instance_of E cid vals -> In (name, f) (comps E cid) ->
  (exists keep d, to_dict E n cid vals keep = Ok d) \/ (exists z, struct_len E n cid vals = Ok z) ->
  (exists v, value_of E n cid vals f = Ok v)
  \/ exists e, value_of E n cid vals f = Raise e /\ ~ foreign e.
Proof.
  intros Hi Hin H.
  assert (Hw : exists w, to_dict_whatever_possible E n cid vals = Ok w).
  { destruct (to_dict_whatever_possible E n cid vals) as [w|e|] eqn:Hw; [eauto| |];
      exfalso; destruct H as [(keep & d & H)|(z & H)]; unfold to_dict, struct_len in H; rewrite Hw in H; discriminate. }
  destruct Hw as (w & Hw). destruct (whatever_spec E n cid vals w Hi Hw) as (_ & _ & Hs).
  specialize (Hs name f Hin). unfold value_of.
  destruct (run_struct E n cid vals (compute_value_for_dump (conf f) VNone)) as [v|e|]; [eauto| |contradiction].
  right. exists e. split; auto. rewrite foreign_iff. destruct Hs. congruence.
Qed.

(** ** Unknown names *)
Lemma assoc_unknown {A} (l : list (string * A)) name : ~ In name (map fst l) -> assoc l name = None.
Proof.
  induction l as [|[k v] l IH]; cbn; auto. intros H. destruct (String.eqb_spec k name); [tauto|]. auto.
Qed.

Lemma partial_load_unknown E n cid name ctx s : ~ In name (map fst (k_comps (cls E cid))) ->
  partial_load E n cid (Some name) ctx s = (s, Raise EValueErr).
Proof. intros H. unfold partial_load, comps. rewrite assoc_unknown by auto. auto. Qed.

Lemma get_field_unknown E n cid name ctx s : ~ In name (map fst (k_comps (cls E cid))) ->
  get_field E n cid name ctx s = (s, Raise EValueErr).
Proof. intros H. unfold get_field, comps. rewrite assoc_unknown by auto. auto. Qed.

(** A field placed before the start of the stream (after one of negative size). *)
Lemma get_field_before E n cid name f off ctx s : NoDup (map fst (k_comps (cls E cid))) ->
  In (name, f) (k_comps (cls E cid)) -> c_offset (conf f) = Some off ->
  Z.of_nat (s_pos s) + off < 0 -> get_field E n cid name ctx s = (s, Raise EValueErr).
Proof.
  intros Hnd Hi Ho Hneg. unfold get_field, comps. rewrite (in_assoc _ _ _ Hnd Hi), Ho. unfold seek.
  replace (Z.of_nat (s_pos s) + off <? 0) with true by lia. destruct s; reflexivity.
Qed.

(** ** Fields made from annotations *)

(** The class name, size and kind of the field an annotation with a field class makes. *)
Inductive hint_field (native : endian) : field_class -> string -> sizespec -> fkind -> Prop :=
| hk_integer : hint_field native (FInt Integer) "Integer" SNone (KInt true native)
| hk_unsigned : hint_field native (FInt UnsignedInteger) "UnsignedInteger" SNone (KInt false native)
| hk_int8 : hint_field native (FInt Int8) "Int8" (SInt 1) (KInt true native)
| hk_int16 : hint_field native (FInt Int16) "Int16" (SInt 2) (KInt true native)
| hk_int32 : hint_field native (FInt Int32) "Int32" (SInt 4) (KInt true native)
| hk_int64 : hint_field native (FInt Int64) "Int64" (SInt 8) (KInt true native)
| hk_uint8 : hint_field native (FInt UInt8) "UInt8" (SInt 1) (KInt false native)
| hk_uint16 : hint_field native (FInt UInt16) "UInt16" (SInt 2) (KInt false native)
| hk_uint32 : hint_field native (FInt UInt32) "UInt32" (SInt 4) (KInt false native)
| hk_uint64 : hint_field native (FInt UInt64) "UInt64" (SInt 8) (KInt false native)
| hk_subclass nm c nm' s k : hint_field native (FInt c) nm s k ->
    hint_field native (FInt (IntSubclass nm' c)) nm' s k
| hk_float16 : hint_field native (FFloat Float16) "Float16" (SInt 2) (KFloat (mkFormat 11 5) native)
| hk_float32 : hint_field native (FFloat Float32) "Float32" (SInt 4) (KFloat (mkFormat 24 8) native)
| hk_float64 : hint_field native (FFloat Float64) "Float64" (SInt 8) (KFloat (mkFormat 53 11) native)
| hk_time32 : hint_field native FTime32 "Timestamp32" (SInt 4) (KTime ResS false true native)
| hk_time64 : hint_field native FTime64 "Timestamp64" (SInt 8) (KTime ResS false true native)
| hk_bytes : hint_field native FBytes "Bytes" SNone KBytes
| hk_string : hint_field native FString "String" SNone (KString Latin1 None)
| hk_stringz : hint_field native FStringZ "StringZ" SNone (KStringZ Latin1 None)
| hk_uuid : hint_field native FUuid "UUID4" (SInt 16) (KUuid BINARY_VARIANT_1).

(** The default of the field, from the class attribute. *)
Definition default_from (a : default_arg) (c : fconf) : Prop :=
  match a with
  | DValue v => c_default c = v /\ c_factory c = None
  | DCall r => c_default c = VUndefined /\ c_factory c = Some r
  end.

Definition plain_field (name : string) (a : default_arg) (optional : bool) (size : sizespec) (c : fconf) : Prop :=
  c_name c = Some name /\ c_const c = VUndefined /\ default_from a c /\ c_discard c = false
  /\ c_null c = (if optional then VDefault else VUndefined) /\ c_size c = size
  /\ c_validators c = [] /\ always_present c /\ c_npv c = VNotPresent /\ c_compute c = None.

Lemma int_hint native c : exists k, hint_field native (FInt c) (int_name c)
    (match int_size c with Some z => SInt z | None => SNone end) k
  /\ k = KInt (negb (int_unsigned c)) native.
Proof.
  induction c as [| | | | | | | | | |nm c (k & IH & Hk)]; try (eexists; split; [constructor|reflexivity]).
  exists k. cbn [int_name int_size int_unsigned]. split; auto. econstructor; eauto.
Qed.

Lemma make_hint native E n name a fc opt d : make_field native E n name a (AFieldClass fc opt) = Ok (Some d) ->
  exists size k, hint_field native fc (d_class d) size k /\ kind (d_field d) = k
    /\ d_endian_given d = false /\ plain_field name a opt size (conf (d_field d)).
Proof.
  intros H. cbn [make_field] in H.
  set (kw := mkKw (Some name) VUndefined a None false (if opt then VDefault else VUndefined) SNone []
                  (fun _ _ => QRet true) VNotPresent) in *.
  assert (Hb : forall k s c, base_init k (match s with SNone => kw | _ => with_size s kw end) = Ok c ->
            plain_field name a opt s c).
  { intros k s c Hc. unfold base_init in Hc.
    assert (Ha : a_default (match s with SNone => kw | _ => with_size s kw end) = a) by (destruct s; auto).
    assert (Hf : a_factory (match s with SNone => kw | _ => with_size s kw end) = None) by (destruct s; auto).
    rewrite Ha, Hf in Hc.
    destruct s as [|z|r]; cbn [a_size a_const with_size kw is_undefined] in Hc; injection Hc as <-;
      unfold plain_field, default_from, always_present; cbn; repeat split; auto; destruct a as [v|r']; auto;
      destruct v; auto. }
  destruct fc as [c|c| | | | | | |]; cbn [instantiate] in H; try discriminate.
  - destruct (int_hint native c) as (k & Hk & ->). cbn [construct] in H.
    destruct (int_size c) as [z|]; cbn [class_size a_size kw bind] in H.
    + fold kw in H. cbn [bind] in H.
      destruct (int_unsigned c); cbn [bind byte_order_arg negb] in *;
      (match type of H with context [base_init ?k ?q] => destruct (base_init k q) as [fc|e|] eqn:Hi end; try discriminate;
       cbn [bind] in H; injection H as <-; eexists _, _; cbn; split; [exact Hk|]; split; [reflexivity|]; split; [reflexivity|];
       exact (Hb _ (SInt z) _ Hi)).
    + fold kw in H.
      destruct (int_unsigned c); cbn [bind byte_order_arg negb] in *;
      (match type of H with context [base_init ?k ?q] => destruct (base_init k q) as [fc|e|] eqn:Hi end; try discriminate;
       cbn [bind] in H; injection H as <-; eexists _, _; cbn; split; [exact Hk|]; split; [reflexivity|]; split; [reflexivity|];
       exact (Hb _ SNone _ Hi)).
  - cbn [construct class_size a_size kw] in H. fold kw in H. cbn [bind byte_order_arg] in H.
    match type of H with context [base_init ?k ?q] => destruct (base_init k q) as [fc|e|] eqn:Hi end; try discriminate;
    cbn [bind] in H; injection H as <-. eexists _, _. cbn.
    split; [|split; [reflexivity|]; split; [reflexivity|]; apply (Hb _ (SInt (ff_bytes (float_format c))) _ Hi)].
    destruct c; constructor.
  - cbn [construct class_size time_size a_size kw] in H. fold kw in H. cbn [bind byte_order_arg a_size with_size] in H.
    match type of H with context [base_init ?k ?q] => destruct (base_init k q) as [fc|e|] eqn:Hi end; try discriminate;
    cbn [bind] in H; injection H as <-. eexists _, _. cbn.
    split; [|split; [reflexivity|]; split; [reflexivity|]; apply (Hb _ (SInt 4) _ Hi)]. constructor.
  - cbn [construct class_size time_size a_size kw] in H. fold kw in H. cbn [bind byte_order_arg a_size with_size] in H.
    match type of H with context [base_init ?k ?q] => destruct (base_init k q) as [fc|e|] eqn:Hi end; try discriminate;
    cbn [bind] in H; injection H as <-. eexists _, _. cbn.
    split; [|split; [reflexivity|]; split; [reflexivity|]; apply (Hb _ (SInt 8) _ Hi)]. constructor.
  - cbn [construct] in H.
    match type of H with context [base_init ?k ?q] => destruct (base_init k q) as [fc|e|] eqn:Hi end; try discriminate;
    cbn [bind] in H; injection H as <-. eexists _, _. cbn.
    split; [|split; [reflexivity|]; split; [reflexivity|]; apply (Hb _ SNone _ Hi)]. constructor.
  - cbn [construct] in H.
    match type of H with context [base_init ?k ?q] => destruct (base_init k q) as [fc|e|] eqn:Hi end; try discriminate;
    cbn [bind] in H; injection H as <-. eexists _, _. cbn.
    split; [|split; [reflexivity|]; split; [reflexivity|]; apply (Hb _ SNone _ Hi)]. constructor.
  - cbn [construct] in H.
    match type of H with context [base_init ?k ?q] => destruct (base_init k q) as [fc|e|] eqn:Hi end; try discriminate;
    cbn [bind] in H; injection H as <-. eexists _, _. cbn.
    split; [|split; [reflexivity|]; split; [reflexivity|]; apply (Hb _ SNone _ Hi)]. constructor.
  - cbn [construct class_size uuid_size a_size kw] in H. fold kw in H. cbn [bind byte_order_arg a_size with_size] in H.
    match type of H with context [base_init ?k ?q] => destruct (base_init k q) as [fc|e|] eqn:Hi end; try discriminate;
    cbn [bind] in H; injection H as <-. eexists _, _. cbn.
    split; [|split; [reflexivity|]; split; [reflexivity|]; apply (Hb _ (SInt 16) _ Hi)]. constructor.
Qed.

Lemma make_fields_in native E n name a anns d : make_fields native E n name a anns = Ok [d] ->
  forall fc opt, In (AFieldClass fc opt) anns ->
  make_field native E n name a (AFieldClass fc opt) = Ok (Some d).
Proof.
  intros H fc opt Hi.
  assert (Hg : forall ds, make_fields native E n name a anns = Ok ds ->
            exists d', make_field native E n name a (AFieldClass fc opt) = Ok (Some d') /\ In d' ds).
  { clear d H. induction anns as [|x anns IH]; [destruct Hi|]. intros ds H. cbn [make_fields] in H.
    destruct (make_field native E n name a x) as [o|e|] eqn:Hx; try discriminate. cbn [bind] in H.
    destruct (make_fields native E n name a anns) as [ds'|e|] eqn:Hm; try discriminate. cbn [bind] in H.
    injection H as <-. destruct Hi as [->|Hi].
    - assert (Ho : exists d', o = Some d').
      { clear - Hx. cbn [make_field] in Hx. destruct (instantiate fc _); [|discriminate].
        destruct (construct native E n f); try discriminate. injection Hx as <-. eauto. }
      destruct Ho as (d' & ->). exists d'. split; auto. left; auto.
    - destruct (IH Hi _ eq_refl) as (d' & H1 & H2). exists d'. split; auto. destruct o; auto. right; auto. }
  destruct (Hg _ H) as (d' & H1 & H2). destruct H2 as [->|[]]. auto.
Qed.

Lemma annotated_in native E n attr hs ds : annotated native E n attr hs ds ->
  forall name anns fc opt, In (name, anns) hs -> In (AFieldClass fc opt) anns ->
  exists d, In (name, d) ds /\ make_field native E n name (attr name) (AFieldClass fc opt) = Ok (Some d).
Proof.
  induction 1 as [|nm an hs ds Hu Hm H IH|nm an hs d ds Hu Hm H IH]; intros name anns fc opt Hi Hf.
  - destruct Hi.
  - destruct Hi as [[= <- <-]|Hi]; [|eauto]. exfalso.
    clear - Hm Hf. induction an as [|x an IHa]; [destruct Hf|]. cbn [make_fields] in Hm.
    destruct (make_field native E n nm (attr nm) x) as [o|e|] eqn:Hx; try discriminate. cbn [bind] in Hm.
    destruct (make_fields native E n nm (attr nm) an) as [ds'|e|] eqn:Hy; try discriminate. cbn [bind] in Hm.
    destruct Hf as [->|Hf].
    + cbn [make_field] in Hx. destruct (instantiate fc _); [|discriminate].
      destruct (construct native E n f); try discriminate. injection Hx as <-. discriminate.
    + destruct o; [discriminate|]. injection Hm as ->. auto.
  - destruct Hi as [[= <- <-]|Hi].
    + exists d. split; [left; auto|]. eapply make_fields_in; eauto.
    + destruct (IH _ _ _ _ Hi Hf) as (d' & H1 & H2). exists d'. split; auto. right; auto.
Qed.

Lemma forall2_in {A B} (R : A -> B -> Prop) l1 l2 x : Forall2 R l1 l2 -> In x l1 -> exists y, In y l2 /\ R x y.
Proof.
  induction 1 as [|a b l1 l2 Hr H IH]; intros []; [subst; exists b; split; auto; left; auto|].
  destruct IH as (y & H1 & H2); auto. exists y. split; auto. right; auto.
Qed.

Lemma annotation_field native E n k hs attr k' name anns fc opt :
  dataclass native E n k hs attr = Ok k' -> In (name, anns) hs -> In (AFieldClass fc opt) anns ->
  exists class size kd f, hint_field native fc class size kd /\ In (name, f) (k_comps k')
    /\ plain_field name (attr name) opt size (conf f)
    /\ match kd with
       | KInt sg e0 => exists e, kind f = KInt sg e /\ byte_order (k_defaults k) class false e0 e
       | _ => kind f = kd
       end.
Proof.
  intros H Hi Hf. destruct (annotated_creation _ _ _ _ _ _ _ H) as (ds & own & Ha & Hc & _ & _ & Hb & _).
  destruct (annotated_in _ _ _ _ _ _ Ha _ _ _ _ Hi Hf) as (d & Hd & Hm).
  destruct (forall2_in _ _ _ _ Hb Hd) as ([nm f] & Hin & Hn & Hcn & Hk & Ho). cbn [fst snd] in *. subst nm.
  destruct (make_hint _ _ _ _ _ _ _ _ Hm) as (size & kd & Hh & Hkd & Hg & Hp).
  exists (d_class d), size, kd, f. split; auto. split; [rewrite Hc; apply in_or_app; auto|].
  destruct Hk as [Hk1 Hk2]. split.
  - unfold plain_field, default_from, always_present in *.
    destruct (conf (d_field d)), (conf f). cbn in *.
    destruct Hk1 as (K1 & K2 & K3 & K4 & K5 & K6 & K7 & K8 & K9 & K10). subst. intuition.
  - rewrite Hkd in Hk2. rewrite Hg in Ho. destruct kd as [sg e0|fmt mx|fmt e|r tz sg e| |cd pad|cd pad|fmt|comp cnt halt|cid|choices ld dmp]; auto.
    destruct (kind f) as [sg' e| | | | | | | | | |] eqn:Hkf; try discriminate. cbv iota beta in Hk2. rewrite <- Hk2 in *. exists e. split; auto.
    eapply Ho; eauto.
Qed.

(** Classes that need more arguments. *)
Lemma annotation_needs_more native E n k name opt hs attr : k_own k = 0 ->
  dataclass native E n k ((name, [AFieldClass FNeedsMore opt]) :: hs) attr = Raise ETypeErr.
Proof. intros H. unfold dataclass. rewrite H. reflexivity. Qed.

(** The class attribute of a name in a class body [ns]. *)
Lemma body_attribute pre name it post : ~ In name (map fst pre) ->
  body_attr (pre ++ (name, it) :: post) name = match it with IValue a => a | _ => DValue VUndefined end.
Proof.
  intros H. unfold body_attr.
  replace (assoc (pre ++ (name, it) :: post) name) with (Some it); auto.
  induction pre as [|[k v] pre IH]; cbn [app assoc]; [rewrite String.eqb_refl; auto|].
  cbn in H. destruct (String.eqb_spec k name); [tauto|]. auto.
Qed.
Lemma body_no_attribute ns name : ~ In name (map fst ns) -> body_attr ns name = DValue VUndefined.
Proof. intros H. unfold body_attr. rewrite assoc_unknown by auto. auto. Qed.

(** numeric.py:401: [size] is a required argument of Timestamp. *)
Lemma timestamp_needs_size native E n r tz e sg kw : a_size kw = SNone ->
  construct native E n (XTime Timestamp r tz e sg kw) = Raise ETypeErr.
Proof. intros H. cbn. rewrite H. auto. Qed.

(** ** Timestamps outside the years 1 to 9999 *)
(** What [fromtimestamp] does, up to the rounding of the fraction. *)
Lemma fromtimestamp_cases num b aware : 0 < b -> exists f, Z.abs f <= 1000002 /\
  py_fromtimestamp (num, b) aware
  = let us := Z.quot num b * 1000000 + f in
    if (first_datetime_us aware <=? us) && (us <=? max_datetime_us) then Ok us
    else if time_t_ok (us / 1000000) then Raise (year_error (us / 1000000)) else Raise EOverflow.
Proof.
  intros Hb. unfold py_fromtimestamp, rmul. cbn [fst snd].
  assert (Hrem : Z.abs (Z.rem num b) < b).
  { pose proof (Z.rem_bound_abs num b ltac:(lia)). lia. }
  rewrite rnd64_signed.
  assert (H : (frac (Z.abs (Z.rem num b * 1000000)) (b * 1) < inject_Z 1000000)%Q).
  { apply frac_lt; [lia|]. rewrite Z.abs_mul. lia. }
  assert (H2 : (inject_Z 1000000 <= inject_Z (2 ^ 63))%Q) by (rewrite <- Zle_Qle; lia).
  destruct (rnd64_error (Z.abs (Z.rem num b * 1000000)) (b * 1)) as (a' & b' & -> & Ha & Hb' & He); try lia.
  { pose proof two_1000. lra. }
  apply Qabs_bounds in He. destruct He as [_ He].
  assert (Hab : a' < 1000001 * b').
  { apply (proj1 (frac_lt 1000001 a' b' Hb')). rewrite two_53 in He. pose proof two_1075.
    change (inject_Z 1000000) with (1000000 # 1)%Q in H. change (inject_Z 1000001) with (1000001 # 1)%Q. lra. }
  cbn [opt_res bind].
  exists (round_half_even_signed (if Z.rem num b * 1000000 <? 0 then - a' else a', b')). split; [|reflexivity].
  apply (rhe_signed_bound _ _ 1000001); auto. destruct (_ <? _); lia.
Qed.

(** Whole seconds: the number of seconds is rounded to a float first. *)
Lemma seconds_cases aware z : Z.abs z < 2 ^ 900 -> exists q f,
  Z.abs f <= 1000002 /\ 2 * Z.abs (q - z) <= 2 + Z.abs z / 2 ^ 51 /\ time_of_int ResS aware z
  = let us := q * 1000000 + f in
    if (first_datetime_us aware <=? us) && (us <=? max_datetime_us) then Ok us
    else if time_t_ok (us / 1000000) then Raise (year_error (us / 1000000)) else Raise EOverflow.
Proof.
  intros Hz. unfold time_of_int. rewrite rnd64_signed.
  assert (Hup : (frac (Z.abs z) 1 < two 1000)%Q).
  { rewrite frac_1. assert (H9 : (two 900 <= two 1000)%Q) by (apply two_le; lia).
    rewrite (two_Z 900) in H9 by lia. eapply Qlt_le_trans; [|exact H9]. rewrite <- Zlt_Qlt. lia. }
  destruct (rnd64_error (Z.abs z) 1 ltac:(lia) ltac:(lia) Hup) as (a & b & Hr & Ha & Hb & He).
  rewrite Hr. cbn [opt_res bind].
  destruct (fromtimestamp_cases (if z <? 0 then - a else a) b aware Hb) as (f & Hf & ->).
  eexists _, f. split; [exact Hf|]. split; [|reflexivity].
  assert (Hq : Z.abs (a / b - Z.abs z) <= 1 + Z.abs z / 2 ^ 53).
  { set (m := Z.abs z) in *. set (w := m / 2 ^ 53). assert (Hm : 0 <= m) by (unfold m; lia). clearbody m.
    pose proof (Z.mul_succ_div_gt m (2 ^ 53) ltac:(lia)) as Hw. fold w in Hw.
    pose proof (Z.mul_div_le m (2 ^ 53) ltac:(lia)) as Hw'. fold w in Hw'.
    assert (Hw2 : (inject_Z m <= inject_Z (2 ^ 53) * (inject_Z w + 1) - 1)%Q).
    { replace (inject_Z (2 ^ 53) * (inject_Z w + 1) - 1)%Q with
        (inject_Z (2 ^ 53) * (inject_Z w + inject_Z 1) + inject_Z (-1))%Q by reflexivity.
      rewrite <- inject_Z_plus, <- inject_Z_mult, <- inject_Z_plus, <- Zle_Qle. lia. }
    change (inject_Z (2 ^ 53)) with (9007199254740992 # 1)%Q in Hw2.
    apply Qabs_bounds in He. rewrite two_53, frac_1 in He.
    assert (H54 : (two (-1075) <= 1 # 18014398509481984)%Q).
    { change (1 # 18014398509481984)%Q with (two (-54)). apply two_le. lia. }
    assert (H1 : (m - w - 1) * b <= a).
    { apply (proj1 (frac_le (m - w - 1) a b Hb)).
      replace (m - w - 1) with (m + (- w) + (- (1))) by lia. rewrite !inject_Z_plus, !inject_Z_opp.
      change (inject_Z 1) with 1%Q. lra. }
    assert (H2 : a < (m + w + 1) * b).
    { apply (proj1 (frac_lt (m + w + 1) a b Hb)).
      rewrite !inject_Z_plus. change (inject_Z 1) with 1%Q. lra. }
    assert (m - w - 1 <= a / b) by (apply Z.div_le_lower_bound; lia).
    assert (a / b < m + w + 1) by (apply Z.div_lt_upper_bound; lia).
    lia. }
  assert (Hd : Z.abs z / 2 ^ 53 * 4 <= Z.abs z / 2 ^ 51).
  { replace (2 ^ 53) with (2 ^ 51 * 4) by reflexivity. rewrite <- Z.div_div by lia.
    rewrite Z.mul_comm. apply Z.mul_div_le. lia. }
  pose proof (Z.div_pos (Z.abs z) (2 ^ 53) ltac:(lia) ltac:(lia)).
  destruct (Z.ltb_spec z 0); [rewrite Z.quot_opp_l by lia|]; rewrite Z.quot_div_nonneg by lia; lia.
Qed.

Lemma seconds_outside aware z : Z.abs z < 2 ^ 55 -> ~ is_datetime aware (z * 1000000) -> time_of_int ResS aware z = Raise EValueErr.
Proof.
  intros Hz Hd. pose proof (seconds_canonical aware z) as Hc.
  destruct (seconds_cases aware z ltac:(lia)) as (q & f & Hf & Hq & E). cbv zeta in E.
  destruct (_ && _).
  - exfalso. destruct (Hc _ ltac:(lia) E) as [Hus Hr]. apply Hd. rewrite <- Hus.
    unfold first_datetime_us, min_datetime_us, max_datetime_us, is_datetime in *. destruct aware; lia.
  - clear Hc Hd. assert (H : Z.abs z / 2 ^ 51 < 16) by (apply Z.div_lt_upper_bound; lia).
    set (w := Z.abs z / 2 ^ 51) in *. clearbody w. change (2 ^ 55) with 36028797018963968 in *.
    assert (Hlo : -36028797018964068 <= (q * 1000000 + f) / 1000000) by (apply Z.div_le_lower_bound; lia).
    assert (Hhi : (q * 1000000 + f) / 1000000 < 36028797018964068) by (apply Z.div_lt_upper_bound; lia).
    unfold time_t_ok, year_error in E. rewrite E.
    replace (_ && _) with true by (symmetry; apply andb_true_iff; lia).
    replace (_ && _) with true by (symmetry; apply andb_true_iff; lia). reflexivity.
Qed.

(** Much further away, the C library refuses; further yet, the number is not a time at all. *)
Lemma seconds_far aware z : 2 ^ 56 <= Z.abs z < 2 ^ 63 - 4096 -> time_of_int ResS aware z = Raise EOSErr.
Proof.
  intros Hz.
  destruct (seconds_cases aware z ltac:(lia)) as (q & f & Hf & Hq & E). cbv zeta in E.
  rewrite E.
  assert (H : Z.abs z / 2 ^ 51 < 4096) by (apply Z.div_lt_upper_bound; lia).
  set (w := Z.abs z / 2 ^ 51) in *. clearbody w.
  change (2 ^ 56) with 72057594037927936 in *. change (2 ^ 63) with 9223372036854775808 in *.
  set (us := q * 1000000 + f) in *.
  pose proof (Z.mul_div_le us 1000000 ltac:(lia)). pose proof (Z.mul_succ_div_gt us 1000000 ltac:(lia)).
  unfold time_t_ok, year_error, first_datetime_us, min_datetime_us, max_datetime_us.
  set (u := us / 1000000) in *. clearbody u.
  replace (_ && (us <=? _)) with false by (symmetry; apply andb_false_iff; destruct aware; lia).
  replace (_ && (u <? _)) with true by (symmetry; apply andb_true_iff; lia).
  replace (_ && (u <=? _)) with false by (symmetry; apply andb_false_iff; lia). reflexivity.
Qed.

Lemma seconds_too_far aware z : 2 ^ 63 + 4096 <= Z.abs z < 2 ^ 900 -> time_of_int ResS aware z = Raise EOverflow.
Proof.
  intros Hz.
  destruct (seconds_cases aware z ltac:(lia)) as (q & f & Hf & Hq & E). cbv zeta in E.
  rewrite E. clear E. destruct Hz as [Hz _].
  pose proof (Z.mul_div_le (Z.abs z) (2 ^ 51) ltac:(lia)) as Hd.
  set (w := Z.abs z / 2 ^ 51) in *. clearbody w.
  change (2 ^ 51) with 2251799813685248 in *. change (2 ^ 63) with 9223372036854775808 in *.
  set (us := q * 1000000 + f) in *.
  pose proof (Z.mul_div_le us 1000000 ltac:(lia)). pose proof (Z.mul_succ_div_gt us 1000000 ltac:(lia)).
  unfold time_t_ok, year_error, first_datetime_us, min_datetime_us, max_datetime_us.
  set (u := us / 1000000) in *. clearbody u.
  replace (_ && (us <=? _)) with false by (symmetry; apply andb_false_iff; destruct aware; lia).
  replace (_ && (u <? _)) with false by (symmetry; apply andb_false_iff; lia). reflexivity.
Qed.

(** Naive datetimes on the first day are not dumped either. *)
Lemma first_day_refused E n c r tz sg e us ctx d : accepts c (VTime us false) -> us < - 62135510400 * 1000000 ->
  field_to_stream E n (Field c (KTime r tz sg e)) (VTime us false) ctx d = ([], Raise EValueErr).
Proof.
  intros Ha Hus. rewrite field_to_stream_leaf by auto. cbn [leaf_dump]. unfold time_to_int, py_timestamp.
  replace (us <? first_datetime_us false) with true; [reflexivity|].
  symmetry. apply Z.ltb_lt. unfold first_datetime_us, min_datetime_us. lia.
Qed.

Lemma seconds_refused E n c tz sg e sz z ctx d pre bs suf x : c_size c = SInt sz -> always_present c ->
  c_null c = VUndefined -> accepts c (VInt z) ->
  field_to_stream E n (Field c (KInt sg e)) (VInt z) ctx d = (bs, Ok tt) ->
  time_of_int ResS tz z = Raise x -> is_DeserializationError x = false ->
  field_from_stream E n (Field c (KTime ResS tz sg e)) ctx d (at_data pre bs suf)
  = (after_data pre bs suf, Raise x).
Proof.
  intros Hs Hp Hn Ha Hb Hz Hx. rewrite (LeafProofs.int_to_stream E n c sg e sz z ctx d Hs Ha) in Hb.
  destruct (py_to_bytes z sz e sg) as [bs'|y|] eqn:Hb'; try discriminate. injection Hb as ->. rename Hb' into Hb.
  rewrite (load_fails E n c (KTime ResS tz sg e) ctx d _ (after_data pre bs suf) x Hp Hn);
    [destruct x; try discriminate Hx; reflexivity|].
  rewrite do_load_leaf by auto. cbn [leaf_load].
  destruct (py_to_bytes_ok _ _ _ _ _ Hb) as (_ & _ & Hl & _). subst sz.
  unfold get_expected_size_with. rewrite Hs. unfold lbind, llift.
  rewrite (read_int_ok _ bs suf) by apply rest_at. rewrite (py_from_to_bytes _ _ _ _ _ Hb), Hz.
  rewrite advance_at. reflexivity.
Qed.

Lemma seconds_not_loaded E n c tz sg e sz z ctx d pre bs suf : c_size c = SInt sz -> always_present c ->
  c_null c = VUndefined -> accepts c (VInt z) ->
  field_to_stream E n (Field c (KInt sg e)) (VInt z) ctx d = (bs, Ok tt) ->
  Z.abs z < 2 ^ 55 -> ~ is_datetime tz (z * 1000000) ->
  field_from_stream E n (Field c (KTime ResS tz sg e)) ctx d (at_data pre bs suf)
  = (after_data pre bs suf, Raise EValueErr).
Proof. intros. eapply seconds_refused; eauto using seconds_outside. Qed.

Lemma seconds_far_away E n c tz sg e sz z ctx d pre bs suf : c_size c = SInt sz -> always_present c ->
  c_null c = VUndefined -> accepts c (VInt z) ->
  field_to_stream E n (Field c (KInt sg e)) (VInt z) ctx d = (bs, Ok tt) ->
  (2 ^ 56 <= Z.abs z < 2 ^ 63 - 4096 ->
   field_from_stream E n (Field c (KTime ResS tz sg e)) ctx d (at_data pre bs suf)
   = (after_data pre bs suf, Raise EOSErr))
  /\ (2 ^ 63 + 4096 <= Z.abs z < 2 ^ 900 ->
   field_from_stream E n (Field c (KTime ResS tz sg e)) ctx d (at_data pre bs suf)
   = (after_data pre bs suf, Raise EOverflow)).
Proof. intros. split; intros; eapply seconds_refused; eauto using seconds_far, seconds_too_far. Qed.
