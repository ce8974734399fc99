(** Values of the wrong Python type given to containers (C69), unions whose decider does not
    return a choice (C44), sizes passed to classes that have their own (C60). *)
From Verif Require Import Tac FieldProofs ArrayProofs DeclProofs.
From Verif Require Export StructModel Decl Spec SpecField SpecDecl ArgsProofs WrongType DetailProofs.
Open Scope Z_scope.

Definition iterable (v : value) : Prop :=
  match v with VBytes _ | VStr _ | VList _ | VDict _ | VGen _ | VStruct _ _ => True | _ => False end.
Definition a_dict (v : value) : Prop := exists d, v = VDict d.
Definition an_instance (v : value) : Prop := exists cid vals, v = VStruct cid vals.

(** The exception raised for [v] by a container. *)
Inductive container_refuses (d : dict) (ctx : value) : fkind -> value -> exn -> Prop :=
| cr_array comp cnt halt v : uncounted cnt d \/ (exists m, counted cnt d m) -> ~ iterable v ->
    container_refuses d ctx (KArray comp cnt halt) v ETypeErr
| cr_nested cid v : ~ a_dict v -> ~ an_instance v -> container_refuses d ctx (KNested cid) v ETypeErr
| cr_union_struct choices ld dd i cid v : dd v ctx d = Ok i -> nth_error choices i = Some (CStruct cid) ->
    ~ a_dict v -> ~ an_instance v -> container_refuses d ctx (KUnion choices ld dd) v ETypeErr
| cr_union_nothing choices ld dd i v : dd v ctx d = Ok i -> nth_error choices i = None ->
    container_refuses d ctx (KUnion choices ld dd) v ETypeErr
| cr_union_decider choices ld dd v e : dd v ctx d = Raise e -> container_refuses d ctx (KUnion choices ld dd) v e.

Lemma uncounted_get cnt d : uncounted cnt d -> get_final_element_count cnt d = Ok None.
Proof. intros [->|(nm & -> & H)]; auto. cbn. rewrite H. auto. Qed.

Lemma container_refused E n c k v ctx d e : container_refuses d ctx k v e -> a_value v -> accepts c v ->
  field_to_stream E (S n) (Field c k) v ctx d = ([], Raise e).
Proof.
  intros H (V1 & V2 & V3) Ha. assert (Hd : is_data v = true) by (destruct v; auto; congruence).
  unfold field_to_stream, field_to_stream_with. rewrite to_stream_data by auto. cbn [conf kind].
  replace (do_dump E (S n) (Field c k) v ctx d) with (@nil Z, @Raise unit e); auto. symmetry.
  destruct H as [comp cnt halt v Hc Hi|cid v H1 H2|choices ld dd i cid v Hi Hn H1 H2|choices ld dd i v Hi Hn
                |choices ld dd v e Hi]; cbn [do_dump kind].
  - unfold array_dump.
    assert (exists r, get_final_element_count cnt d = Ok r) as [r ->].
    { destruct Hc as [Hc|[m Hc]]; [exists None; apply uncounted_get; auto|exists (Some (CountInt m)); apply counted_get; auto]. }
    rewrite dbind_ok. destruct v; try contradiction; auto; exfalso; apply Hi; exact I.
  - destruct v; auto; [no_such H1|no_such H2].
  - rewrite Hi, dbind_ok, Hn. destruct v; auto; no_such H1.
  - rewrite Hi, dbind_ok, Hn. auto.
  - rewrite Hi. auto.
Qed.

(** Loading through a union whose decider does not return a choice, or raises. *)
Lemma union_no_choice E n c choices ld dd ctx d s : always_present c -> c_null c = VUndefined ->
  (forall i, ld s ctx d = Ok i -> nth_error choices i = None ->
     field_from_stream E (S n) (Field c (KUnion choices ld dd)) ctx d s = (s, Raise ETypeErr))
  /\ (forall e, ld s ctx d = Raise e -> foreign e ->
     field_from_stream E (S n) (Field c (KUnion choices ld dd)) ctx d s = (s, Raise e)).
Proof.
  intros Hp Hn. unfold field_from_stream, field_from_stream_with. cbn [conf].
  split; [intros i Hi Hc|intros e Hi He]; rewrite from_stream_present by (cbn; auto); unfold checked;
    cbn [do_load kind]; rewrite Hi.
  - rewrite Hc. auto.
  - destruct He; auto.
Qed.

(** ** Constructors *)
(** The classes that pass a size themselves. *)
Inductive own_size : fexpr -> Prop :=
| os_int8 e sg kw : own_size (XInt Int8 e sg kw)
| os_int16 e sg kw : own_size (XInt Int16 e sg kw)
| os_int32 e sg kw : own_size (XInt Int32 e sg kw)
| os_int64 e sg kw : own_size (XInt Int64 e sg kw)
| os_uint8 e sg kw : own_size (XInt UInt8 e sg kw)
| os_uint16 e sg kw : own_size (XInt UInt16 e sg kw)
| os_uint32 e sg kw : own_size (XInt UInt32 e sg kw)
| os_uint64 e sg kw : own_size (XInt UInt64 e sg kw)
| os_sub name c e sg kw : own_size (XInt c e sg kw) -> own_size (XInt (IntSubclass name c) e sg kw)
| os_float c e kw : own_size (XFloat c e kw)
| os_time32 r tz e sg kw : own_size (XTime Timestamp32 r tz e sg kw)
| os_time64 r tz e sg kw : own_size (XTime Timestamp64 r tz e sg kw)
| os_uuid fmt kw : own_size (XUuid fmt kw).

Lemma class_size_twice z kw : a_size kw <> SNone -> class_size (Some z) kw = Raise ETypeErr.
Proof. unfold class_size. destruct (a_size kw); congruence. Qed.

Lemma size_twice native E n x : own_size x -> a_size (arguments x) <> SNone ->
  construct native E n x = Raise ETypeErr.
Proof.
  intros H Hs. assert (Hi : forall c e sg kw, own_size (XInt c e sg kw) -> exists z, int_size c = Some z).
  { clear. induction c; intros e sg kw H; inversion H; subst; cbn; eauto. }
  destruct H; cbn [arguments] in Hs; cbn [construct]; try (cbn [int_size time_size]; rewrite class_size_twice by auto; auto).
  cbn [int_size]. destruct (Hi _ _ _ _ H) as [z ->]. rewrite class_size_twice by auto. auto.
Qed.
