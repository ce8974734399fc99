(** Struct round trip (C27). *)
From Verif Require Import Tac StreamProofs VarintsMore FieldProofs LeafMore FieldMore FloatMore TimeProofs TimeNano RoundLeaf.
From Verif Require Import StructProofs FuelProofs ArrayProofs ToDictProofs ContainerProofs ContainedProofs EqProofs HaltProofs.
From Verif Require Export SpecRound.

(** ** Leaves *)

(** The field without presence test, null, [const] and validators. *)
Definition strip (c : fconf) : fconf :=
  mkConf (c_name c) VUndefined (c_default c) (c_factory c) (c_discard c) VUndefined (c_size c)
         [] (fun _ _ => QRet true) (c_npv c) (c_compute c) (c_index c) (c_offset c).

Lemma strip_takes c v : takes (strip c) v.
Proof. split; [intros ? ? ?; reflexivity|]. repeat split. constructor. Qed.

Lemma suits_leaf_kind c d k v : leaf_suits c d k v -> leaf_kind k = true /\ is_data v = true.
Proof. intros []; auto. match goal with H : float_kind _ _ _ |- _ => destruct H; auto end. Qed.

Lemma ges_strip dd dd' c k d m : declared_size c d m ->
  get_expected_size_with dd (strip c) k d = Ok m /\ get_expected_size_with dd' c k d = Ok m.
Proof. intros H. split; apply ges_declared; auto. Qed.

Lemma leaf_dump_strip dd dd' c d k v : leaf_suits c d k v ->
  leaf_dump (strip c) k (get_expected_size_with dd (strip c) k d) v
  = leaf_dump c k (get_expected_size_with dd' c k d) v.
Proof.
  intros []; cbn [leaf_dump]; try reflexivity.
  - destruct (ges_strip dd dd' c KBytes d _ H) as [-> ->]. reflexivity.
  - destruct (ges_strip dd dd' c (KString cd pad) d _ H0) as [-> ->]. reflexivity.
  - destruct (ges_strip dd dd' c (KTime ResS tz sg e) d n) as [-> ->]; [left; auto|reflexivity].
  - match goal with H : float_kind _ _ _ |- _ => destruct H end; reflexivity.
  - destruct (ges_strip dd dd' c (KTime r tz sg e) d n) as [-> ->]; [left; auto|reflexivity].
  - destruct (ges_strip dd dd' c (KTime ResNs tz sg e) d n) as [-> ->]; [left; auto|reflexivity].
Qed.

Lemma leaf_load_strip dd dd' dd0 dd0' c d k v s : leaf_suits c d k v -> oget d (c_name c) = None ->
  leaf_load (strip c) k (get_expected_size_with dd (strip c) k d)
    (get_expected_size_with dd0 (strip c) k []) s
  = leaf_load c k (get_expected_size_with dd' c k d) (get_expected_size_with dd0' c k []) s.
Proof.
  intros [] Hf; cbn [leaf_load]; try reflexivity.
  - destruct (ges_strip dd dd' c KBytes d _ H) as [-> ->]. reflexivity.
  - destruct (ges_strip dd dd' c (KString cd pad) d _ H0) as [-> ->]. reflexivity.
  - unfold get_expected_size_with, expected_unsized, default_of. cbn [strip c_size c_name c_factory c_default].
    rewrite H, Hf, H0, H1. reflexivity.
  - destruct (ges_strip dd0 dd0' c (KFloat binary64 e) [] 8) as [-> ->]; [left; auto|reflexivity].
  - destruct (ges_strip dd dd' c (KTime ResS tz sg e) d n) as [-> ->]; [left; auto|reflexivity].
  - match goal with H : float_kind _ _ _ |- _ => destruct H as [e0|e0|e0] end; cbn [leaf_load];
      [destruct (ges_strip dd0 dd0' c (KFloat binary16 e0) [] 2) as [-> ->]
      |destruct (ges_strip dd0 dd0' c (KFloat binary32 e0) [] 4) as [-> ->]
      |destruct (ges_strip dd0 dd0' c (KFloat binary64 e0) [] 8) as [-> ->]]; try (left; auto); reflexivity.
  - destruct (ges_strip dd dd' c (KTime r tz sg e) d n) as [-> ->]; [left; auto|reflexivity].
  - destruct (ges_strip dd dd' c (KTime ResNs tz sg e) d n) as [-> ->]; [left; auto|reflexivity].
Qed.

Lemma do_load_strip E n c k v ctx d s : leaf_suits c d k v -> oget d (c_name c) = None ->
  do_load E n (Field (strip c) k) ctx d s = do_load E n (Field c k) ctx d s.
Proof.
  intros Hs Hf. destruct (suits_leaf_kind _ _ _ _ Hs) as [Hk _].
  rewrite !do_load_leaf by auto. eapply leaf_load_strip; eauto.
Qed.

Lemma to_stream_strip E n c k v ctx d : leaf_suits c d k v -> accepts c v ->
  field_to_stream E n (Field (strip c) k) v ctx d = field_to_stream E n (Field c k) v ctx d.
Proof.
  intros Hs Ha. destruct (suits_leaf_kind _ _ _ _ Hs) as [Hk Hv].
  rewrite !field_to_stream_leaf by (auto; constructor).
  rewrite (leaf_dump_strip _ (fun _ => draise ETypeErr)) by auto.
  destruct (leaf_dump c k _ v) as [bs [[]| |]]; auto.
  unfold sized_write, get_expected_size, ges, get_expected_size_with. cbn [conf kind strip c_size c_name].
  destruct (c_size c); reflexivity.
Qed.

Lemma leaf_scalar c d k v : leaf_suits c d k v -> scalar v.
Proof. intros []; exact I. Qed.

Lemma suits_comparable c d k v : leaf_suits c d k v -> comparable v /\ no_struct v /\ depth v = O.
Proof.
  intros []; (split; [|split; [constructor; exact I|reflexivity]]);
    first [apply cmp_atom; exact I|apply cmp_int|apply cmp_float; auto; match goal with H : same_number _ _ _ |- _ => apply H end].
Qed.

Lemma dump_accepts E n f v ctx d bs : v <> VDefault ->
  field_to_stream E n f v ctx d = (bs, Ok tt) -> accepts (conf f) v.
Proof.
  intros Hv H. apply run_accepts. unfold field_to_stream, field_to_stream_with, to_stream_with in H.
  destruct (run_validators (c_validators (conf f)) v) as [[]|e|] eqn:Hr; auto; exfalso;
    destruct v; try contradiction; cbn in H; rewrite ?Hr in H; cbn in H; try discriminate H.
Qed.

(** The values that may be referred to are the same in both dictionaries. *)
Definition agree (known : list string) (d dl : dict) : Prop :=
  forall r v, In r known -> dget d r = Some v -> scalar v -> dget dl r = Some v.

Lemma agree_size known d dl c n : agree known d dl -> incl (size_refs (c_size c)) known ->
  declared_size c d n -> declared_size c dl n.
Proof.
  intros H Hi [Hs|(r & Hs & Hd)]; [left; auto|]. right. exists r. split; auto.
  apply H; auto; [|exact I]. apply Hi. rewrite Hs. left. reflexivity.
Qed.

Lemma leaf_agree known d dl c k v : agree known d dl -> incl (size_refs (c_size c)) known ->
  leaf_suits c d k v -> leaf_suits c dl k v.
Proof.
  intros H Hi Hl. destruct Hl; try (econstructor; eauto; fail).
  - constructor. eapply agree_size; eauto.
  - econstructor; eauto. eapply agree_size; eauto.
Qed.

Lemma leaf_plain_rt E n c k v ctx d bs : takes c v -> leaf_suits c d k v ->
  field_to_stream E n (Field c k) v ctx d = (bs, Ok tt) ->
  forall n' ctx' dl pre suf, leaf_suits c dl k v -> oget dl (c_name c) = None ->
  field_from_stream E n' (Field c k) ctx' dl (at_data pre bs suf)
  = (after_data pre bs suf, Ok v).
Proof.
  intros Ht Hs Hd n' ctx' dl pre suf Hag Hf.
  destruct Hs as [sg e sz z Hs|fmt mx z|b Hs|cd pad t b He Hs|cd pad t Hs Hfa Hde Hz|fmt u Hu Hs
                 |e x Hs Hp Hn|tz sg e sz s Hs Hdt
                 |i k e x y Hk Hs Hsn|r tz sg e sz s Hr Hs Hdt|tz sg e sz us Hs Hu].
  - eapply integer_roundtrip; eauto.
  - eapply vli_field_roundtrip; eauto.
  - rewrite (bytes_to_stream _ _ _ (zlen b)) in Hd by (auto; apply Ht).
    rewrite Z.eqb_refl in Hd. injection Hd as <-.
    apply bytes_from_stream; auto. inversion Hag; subst; auto.
  - assert (Hs' : declared_size c dl (zlen b)).
    { inversion Hag; subst. match goal with H : encode cd t = Ok ?x |- _ => rewrite He in H; injection H as <- end. auto. }
    destruct (string_roundtrip E E n n' c cd pad t b ctx ctx' d dl pre suf) as [H1 H2]; auto.
    rewrite H1 in Hd. injection Hd as <-. exact H2.
  - eapply stringz_roundtrip; eauto.
  - destruct (uuid_roundtrip E n c fmt u ctx d Hs Ht Hu) as (bs' & H1 & _ & H2).
    rewrite H1 in Hd. injection Hd as <-. apply H2.
  - destruct (double_roundtrip E n c _ e x ctx d (fk_double e) Hs Ht Hp Hn)
      as (bs' & H1 & _ & _ & _ & H2).
    rewrite H1 in Hd. injection Hd as <-. apply H2.
  - assert (Hc : 0 <= sz \/ sz < 0) by lia. destruct Hc as [Hc|Hc].
    + destruct (seconds_roundtrip E n c tz sg e sz s tz ctx d Hs Hc) as [H1 H2]; auto; [apply Ht|].
      assert (Hr : int_range sg sz s \/ ~ int_range sg sz s).
      { unfold int_range. destruct sg; lia. }
      destruct Hr as [Hr|Hr]; [|rewrite (H2 Hr) in Hd; discriminate].
      destruct (H1 Hr) as (bs' & H3 & _ & H4). rewrite H3 in Hd. injection Hd as <-.
      apply H4; [assumption|exact Ht].
    + exfalso. rewrite field_to_stream_leaf in Hd by (auto; apply Ht). cbn [leaf_dump] in Hd.
      rewrite (ges_int _ _ _ _ sz) in Hd by auto.
      destruct (time_to_int ResS (s * 1000000) tz) as [t| |]; try discriminate.
      rewrite !dbind_ok in Hd. unfold write_int, py_to_bytes in Hd.
      replace (sz <? 0) with true in Hd by lia. cbn in Hd. discriminate.
  - destruct (narrow_roundtrip E n c i k e x y ctx d Hk Hs (proj2 (proj2 (proj2 Ht))) Hsn) as (bs' & H1 & _ & _ & _ & H2).
    rewrite H1 in Hd. injection Hd as <-. apply H2. exact Ht.
  - destruct (whole_roundtrip E n c r tz sg e sz s tz ctx d bs Hr Hs Hdt (proj2 (proj2 (proj2 Ht))) Hd) as [_ H1].
    apply H1; [exact Hdt|exact Ht].
  - destruct (nano_roundtrip E n c tz sg e sz us tz ctx d Hu Hs (proj2 (proj2 (proj2 Ht)))) as [_ H1].
    destruct (H1 bs Hd) as [_ H2]. apply H2. exact Ht.
Qed.

Lemma strip_suits c d k v : leaf_suits c d k v -> leaf_suits (strip c) d k v.
Proof. intros []; econstructor; eauto. Qed.

Lemma leaf_rt E n c k v ctx d bs : leaf_suits c d k v ->
  field_to_stream E n (Field c k) v ctx d = (bs, Ok tt) ->
  forall n' ctx' dl pre suf, leaf_suits c dl k v -> oget dl (c_name c) = None ->
  do_load E n' (Field c k) ctx' dl (at_data pre bs suf) = (after_data pre bs suf, Ok v).
Proof.
  intros Hs Hd n' ctx' dl pre suf Hag Hf.
  destruct (suits_leaf_kind _ _ _ _ Hs) as [Hk Hv].
  assert (Ha : accepts c v).
  { apply (dump_accepts E n (Field c k) v ctx d bs); auto. intros ->. discriminate. }
  assert (H : field_from_stream E n' (Field (strip c) k) ctx' dl (at_data pre bs suf)
              = (after_data pre bs suf, Ok v)).
  { apply (leaf_plain_rt E n (strip c) k v ctx d bs); auto.
    - apply strip_takes.
    - apply strip_suits; auto.
    - rewrite to_stream_strip by auto. exact Hd.
    - apply strip_suits; auto. }
  apply present_load_iff in H; auto; [|intros ? ? ?; reflexivity].
  destruct H as [H _]. rewrite (do_load_strip E n' c k v) in H by auto. exact H.
Qed.

(** ** Presence and null *)
Lemma shown_run known d dl c b ctx so : agree known d dl -> shown known d c b ->
  run_dict dl (c_present c ctx so) = Ok b.
Proof.
  intros Hag [[H ->]|(name & p & v & Hin & Hv & Hs & Hp & H)]; [apply H|].
  unfold run_dict. rewrite H. unfold dget_res. rewrite (Hag name v) by auto. cbn [bind]. congruence.
Qed.

Lemma agree_refl known d : agree known d d.
Proof. intros r v _ H _. exact H. Qed.

Lemma leaf_dump_agree E c d dl k v n n' ctx ctx' : leaf_suits c d k v -> leaf_suits c dl k v ->
  do_dump E n (Field c k) v ctx d = do_dump E n' (Field c k) v ctx' dl.
Proof.
  intros H H'. destruct (suits_leaf_kind _ _ _ _ H) as [Hk _]. rewrite !do_dump_leaf by auto.
  destruct H as [sg e sz z Hs|fmt mx z|b Hs|cd pad t b He Hs|cd pad t Hs Hfa Hde Hz|fmt u Hu Hs
                 |e x Hs Hp Hn|tz sg e sz s Hs Hdt
                 |i k e x y Hfk Hs Hsn|r tz sg e sz s Hr Hs Hdt|tz sg e sz us Hs Hu]; cbn [leaf_dump]; try reflexivity.
  - inversion H' as [| |? Hs'| | | | | | | |]; subst;
      try (match goal with H : float_kind _ KBytes _ |- _ => inversion H end).
    rewrite (ges_declared _ _ _ _ _ Hs), (ges_declared _ _ _ _ _ Hs'). reflexivity.
  - inversion H' as [| | |? ? ? b' He' Hs'| | | | | | |]; subst;
      try (match goal with H : float_kind _ (KString _ _) _ |- _ => inversion H end). rewrite He in He'. injection He' as <-.
    rewrite (ges_declared _ _ _ _ _ Hs), (ges_declared _ _ _ _ _ Hs'). reflexivity.
  - rewrite !(ges_int _ _ _ _ sz) by auto. reflexivity.
  - destruct Hfk; reflexivity.
  - rewrite !(ges_int _ _ _ _ sz) by auto. reflexivity.
  - rewrite !(ges_int _ _ _ _ sz) by auto. reflexivity.
Qed.

(** Null has the same bytes while loading. *)
Lemma null_bytes_repr E known c k d dl nb : null_bytes E c k d nb -> agree known d dl ->
  incl (size_refs (c_size c)) known -> forall n, null_repr (do_dump E n) (Field c k) dl = Ok nb.
Proof.
  intros Hn Hag Hi n. unfold null_repr, null_repr_with. cbn [conf kind].
  destruct Hn as [nb H|m H Hm|nb Hl Hb H].
  - rewrite H. reflexivity.
  - unfold ges. cbn [conf kind]. rewrite (ges_declared _ _ _ _ m) by (eapply agree_size; eauto).
    destruct H as [-> | ->]; reflexivity.
  - rewrite (leaf_dump_agree E c d dl k (c_null c) O n VNone VNone) in H by (auto; eapply leaf_agree; eauto).
    destruct (suits_leaf_kind _ _ _ _ Hl) as [_ Hdata]. 
    destruct (c_null c) eqn:Hc; try discriminate Hdata; try (rewrite H; reflexivity).
    edestruct Hb; eauto.
Qed.

Lemma clash_prefix a b x y : clash a b -> a ++ x <> b ++ y.
Proof.
  intros (i & p & q & Ha & Hb & Hne) Heq. apply Hne.
  assert (H1 : nth_error (a ++ x) i = Some p) by (rewrite nth_error_app1; auto; apply nth_error_Some; congruence).
  assert (H2 : nth_error (b ++ y) i = Some q) by (rewrite nth_error_app1; auto; apply nth_error_Some; congruence).
  congruence.
Qed.

(** What [from_stream] adds to the class-specific load. *)
Lemma present_loads E n f ctx d s s' v :
  run_dict d (c_present (conf f) ctx (Some s)) = Ok true ->
  c_null (conf f) = VUndefined
  \/ (exists nb, null_repr (do_dump E n) f d = Ok nb /\ forall suf, rest s <> nb ++ suf)
     /\ py_eq E n v (c_null (conf f)) = Ok false ->
  c_const (conf f) = VUndefined \/ py_eq E n v (c_const (conf f)) = Ok true ->
  accepts (conf f) v -> do_load E n f ctx d s = (s', Ok v) ->
  field_from_stream E n f ctx d s = (s', Ok v).
Proof.
  intros Hp Hn Hc Ha H. unfold field_from_stream, field_from_stream_with, from_stream_with. rewrite Hp.
  assert (Hrest : (do _ <- (if negb (is_undefined (c_const (conf f))) then
             do b <- py_eq E n v (c_const (conf f));
             if b then Ok tt else Raise (EValidation (c_name (conf f))) else Ok tt);
           run_validators (c_validators (conf f)) v) = Ok tt).
  { rewrite (accepts_run _ _ Ha). destruct Hc as [-> |Hc]; [reflexivity|].
    destruct (negb (is_undefined (c_const (conf f)))); [rewrite Hc|]; reflexivity. }
  unfold allow_null. destruct Hn as [Hn|((nb & Hnb & Hne) & Heq)].
  - rewrite Hn. cbn [is_undefined negb]. unfold lbind, llift, lret. rewrite H. cbn [bind].
    destruct (if negb (is_undefined (c_const (conf f))) then _ else _) as [[]| |]; try discriminate Hrest.
    cbn [bind] in Hrest. rewrite Hrest. reflexivity.
  - destruct (is_undefined (c_null (conf f))) eqn:Hu; cbn [negb].
    { unfold lbind, llift, lret. rewrite H. cbn [bind].
      destruct (if negb (is_undefined (c_const (conf f))) then _ else _) as [[]| |]; try discriminate Hrest.
      cbn [bind] in Hrest. rewrite Hrest. reflexivity. }
    rewrite Hnb. unfold peek_bytes. destruct (read s (zlen nb)) as [data s1] eqn:Hread. cbn [negb andb].
    destruct (bytes_eqb data nb) eqn:Hb.
    + apply bytes_eqb_eq in Hb. subst data. apply read_spec in Hread. destruct Hread as (suf & Hr & _).
      destruct (Hne suf Hr).
    + unfold lbind, llift, lret. rewrite H, Heq. cbn [bind].
      destruct (if negb (is_undefined (c_const (conf f))) then _ else _) as [[]| |]; try discriminate Hrest.
      cbn [bind] in Hrest. rewrite Hrest. reflexivity.
Qed.

Lemma null_loads E n f ctx d nb pre suf :
  (forall s, run_dict d (c_present (conf f) ctx (Some s)) = Ok true) ->
  null_repr (do_dump E n) f d = Ok nb -> c_null (conf f) <> VUndefined -> accepts (conf f) VNone ->
  field_from_stream E n f ctx d (at_data pre nb suf) = (after_data pre nb suf, Ok VNone).
Proof.
  intros Hp Hnb Hc Ha. unfold field_from_stream, field_from_stream_with, from_stream_with. rewrite Hp.
  assert (Hal : allow_null (conf f) = true).
  { unfold allow_null. destruct (c_null (conf f)); auto; contradiction. }
  rewrite Hal, Hnb. unfold peek_bytes. rewrite (read_app _ nb suf (rest_at pre nb suf)). cbn [negb andb].
  rewrite bytes_eqb_refl, (accepts_run _ _ Ha), advance_at. reflexivity.
Qed.

Lemma absent_loads E n f ctx d s : run_dict d (c_present (conf f) ctx (Some s)) = Ok false ->
  field_from_stream E n f ctx d s = (s, Ok (c_npv (conf f))).
Proof.
  intros H. unfold field_from_stream, field_from_stream_with, from_stream_with. rewrite H. reflexivity.
Qed.

(** ** What a loaded value looks like, compared with the dumped one *)

(** A field of the loaded struct [vals], compared with the dictionary [m] that was dumped. *)
Definition discard_entry (m vals : dict) (name : string) (f : field) : Prop :=
  c_discard (conf f) = true /\ dget m name = None /\ dget vals name = None
  /\ unconditional (conf f) /\ c_factory (conf f) = None
  /\ is_undefined (c_default (conf f)) = false /\ is_not_present (c_default (conf f)) = false.
Definition absent_entry (m vals : dict) (name : string) (f : field) : Prop :=
  c_discard (conf f) = false /\ dget m name = Some VNotPresent
  /\ (exists known, shown known m (conf f) false)
  /\ exists y, dget vals name = Some y /\ is_undefined y = false.
Definition present_entry (m vals : dict) (name : string) (f : field) : Prop :=
  c_discard (conf f) = false /\ (exists known, shown known m (conf f) true)
  /\ exists x y, dget m name = Some x /\ dget vals name = Some y /\ x <> VNotPresent.

Inductive loaded_as (E : env) : value -> value -> Prop :=
| la_scalar : forall v, scalar v -> loaded_as E v v
| la_list : forall l m, Forall2 (loaded_as E) l m -> loaded_as E (VList l) (VList m)
| la_struct : forall cid m vals, straight_class (cls E cid) ->
    instance_of E cid m -> instance_of E cid vals ->
    (forall name f, In (name, f) (k_comps (cls E cid)) ->
       discard_entry m vals name f \/ absent_entry m vals name f \/ present_entry m vals name f) ->
    (forall k x y, dget m k = Some x -> x <> VNotPresent -> dget vals k = Some y -> loaded_as E x y) ->
    loaded_as E (VDict m) (VStruct cid vals).

Section LoadedInd.
Variable E : env.
Variable P : value -> value -> Prop.
Hypothesis Hscalar : forall v, scalar v -> P v v.
Hypothesis Hlist : forall l m, Forall2 (loaded_as E) l m -> Forall2 P l m -> P (VList l) (VList m).
Hypothesis Hstruct : forall cid m vals, straight_class (cls E cid) ->
    instance_of E cid m -> instance_of E cid vals ->
    (forall name f, In (name, f) (k_comps (cls E cid)) ->
       discard_entry m vals name f \/ absent_entry m vals name f \/ present_entry m vals name f) ->
    (forall k x y, dget m k = Some x -> x <> VNotPresent -> dget vals k = Some y -> loaded_as E x y) ->
    (forall k x y, dget m k = Some x -> x <> VNotPresent -> dget vals k = Some y -> P x y) ->
    P (VDict m) (VStruct cid vals).

Fixpoint loaded_as_ind2 v w (H : loaded_as E v w) : P v w :=
  match H with
  | la_scalar _ v Hv => Hscalar v Hv
  | la_list _ l m Hl =>
    Hlist l m Hl
      ((fix go l m (Hl : Forall2 (loaded_as E) l m) : Forall2 P l m :=
          match Hl with
          | Forall2_nil _ => Forall2_nil _
          | Forall2_cons x y Hxy Hr => Forall2_cons x y (loaded_as_ind2 x y Hxy) (go _ _ Hr)
          end) l m Hl)
  | la_struct _ cid m vals Hc Hm Hv He Hk =>
    Hstruct cid m vals Hc Hm Hv He Hk (fun k x y Hx Hn Hy => loaded_as_ind2 x y (Hk k x y Hx Hn Hy))
  end.
End LoadedInd.

Lemma loaded_data E v w : loaded_as E v w -> is_undefined w = false /\ is_not_present w = false.
Proof. intros [x H| |]; auto. destruct x; destruct H; auto. Qed.

Lemma loaded_scalar E v w : loaded_as E v w -> scalar v -> w = v.
Proof. intros [x H| |] Hs; auto; destruct Hs. Qed.

(** ** [to_dict] of an instance whose fields can all be computed *)
Lemma in_dget vals name v : NoDup (dkeys vals) -> In (name, v) vals -> dget vals name = Some v.
Proof. intros Hn Hi. rewrite dget_assoc. apply in_assoc; auto. Qed.

Lemma whatever_total E n cid X : well_formed (cls E cid) -> instance_of E cid X ->
  (forall name f, In (name, f) (comps E cid) ->
     exists v, run_struct E n cid X (compute_value_for_dump (conf f) VNone) = Ok v) ->
  exists first later, to_dict_whatever_possible E n cid X = Ok (first ++ later)
    /\ map fst first = struct_keys X.
Proof.
  intros Hwf (_ & Hnd & Hincl) Hval. unfold to_dict_whatever_possible.
  pose proof (well_formed_bound _ Hwf) as Hb.
  assert (Hpv : forall fs dct0, (forall name f, In (name, f) fs ->
     exists v, run_struct E n cid X (compute_value_for_dump (conf f) VNone) = Ok v) ->
     exists dct, possible_values E n cid X fs dct0 = Ok dct).
  { induction fs as [|[nm f] fs IH]; intros dct0 Hv; [exists dct0; auto|].
    cbn [possible_values]. destruct (Hv nm f) as (v & Hr); [left; auto|]. rewrite Hr.
    apply IH. intros ? ? Hi. eapply Hv. right; eauto. }
  destruct (Hpv _ [] Hval) as [dct Hdct]. rewrite Hdct. cbn [bind].
  match goal with |- context [do first <- mapM ?g ?l; _] =>
    assert (Hm : exists ys, mapM g l = Ok ys /\ map fst ys = l) end.
  { assert (Hk : forall k, In k (struct_keys X) -> In k (map fst (k_comps (cls E cid)))).
    { intros k Hk. apply struct_keys_in in Hk; auto. destruct Hk as (v & Hv & _).
      apply Hincl. apply dget_in. eauto. }
    destruct (possible_values_spec _ _ _ _ _ _ _ Hb Hdct) as (_ & _ & Hin).
    revert Hk. generalize (struct_keys X) as ks. induction ks as [|k ks IH]; intros Hk; [exists []; auto|].
    destruct IH as (ys & Hys & Hks). { intros. apply Hk. right; auto. }
    assert (Hkk : In k (map fst (k_comps (cls E cid)))) by (apply Hk; left; auto).
    apply in_map_iff in Hkk. destruct Hkk as ([k' f] & Hkk & Hf). cbn [fst] in Hkk. subst k'.
    specialize (Hin k f Hf). destruct (Hval k f Hf) as (v & Hv). rewrite Hv in Hin.
    exists ((k, v) :: ys). cbn [mapM]. rewrite Hin. cbn [bind]. rewrite Hys. cbn [bind map fst]. split; [reflexivity|]. rewrite Hks. reflexivity. }
  destruct Hm as (ys & Hys & Hks). rewrite Hys. cbn [bind]. eauto.
Qed.

Lemma drop_total fs D : bound fs -> NoDup (dkeys D) -> (forall nm, In nm (map fst fs) -> In nm (dkeys D)) ->
  exists D', drop_discard fs D = Ok D'.
Proof.
  revert D. induction fs as [|[nm f] fs IH]; intros D Hb Hnd Hin; [exists D; auto|].
  cbn [drop_discard]. rewrite (bound_cname _ nm f Hb) by (left; auto).
  pose proof (bound_head _ _ _ Hb) as Hni. apply bound_tail in Hb.
  destruct (c_discard (conf f)).
  - assert (Hm : dmem D nm = true) by (apply dmem_in, Hin; left; auto). rewrite Hm.
    rewrite ddel_filter by auto. apply IH; auto; [apply nodup_filter_keys; auto|].
    intros x Hx. apply dget_in. rewrite (dget_filter_key (fun k => negb (String.eqb k nm))).
    destruct (String.eqb_spec x nm) as [->|]; [contradiction|]. cbn [negb]. apply dget_in, Hin. right; auto.
  - apply IH; auto. intros x Hx. apply Hin. right; auto.
Qed.

Lemma to_dict_picks E n cid X : well_formed (cls E cid) -> instance_of E cid X ->
  (forall name f, In (name, f) (comps E cid) ->
     exists v, run_struct E n cid X (compute_value_for_dump (conf f) VNone) = Ok v) ->
  exists D, to_dict E n cid X false = dicts_of E n D /\ NoDup (dkeys D)
    /\ incl (dkeys D) (map fst (k_comps (cls E cid)))
    /\ (forall name f v, In (name, f) (k_comps (cls E cid)) ->
          run_struct E n cid X (compute_value_for_dump (conf f) VNone) = Ok v ->
          dget D name = if c_discard (conf f) then None else Some v)
    /\ (filled (cls E cid) X -> (forall k, dget X k <> Some VUndefined) -> dkeys D = dkeys X).
Proof.
  intros Hwf Hi Hval. pose proof (well_formed_bound _ Hwf) as Hb.
  destruct (whatever_total E n cid X Hwf Hi Hval) as (first & later & Hw & Hfirst).
  set (w := first ++ later) in *.
  destruct (whatever_spec _ _ _ _ _ Hi Hw) as (Hnd & Hincl & Hget).
  assert (Hwall : forall name, In name (map fst (comps E cid)) -> In name (dkeys w)).
  { intros name Hin. apply in_map_iff in Hin. destruct Hin as ([nm f] & Hx & Hf). cbn [fst] in Hx. subst nm.
    specialize (Hget name f Hf). destruct (Hval name f Hf) as (r & Hr). rewrite Hr in Hget.
    apply dget_in. eauto. }
  assert (Hmiss : missing_values (comps E cid) w = Ok []).
  { unfold missing_values. replace (filter _ (comps E cid)) with (@nil (string * field)); auto.
    assert (H : forall nf, In nf (comps E cid) -> dmem w (cname (snd nf)) = true).
    { intros [nm f] Hin. cbn [snd]. rewrite (bound_cname _ _ _ Hb Hin). apply dmem_in, Hwall.
      apply in_map_iff. exists (nm, f). auto. }
    revert H. generalize (comps E cid) as fs. clear. intros fs.
    induction fs as [|nf fs IH]; intros H; auto. cbn [filter].
    rewrite (H nf) by (left; auto). cbn [negb]. apply IH. intros ? ?. apply H. right; auto. }
  destruct (drop_total (comps E cid) w Hb Hnd Hwall) as [D HD].
  pose proof (drop_discard_filter _ _ _ Hb Hnd HD) as HDf.
  exists D. split; [|split; [|split; [|split]]].
  - unfold to_dict. rewrite Hw. cbn [bind]. fold w. rewrite Hmiss. cbn [bind]. unfold dupdate. cbn [fold_left].
    rewrite HD. reflexivity.
  - rewrite HDf. apply nodup_filter_keys; auto.
  - intros k Hk. apply dget_in in Hk. destruct Hk as [v Hv]. rewrite HDf in Hv.
    rewrite (dget_filter_key (fun k => negb (discarded (comps E cid) k))) in Hv.
    destruct (negb _); [|discriminate]. apply Hincl, dget_in. eauto.
  - intros name f v Hf Hv. rewrite HDf, (dget_filter_key (fun k => negb (discarded (comps E cid) k))).
    unfold comps. rewrite (discarded_iff _ _ _ Hb Hf). destruct (c_discard (conf f)); auto. cbn [negb].
    specialize (Hget name f Hf). rewrite Hv in Hget. exact Hget.
  - intros [HndX HX] Hdef. rewrite HDf. subst w. rewrite filter_app. unfold dkeys at 1. rewrite map_app.
    assert (HkX : struct_keys X = dkeys X).
    { unfold struct_keys, dkeys. f_equal. clear - HndX Hdef. 
      assert (H : forall kv, In kv X -> is_undefined (snd kv) = false).
      { intros [k v] Hi. cbn [snd]. apply in_dget in Hi; auto. specialize (Hdef k). destruct v; auto. congruence. }
      clear - H. induction X as [|kv X IH]; auto. cbn [filter]. rewrite (H kv) by (left; auto). cbn [negb].
      f_equal. apply IH. intros ? ?. apply H. right; auto. }
    assert (H1 : forall kv, In kv first -> discarded (comps E cid) (fst kv) = false).
    { intros [k v] Hin. cbn [fst]. assert (Hk : In k (dkeys X)).
      { rewrite <- HkX, <- Hfirst. apply in_map_iff. exists (k, v). auto. }
      apply HX in Hk. destruct Hk as (f & Hf & Hd). unfold comps. rewrite (discarded_iff _ _ _ Hb Hf). exact Hd. }
    assert (H2 : forall kv, In kv later -> discarded (comps E cid) (fst kv) = true).
    { intros [k v] Hin. cbn [fst]. assert (Hk : In k (map fst (comps E cid))).
      { apply Hincl. unfold dkeys. rewrite map_app. apply in_or_app. right. apply in_map_iff. exists (k, v). auto. }
      apply in_map_iff in Hk. destruct Hk as ([k' f] & Hx & Hf). cbn [fst] in Hx. subst k'.
      unfold comps. rewrite (discarded_iff _ _ _ Hb Hf). destruct (c_discard (conf f)) eqn:Hd; auto. exfalso.
      assert (Hk : In k (dkeys X)) by (apply HX; eauto). rewrite <- HkX, <- Hfirst in Hk.
      unfold dkeys in Hnd. rewrite map_app in Hnd. clear - Hnd Hk Hin.
      induction first as [|a first IH]; [destruct Hk|]. cbn in Hnd, Hk. inversion Hnd as [|? ? Hni Hnd']; subst.
      destruct Hk as [Hk|Hk]; [|auto]. subst k. apply Hni. apply in_or_app. right.
      apply in_map_iff. exists (fst a, v). auto. }
    rewrite <- HkX, <- Hfirst. rewrite <- (app_nil_r (map fst first)). f_equal.
    + unfold comps in H1. clear - H1. induction first as [|kv l IH]; auto. cbn [filter]. rewrite (H1 kv) by (left; auto).
      cbn [negb map]. f_equal. apply IH. intros ? ?. apply H1. right; auto.
    + unfold comps in H2. clear - H2. induction later as [|kv l IH]; auto. cbn [filter]. rewrite (H2 kv) by (left; auto).
      cbn [negb]. apply IH. intros ? ?. apply H2. right; auto.
Qed.

Lemma dict_ext (d e : dict) : dkeys d = dkeys e -> NoDup (dkeys d) ->
  (forall k, In k (dkeys d) -> dget d k = dget e k) -> d = e.
Proof.
  revert e. induction d as [|[k v] d IH]; intros [|[k' v'] e] Hk Hnd Hg; try discriminate Hk; auto.
  cbn in Hk. injection Hk as <- Hk. inversion Hnd as [|? ? Hni Hnd']; subst.
  pose proof (Hg k (or_introl eq_refl)) as H. cbn in H. rewrite String.eqb_refl in H. injection H as <-.
  f_equal. apply IH; auto. intros x Hx. specialize (Hg x (or_intror Hx)). cbn in Hg.
  destruct (String.eqb_spec k x) as [->|]; auto. contradiction.
Qed.

(** The value picked for a field that is shown or not. *)
Lemma shown_struct E cid known m X c b n ctx so : well_formed (cls E cid) -> instance_of E cid X ->
  (forall r v, dget m r = Some v -> scalar v -> dget X r = Some v) -> shown known m c b ->
  run_struct E n cid X (c_present c ctx so) = Ok b.
Proof.
  intros Hwf (_ & _ & Hincl) Hag [[H ->]|(name & p & v & _ & Hv & Hs & Hp & H)]; [apply H|].
  unfold run_struct. rewrite H. pose proof (Hag name v Hv Hs) as Hx.
  assert (Hin : In name (map fst (k_comps (cls E cid)))) by (apply Hincl, dget_in; eauto).
  apply in_map_iff in Hin. destruct Hin as ([nm f] & Hnm & Hin). cbn in Hnm. subst nm.
  destruct (bound_assoc _ _ _ (well_formed_bound _ Hwf) Hin) as [Ha Hn].
  rewrite (struct_get_stored E n cid X name f v Ha Hn Hx). cbn [bind]. congruence.
Qed.

Lemma struct_value E n cid X name f : well_formed (cls E cid) -> instance_of E cid X ->
  In (name, f) (k_comps (cls E cid)) -> forall mem, mem = struct_mem X name -> 
  run_struct E n cid X (stored_or_fallback (conf f))
  = if mem then struct_get E n cid X name else run_struct E n cid X (fallback_value (conf f)).
Proof.
  intros Hwf Hi Hin mem ->. destruct (bound_assoc _ _ _ (well_formed_bound _ Hwf) Hin) as [_ Hn].
  unfold run_struct, stored_or_fallback. rewrite Hn. cbn [run_q]. destruct (struct_mem X name); auto.
  cbn [run_q]. destruct (struct_get E n cid X name); auto.
Qed.

Lemma mem_stored E cid X name x : instance_of E cid X -> dget X name = Some x ->
  is_undefined x = false -> struct_mem X name = true.
Proof.
  intros (_ & Hnd & _) Hx Hu. apply struct_mem_in. apply struct_keys_in; auto.
  exists x. split; auto. intros ->. discriminate.
Qed.

Lemma mem_missing E cid X name : instance_of E cid X -> dget X name = None -> struct_mem X name = false.
Proof.
  intros (_ & Hnd & _) Hx. destruct (struct_mem X name) eqn:Hm; auto.
  apply struct_mem_in in Hm. apply struct_keys_in in Hm; auto. destruct Hm as (x & Hy & _). congruence.
Qed.

(** A field stored as [x] and shown or not as [b]. *)
Lemma stored_pick E n cid known m X name f x b : well_formed (cls E cid) -> instance_of E cid X ->
  In (name, f) (k_comps (cls E cid)) ->
  (forall r v, dget m r = Some v -> scalar v -> dget X r = Some v) -> shown known m (conf f) b ->
  dget X name = Some x -> is_undefined x = false ->
  run_struct E n cid X (compute_value_for_dump (conf f) VNone)
  = Ok (if b then x else VNotPresent).
Proof.
  intros Hwf Hi Hin Hag Hsh Hx Hu.
  destruct (bound_assoc _ _ _ (well_formed_bound _ Hwf) Hin) as [Ha Hn].
  unfold run_struct. rewrite run_compute. fold (run_struct E n cid X (stored_or_fallback (conf f))).
  rewrite (struct_value E n cid X name f Hwf Hi Hin true) by (symmetry; eapply mem_stored; eauto).
  rewrite (struct_get_stored E n cid X name f x Ha Hn Hx).
  pose proof (shown_struct E cid known m X (conf f) b n VNone None Hwf Hi Hag Hsh) as Hp.
  unfold run_struct in Hp. rewrite Hp, Hu. destruct b, (is_not_present x) eqn:Hnp; auto.
  destruct x; try discriminate Hnp. reflexivity.
Qed.

Lemma discard_pick E n cid X name f : well_formed (cls E cid) -> instance_of E cid X ->
  In (name, f) (k_comps (cls E cid)) -> dget X name = None ->
  unconditional (conf f) -> c_factory (conf f) = None ->
  is_undefined (c_default (conf f)) = false -> is_not_present (c_default (conf f)) = false ->
  run_struct E n cid X (compute_value_for_dump (conf f) VNone) = Ok (c_default (conf f)).
Proof.
  intros Hwf Hi Hin Hx Hun Hfac Hu Hnp.
  unfold run_struct. rewrite run_compute. fold (run_struct E n cid X (stored_or_fallback (conf f))).
  rewrite (struct_value E n cid X name f Hwf Hi Hin false) by (symmetry; eapply mem_missing; eauto).
  unfold run_struct, fallback_value, default_query. rewrite Hu, Hfac. cbn [negb run_q].
  rewrite Hnp, Hun, Hu. reflexivity.
Qed.

(** ** Converting what was loaded *)
Lemma dicts_total E n l : (forall kv, In kv l -> exists w, recursive_to_dicts E n (snd kv) = Ok w) ->
  exists l', dicts_of E n l = Ok l'.
Proof.
  unfold dicts_of. induction l as [|kv l IH]; intros H; [exists []; auto|].
  destruct (H kv) as [w Hw]; [left; auto|]. destruct IH as [l' Hl'].
  { intros. apply H. right; auto. }
  exists ((fst kv, w) :: l'). cbn [mapM]. rewrite Hw. cbn [bind]. rewrite Hl'. auto.
Qed.

Lemma rtd_up E n m v u : (n <= m)%nat -> recursive_to_dicts E n v = Ok u -> recursive_to_dicts E m v = Ok u.
Proof. intros Hn H. apply (rle_ok _ _ _ (recursive_mono E n m v Hn) H). Qed.

Lemma common_fuel {A} (P : nat -> A -> Prop) (l : list A) :
  (forall n m a, (n <= m)%nat -> P n a -> P m a) -> (forall a, In a l -> exists n, P n a) ->
  exists N, forall a, In a l -> P N a.
Proof.
  intros Hm. induction l as [|a l IH]; intros H; [exists O; intros ? []|].
  destruct (H a) as [n1 H1]; [left; auto|]. destruct IH as [n2 H2]; [intros; apply H; right; auto|].
  exists (Nat.max n1 n2). intros b [<-|Hb]; [apply (Hm n1)|apply (Hm n2)]; auto; lia.
Qed.

Lemma forall2_length {A B} (R : A -> B -> Prop) l m : Forall2 R l m -> length l = length m.
Proof. induction 1; cbn [length]; congruence. Qed.

Lemma loaded_agree E cid m vals : instance_of E cid m ->
  (forall name f, In (name, f) (k_comps (cls E cid)) ->
     discard_entry m vals name f \/ absent_entry m vals name f \/ present_entry m vals name f) ->
  (forall k x y, dget m k = Some x -> x <> VNotPresent -> dget vals k = Some y -> loaded_as E x y) ->
  forall r v, dget m r = Some v -> scalar v -> dget vals r = Some v.
Proof.
  intros (_ & _ & Hincl) He Hld r v Hr Hs.
  assert (Hin : In r (map fst (k_comps (cls E cid)))) by (apply Hincl, dget_in; eauto).
  apply in_map_iff in Hin. destruct Hin as ([nm f] & Hnm & Hin). cbn in Hnm. subst nm.
  destruct (He r f Hin) as [(_ & H & _)|[(_ & H & _)|(_ & _ & x & y & H & Hy & Hx)]]; rewrite Hr in H; try discriminate.
  - injection H as ->. destruct Hs.
  - injection H as <-. rewrite Hy. f_equal. eapply loaded_scalar; eauto.
Qed.

(** Dictionary keys are unique, at any depth. *)
Inductive unique : value -> Prop :=
| unique_scalar : forall v, scalar v -> unique v
| unique_absent : unique VNotPresent
| unique_list : forall l, (forall x, In x l -> unique x) -> unique (VList l)
| unique_dict : forall d, NoDup (dkeys d) -> (forall k x, In (k, x) d -> unique x) -> unique (VDict d).

Lemma converts E v w : loaded_as E v w ->
  exists n u, recursive_to_dicts E n w = Ok u /\ same_data v u /\ unique u.
Proof.
  intros H. induction H as [v Hv|l m _ IH|cid m vals Hc Hm Hv He Hld IH] using loaded_as_ind2.
  - exists 1%nat, v. split; [|split; [constructor|apply unique_scalar; auto]]. destruct v; destruct Hv; reflexivity.
  - assert (H : exists n us, mapM (recursive_to_dicts E n) m = Ok us /\ Forall2 same_data l us /\ Forall unique us).
    { induction IH as [|x y l m (n1 & u & H1 & H2 & H2') _ (n2 & us & H3 & H4 & H4')].
      - exists O, []. repeat split; auto.
      - exists (Nat.max n1 n2), (u :: us). split; [|split; constructor; auto].
        cbn [mapM]. rewrite (rle_ok _ _ _ (recursive_mono E n1 (Nat.max n1 n2) y ltac:(lia)) H1).
        cbn [bind].
        pose proof (rle_mapM (recursive_to_dicts E n2) (recursive_to_dicts E (Nat.max n1 n2)) m
                     ltac:(intros; apply recursive_mono; lia)) as H5.
        rewrite (rle_ok _ _ _ H5 H3). reflexivity. }
    destruct H as (n & us & H1 & H2 & H2'). exists (S n), (VList us). split; [|split; [|apply unique_list, Forall_forall; auto]].
    + cbn [recursive_to_dicts]. rewrite H1. reflexivity.
    + apply data_list.
      * apply (forall2_length _ _ _ H2).
      * clear - H2. induction H2 as [|x y l' us' Hxy _ IH2]; intros [|i] a b Ha Hb; cbn in *; try discriminate.
        -- injection Ha as <-. injection Hb as <-. auto.
        -- eauto.
  - pose proof Hc as (Hwf & _ & _). pose proof (loaded_agree E cid m vals Hm He Hld) as Hag.
    pose proof Hm as (_ & Hndm & Hinclm). pose proof Hv as (_ & Hndv & Hinclv).
    destruct (common_fuel (fun n kv => forall x, dget m (fst kv) = Some x -> x <> VNotPresent ->
               exists u, recursive_to_dicts E n (snd kv) = Ok u /\ same_data x u /\ unique u) vals) as [N0 HN0].
    { intros n1 n2 kv Hn Hp x Hx Hne. destruct (Hp x Hx Hne) as (u & Hu & Hs). exists u. split; auto.
      eapply rtd_up; eauto. }
    { intros [k y] Hi. cbn [fst snd]. apply in_dget in Hi; auto.
      destruct (dget m k) as [x|] eqn:Hx; [|exists O; discriminate].
      destruct (is_not_present x) eqn:Hnp.
      - exists O. intros x' Hx' Hne. injection Hx' as <-. destruct x; try discriminate Hnp. contradiction.
      - destruct (IH k x y Hx) as (n & u & Hu & Hs & Hq); auto; [intros ->; discriminate|].
        exists n. intros x' Hx' _. injection Hx' as <-. eauto. }
    set (N := S N0).
    assert (HN : forall k x y, dget m k = Some x -> x <> VNotPresent -> dget vals k = Some y ->
               exists u, recursive_to_dicts E N y = Ok u /\ same_data x u /\ unique u).
    { intros k x y Hx Hne Hy. assert (Hi : In (k, y) vals) by (rewrite dget_assoc in Hy; apply assoc_in; auto).
      destruct (HN0 (k, y) Hi x Hx Hne) as (u & Hu & Hs).
      exists u. split; auto. eapply rtd_up; [|exact Hu]. unfold N. lia. }
    assert (Hpick : forall name f, In (name, f) (k_comps (cls E cid)) -> exists r,
      run_struct E N cid vals (compute_value_for_dump (conf f) VNone) = Ok r
      /\ (c_discard (conf f) = true /\ dget m name = None
          \/ c_discard (conf f) = false /\ dget m name = Some VNotPresent /\ r = VNotPresent
          \/ c_discard (conf f) = false /\ exists x u, dget m name = Some x
               /\ recursive_to_dicts E N r = Ok u /\ same_data x u /\ unique u)).
    { intros name f Hin. destruct (He name f Hin) as [Hd|[Ha|Hp]].
      - destruct Hd as (Hd & Hx & Hy & Hun & Hfac & Hu & Hnp). eexists. split; [eapply discard_pick; eauto|]. auto.
      - destruct Ha as (Hd & Hx & (known & Hsh) & y & Hy & Hu). eexists. split; [eapply stored_pick; eauto|]. auto.
      - destruct Hp as (Hd & (known & Hsh) & x & y & Hx & Hy & Hne). eexists. split.
        { eapply stored_pick; eauto. eapply loaded_data; eauto. }
        right; right. split; auto. destruct (HN _ _ _ Hx Hne Hy) as (u & Hu & Hs). eauto. }
    destruct (to_dict_picks E N cid vals Hwf Hv) as (D & HD & HndD & HinclD & HgetD & _).
    { intros name f Hin. destruct (Hpick name f Hin) as (r & Hr & _). eauto. }
    destruct (dicts_total E N D) as [u Hu].
    { intros [k r] Hi. cbn [snd]. apply in_dget in Hi; auto.
      assert (Hin : In k (map fst (k_comps (cls E cid)))) by (apply HinclD, dget_in; eauto).
      apply in_map_iff in Hin. destruct Hin as ([k' f] & Hkk & Hin). cbn in Hkk. subst k'.
      destruct (Hpick k f Hin) as (r' & Hr & Hcase). rewrite (HgetD k f r' Hin Hr) in Hi.
      destruct Hcase as [(Hd & _)|[(Hd & _ & ->)|(Hd & x & u & _ & Hu & _)]]; rewrite Hd in Hi; try discriminate;
        injection Hi as <-; eauto. exists VNotPresent. reflexivity. }
    exists (S N), (VDict u). split; [|split].
    + assert (Heq : recursive_to_dicts E (S N) (VStruct cid vals)
               = do d <- to_dict E N cid vals false; Ok (VDict d)) by reflexivity.
      rewrite Heq, HD, Hu. reflexivity.
    + pose proof (dicts_of_keys _ _ _ _ Hu) as Hkeys.
      assert (Hnone : forall k, ~ In k (map fst (k_comps (cls E cid))) -> dget m k = None /\ dget u k = None).
      { intros k Hk. split; apply dget_none; intros Hi; apply Hk; auto. rewrite Hkeys in Hi. auto. }
      assert (Hone : forall k f, In (k, f) (k_comps (cls E cid)) ->
                (dget m k = None /\ dget u k = None)
                \/ exists x y, dget m k = Some x /\ dget u k = Some y /\ same_data x y).
      { intros k f Hin. destruct (Hpick k f Hin) as (r & Hr & Hcase). pose proof (HgetD k f r Hin Hr) as Hg.
        pose proof (dicts_of_get _ _ _ _ Hu k) as Hgu. rewrite Hg in Hgu.
        destruct Hcase as [(Hd & Hx)|[(Hd & Hx & ->)|(Hd & x & y & Hx & Hy & Hs & _)]]; rewrite Hd in Hgu.
        - left. auto.
        - destruct Hgu as (y & Hy & Hgu). cbn in Hy. injection Hy as <-. right. repeat esplit; eauto. constructor.
        - destruct Hgu as (y' & Hy' & Hgu). right. exists x, y'. split; auto. split; auto. congruence. }
      apply data_dict.
      * intros k. destruct (in_dec String.string_dec k (map fst (k_comps (cls E cid)))) as [Hk|Hk].
        -- apply in_map_iff in Hk. destruct Hk as ([k' f] & Hkk & Hin). cbn in Hkk. subst k'.
           destruct (Hone k f Hin) as [[-> ->]|(x & y & -> & -> & _)]; split; congruence.
        -- destruct (Hnone k Hk) as [-> ->]. tauto.
      * intros k x y Hx Hy. destruct (in_dec String.string_dec k (map fst (k_comps (cls E cid)))) as [Hk|Hk].
        -- apply in_map_iff in Hk. destruct Hk as ([k' f] & Hkk & Hin). cbn in Hkk. subst k'.
           destruct (Hone k f Hin) as [[H _]|(x' & y' & Hx' & Hy' & Hs)]; congruence.
        -- destruct (Hnone k Hk) as [H _]. congruence.
    + pose proof (dicts_of_keys _ _ _ _ Hu) as Hkeys. apply unique_dict; [rewrite Hkeys; auto|].
      intros k y Hi. assert (Hnd : NoDup (dkeys u)) by (rewrite Hkeys; auto). apply in_dget in Hi; auto.
      assert (Hin : In k (dkeys D)) by (rewrite <- Hkeys; apply dget_in; eauto). apply HinclD in Hin.
      apply in_map_iff in Hin. destruct Hin as ([k' f] & Hkk & Hin). cbn in Hkk. subst k'.
      destruct (Hpick k f Hin) as (r & Hr & Hcase). pose proof (HgetD k f r Hin Hr) as Hg.
      pose proof (dicts_of_get _ _ _ _ Hu k) as Hgu. rewrite Hg in Hgu.
      destruct Hcase as [(Hd & Hx)|[(Hd & Hx & ->)|(Hd & x & y' & Hx & Hy & Hs & Hq)]]; rewrite Hd in Hgu.
      * congruence.
      * destruct Hgu as (z & Hz & Hgu). cbn in Hz. injection Hz as <-. rewrite Hi in Hgu. injection Hgu as ->. apply unique_absent.
      * destruct Hgu as (z & Hz & Hgu). congruence.
Qed.

(** ** Fields *)
Lemma sized_write_same g c k bs out : match k with KString _ _ | KStringZ _ _ => False | _ => True end ->
  sized_write g c k bs = (out, Ok tt) -> out = bs.
Proof.
  intros Hk H. unfold sized_write in H.
  destruct (match c_size c with SInt n => Ok n | SNone => Ok (zlen bs) | SRef _ => g end) as [x| |];
    [rewrite dbind_ok in H|discriminate|discriminate].
  destruct (0 <? zlen bs - x); [discriminate|].
  destruct (zlen bs - x <? 0).
  - destruct k; try contradiction; discriminate.
  - injection H as <-. auto.
Qed.

Scheme suits_mind := Induction for suits Sort Prop
  with holds_mind := Induction for holds Sort Prop
  with holds_struct_mind := Induction for holds_struct Sort Prop.
Combined Scheme suits_all from suits_mind, holds_mind, holds_struct_mind.

Definition plain_value (v : value) : Prop :=
  is_undefined v = false /\ is_not_present v = false /\ v <> VDefault.

Lemma holds_data E known last d f v : holds E known last d f v -> is_data v = true /\ plain_value v.
Proof.
  intros H. induction H; try (split; [reflexivity|]; repeat split; discriminate); auto.
  destruct H0; (split; [reflexivity|]; repeat split; discriminate).
Qed.

Lemma suits_plain E known last d f v : suits E known last d f v ->
  plain_value v /\ shown known d (conf f) true.
Proof.
  intros []; split; auto; [repeat split; discriminate|]. eapply holds_data; eauto.
Qed.

Lemma suits_free E :
  (forall known last d f v, suits E known last d f v -> struct_free v)
  /\ (forall known last d f v, holds E known last d f v -> struct_free v)
  /\ (forall last cid m, holds_struct E last cid m -> struct_free (VDict m)).
Proof.
  apply suits_all; intros; auto.
  - constructor. exact I.
  - destruct l; constructor; exact I.
  - apply free_list. apply Forall_forall. auto.
  - apply free_list. apply Forall_forall. auto.
  - apply free_list. apply Forall_forall. auto.
  - apply free_dict. apply Forall_forall. intros [k v] Hi. cbn [snd].
    destruct f as [Hnd Hk]. pose proof (in_dget _ _ _ Hnd Hi) as Hg.
    assert (Hin : In k (dkeys m)) by (apply dget_in; eauto). apply Hk in Hin. destruct Hin as (f & Hin & _).
    apply in_split in Hin. destruct Hin as (pre & post & Hin).
    destruct v; try (eapply H; eauto; discriminate). constructor. exact I.
Qed.

(** The round trip of one field holding [v]. *)
Definition field_rt (E : env) (known : list string) (last : bool) (d : dict) (f : field) (v : value)
  : Prop :=
  forall n ctx bs, field_to_stream E n f v ctx d = (bs, Ok tt) ->
  exists v', loaded_as E v v' /\ accepts (conf f) v'
    /\ forall ctx' dl, agree known d dl -> oget dl (c_name (conf f)) = None ->
       forall pre suf, (last = true -> suf = []) ->
       loads_to E f ctx' dl (at_data pre bs suf) (after_data pre bs suf) v'.

(** The same for the class-specific part. *)
Definition body_rt (E : env) (known : list string) (last : bool) (d : dict) (f : field) (v : value)
  : Prop :=
  forall n ctx bs, field_to_stream E n f v ctx d = (bs, Ok tt) ->
  exists v', loaded_as E v v' /\ (is_leaf (kind f) -> v' = v)
    /\ forall ctx' dl, agree known d dl -> oget dl (c_name (conf f)) = None ->
       forall pre suf, (last = true -> suf = []) ->
       exists N, forall n', (N <= n')%nat ->
         do_load E n' f ctx' dl (at_data pre bs suf) = (after_data pre bs suf, Ok v').

(** The same for a whole struct. *)
Definition struct_rt (E : env) (last : bool) (cid : nat) (m : dict) : Prop :=
  forall n ctx parts, Forall2 (field_part E n ctx m) (k_comps (cls E cid)) parts ->
  exists vals, loaded_as E (VDict m) (VStruct cid vals) /\ instance_of E cid vals
    /\ forall ctx' pre suf, (last = true -> suf = []) -> exists N, forall n', (N <= n')%nat ->
         struct_from_stream E n' cid ctx' [] (at_data pre (concat parts) suf)
         = (after_data pre (concat parts) suf, Ok vals).

Lemma at_app pre a b suf : at_data pre (a ++ b) suf = at_data pre a (b ++ suf).
Proof. unfold at_data. rewrite <- !app_assoc. reflexivity. Qed.
Lemma after_at pre a b suf : after_data pre a (b ++ suf) = at_data (pre ++ a) b suf.
Proof. unfold at_data, after_data. rewrite app_length, <- app_assoc. reflexivity. Qed.
Lemma after_app pre a b suf : after_data (pre ++ a) b suf = after_data pre (a ++ b) suf.
Proof. unfold after_data. rewrite !app_length, <- !app_assoc. f_equal. lia. Qed.
Lemma after_nil pre suf : after_data pre [] suf = at_data pre [] suf.
Proof. unfold after_data, at_data. cbn. rewrite Nat.add_0_r. reflexivity. Qed.

Lemma is_leaf_kind k : is_leaf k <-> leaf_kind k = true.
Proof. destruct k; cbn; intuition discriminate. Qed.

(** [None]. *)
Lemma null_rt E known last d c k nb : shown known d c true -> incl (size_refs (c_size c)) known ->
  null_bytes E c k d nb -> field_rt E known last d (Field c k) VNone.
Proof.
  intros Hsh Hi Hn n ctx bs Hd.
  assert (Ha : accepts c VNone) by (apply (dump_accepts E n (Field c k) VNone ctx d bs); auto; discriminate).
  pose proof (null_bytes_repr E known c k d d nb Hn (agree_refl _ _) Hi n) as Hr.
  assert (Hbs : bs = nb).
  { unfold field_to_stream, field_to_stream_with, to_stream_with in Hd. cbn [is_default] in Hd.
    rewrite dbind_ok in Hd. cbn [is_undefined is_default is_none orb conf] in Hd.
    rewrite (accepts_run _ _ Ha), dbind_ok, Hr, dbind_ok in Hd. injection Hd as <-. reflexivity. }
  subst bs. exists VNone. split; [constructor; exact I|]. split; [exact Ha|].
  intros ctx' dl Hag Ho pre suf _. exists O. apply null_loads.
  - intros s. eapply shown_run; eauto.
  - eapply null_bytes_repr; eauto.
  - cbn [conf]. destruct Hn as [nb H|m [H|H] _|nb Hl _ _]; try (rewrite H; discriminate).
    destruct (suits_leaf_kind _ _ _ _ Hl) as [_ Hdata]. intros Hc. rewrite Hc in Hdata. discriminate.
  - exact Ha.
Qed.

Lemma unlike_eq E v v' nv : loaded_as E v v' -> is_data v = true -> unlike v nv ->
  forall n, (0 < n)%nat -> py_eq E n v' nv = Ok false.
Proof.
  intros Hl Hd (Hnd & Hu) n Hn. destruct n as [|n]; [lia|].
  destruct Hl as [v Hv|l m _|cid m vals]; [| |destruct (Hnd m); reflexivity].
  - destruct Hu as [->|[->|[(b & -> & Hne)|(_ & Hc1 & Hc2 & Hs & Hne)]]].
    + destruct v; try discriminate Hd; try destruct Hv; reflexivity.
    + destruct v; try discriminate Hd; try destruct Hv; reflexivity.
    + destruct v; try discriminate Hd; try destruct Hv; try reflexivity.
      cbn [py_eq]. destruct (bytes_eqb bs b) eqn:Hb; auto. apply bytes_eqb_eq in Hb. congruence.
    + destruct (py_eq_total E (S n) v nv) as [r Hr].
      * constructor. destruct v; try destruct Hv; exact I.
      * constructor. destruct nv; try destruct Hs; exact I.
      * destruct v; try destruct Hv; cbn; lia.
      * rewrite Hr. f_equal. pose proof (py_eq_same E (S n) v nv r Hc1 Hc2 Hr) as Hiff.
        destruct r; auto. destruct Hne. apply Hiff. reflexivity.
  - destruct Hu as [->|[->|[(b & -> & Hne)|(Hs & _)]]]; try reflexivity. destruct Hs.
Qed.

Lemma holds_leaf_inv E known last d c k v : holds E known last d (Field c k) v -> is_leaf k ->
  leaf_suits c d k v.
Proof. intros H Hk. inversion H; subst; auto; destruct Hk. Qed.

Lemma value_rt E known last d c k v : shown known d c true -> incl (size_refs (c_size c)) known ->
  not_null E (Field c k) d v -> c_const c = VUndefined \/ is_leaf k /\ c_const c = v ->
  is_leaf k \/ c_validators c = [] -> holds E known last d (Field c k) v ->
  body_rt E known last d (Field c k) v -> field_rt E known last d (Field c k) v.
Proof.
  intros Hsh Hi Hnn Hcon Hval Hh Hb n ctx bs Hd.
  destruct (holds_data _ _ _ _ _ _ Hh) as (Hdata & _ & _ & Hdef).
  destruct (Hb n ctx bs Hd) as (v' & Hl & Hleaf & Hgo). cbn [kind conf] in *.
  assert (Ha : accepts c v').
  { destruct Hval as [Hk|Hval]; [|unfold accepts; rewrite Hval; constructor].
    rewrite Hleaf by auto. apply (dump_accepts E n (Field c k) v ctx d bs); auto. }
  exists v'. split; auto. split; auto. intros ctx' dl Hag Ho pre suf Hsuf.
  destruct (Hgo ctx' dl Hag Ho pre suf Hsuf) as [N HN]. exists (S N). apply present_loads.
  - eapply shown_run; eauto.
  - destruct Hnn as [Hn|(Hu & nb & Hnb & Hclash)]; [left; auto|right]. split.
    + exists nb. split; [eapply null_bytes_repr; eauto|]. intros suf'. rewrite rest_at.
      apply clash_prefix. eauto.
    + eapply unlike_eq; eauto. lia.
  - destruct Hcon as [Hc|[Hk Hc]]; [left; auto|right]. cbn [conf]. rewrite Hc, (Hleaf Hk).
    destruct (suits_comparable _ _ _ _ (holds_leaf_inv _ _ _ _ _ _ _ Hh Hk)) as (Hcmp & Hns & Hdep).
    destruct (py_eq_total E (S N) v v Hns Hns ltac:(lia)) as [r Hr]. rewrite Hr. f_equal.
    apply (py_eq_same E (S N) v v r); auto. apply same_refl. auto.
  - exact Ha.
  - apply HN. lia.
Qed.

Lemma leaf_body_rt E known last d c k v : incl (size_refs (c_size c)) known -> leaf_suits c d k v ->
  body_rt E known last d (Field c k) v.
Proof.
  intros Hi Hl n ctx bs Hd. exists v. split; [apply la_scalar; eapply leaf_scalar; eauto|].
  split; [auto|]. intros ctx' dl Hag Ho pre suf _. exists O. intros n' _.
  eapply leaf_rt; eauto. eapply leaf_agree; eauto.
Qed.

Lemma elements_rt E known n comp ctx d l parts :
  (forall x, In x l -> field_rt E known false d comp x) ->
  Forall2 (fun x bs => field_to_stream E n comp x ctx d = (bs, Ok tt)) l parts ->
  exists vs, Forall2 (loaded_as E) l vs
    /\ forall ctx' dl, agree known d dl -> oget dl (c_name (conf comp)) = None ->
       forall pre suf, elements E comp ctx' dl vs (at_data pre (concat parts) suf)
                                (after_data pre (concat parts) suf).
Proof.
  intros Hrt H. induction H as [|x bs l parts Hx _ IH].
  - exists []. split; [constructor|]. intros. cbn [concat]. rewrite after_nil. constructor.
  - destruct (Hrt x (or_introl eq_refl) n ctx bs Hx) as (v' & Hl & _ & Hld).
    destruct IH as (vs & Hvs & Hel). { intros y Hy. apply Hrt. right; auto. }
    exists (v' :: vs). split; [constructor; auto|]. intros ctx' dl Hag Hf pre suf.
    cbn [concat]. rewrite at_app, <- after_app.
    eapply elements_take.
    + apply Hld; auto. discriminate.
    + destruct (loaded_data _ _ _ Hl) as (_ & Hn). intros ->. discriminate.
    + rewrite after_at. apply Hel; auto.
Qed.

Lemma rest_rt E known n comp ctx d l parts :
  (forall x, In x l -> field_rt E known false d comp x) ->
  (forall x n ctx, In x l -> field_to_stream E n comp x ctx d <> ([], Ok tt)) ->
  Forall2 (fun x bs => field_to_stream E n comp x ctx d = (bs, Ok tt)) l parts ->
  exists vs, Forall2 (loaded_as E) l vs
    /\ forall ctx' dl, agree known d dl -> oget dl (c_name (conf comp)) = None ->
       forall pre, elements_to_end E comp ctx' dl vs (at_data pre (concat parts) [])
                                (after_data pre (concat parts) []).
Proof.
  intros Hrt Hne H. induction H as [|x bs l parts Hx _ IH].
  - exists []. split; [constructor|]. intros. cbn [concat]. rewrite after_nil. constructor.
    rewrite rest_at. reflexivity.
  - destruct (Hrt x (or_introl eq_refl) n ctx bs Hx) as (v' & Hl & _ & Hld).
    destruct IH as (vs & Hvs & Hel).
    { intros y Hy. apply Hrt. right; auto. }
    { intros y n' ctx' Hy. apply Hne. right; auto. }
    exists (v' :: vs). split; [constructor; auto|]. intros ctx' dl Hag Hf pre.
    cbn [concat]. rewrite at_app, <- after_app.
    eapply to_end_take.
    + rewrite rest_at. specialize (Hne x n ctx (or_introl eq_refl)). destruct bs; [congruence|discriminate].
    + apply Hld; auto. discriminate.
    + destruct (loaded_data _ _ _ Hl) as (_ & Hn). intros ->. discriminate.
    + rewrite after_at. apply Hel; auto.
Qed.

Lemma array_fuel E n c comp cnt halt l ctx d bs :
  field_to_stream E n (Field c (KArray comp cnt halt)) (VList l) ctx d = (bs, Ok tt) ->
  exists n', n = S n' /\ exists parts, length_ok cnt d (zlen l)
    /\ Forall2 (fun x bs => field_to_stream E n' comp x ctx d = (bs, Ok tt)) l parts /\ bs = concat parts.
Proof.
  intros Hd. destruct n as [|n].
  - exfalso. assert (Ha : accepts c (VList l)).
    { apply (dump_accepts E O (Field c (KArray comp cnt halt)) (VList l) ctx d bs); auto. discriminate. }
    unfold field_to_stream, field_to_stream_with in Hd. rewrite to_stream_data in Hd; auto. discriminate.
  - exists n. split; auto. apply array_field_dump in Hd; [|exists l; auto]. destruct Hd as (_ & _ & Hd).
    apply array_dump_list in Hd. destruct Hd as (Hlen & parts & Hparts & ->). eauto.
Qed.

Lemma array_body_rt E known last d c comp cnt l : incl (count_refs cnt) known ->
  c_name (conf comp) = None \/ c_name (conf comp) = c_name c ->
  counted cnt d (zlen l) -> (forall x, In x l -> field_rt E known false d comp x) ->
  body_rt E known last d (Field c (KArray comp cnt None)) (VList l).
Proof.
  intros Hi Hnm Hcnt Hsu n ctx bs Hd.
  apply array_fuel in Hd. destruct Hd as (n' & -> & parts & _ & Hparts & ->).
  destruct (elements_rt E known n' comp ctx d l parts Hsu Hparts) as (vs & Hvs & Hel).
  exists (VList vs). split; [constructor; auto|]. split; [intros []|].
  intros ctx' dl Hag Ho pre suf _. cbn [conf] in Ho.
  assert (Hcd : counted cnt dl (zlen l)).
  { destruct Hcnt as [->|(r & -> & Hr)]; [left; auto|right]. exists r. split; auto.
    apply Hag; auto; [|exact I]. apply Hi. left. reflexivity. }
  assert (Hel' : elements E comp ctx' dl vs (at_data pre (concat parts) suf) (after_data pre (concat parts) suf)).
  { apply Hel; auto. destruct Hnm as [Hnm|Hnm]; rewrite Hnm; auto. }
  destruct (array_load_counted_complete E comp cnt (c_name c) ctx' dl (zlen l) vs _ _ Hcd Hel') as [k Hk].
  exists (S k). intros [|n2] Hn2; [lia|]. cbn [do_load kind].
  change (field_from_stream_with E (do_load E n2) n2 comp ctx' dl) with (field_from_stream E n2 comp ctx' dl).
  change (name_of (Field c (KArray comp cnt None))) with (c_name c).
  apply (Hk n2 n2 []); try lia.
  assert (Hlen : length vs = length l) by (symmetry; apply (forall2_length _ _ _ Hvs)).
  destruct vs; unfold zlen in *; cbn [length] in *; lia.
Qed.

Lemma rest_body_rt E known d c comp l :
  c_name (conf comp) = None \/ c_name (conf comp) = c_name c ->
  (forall x, In x l -> field_rt E known false d comp x) ->
  (forall x n ctx, In x l -> field_to_stream E n comp x ctx d <> ([], Ok tt)) ->
  body_rt E known true d (Field c (KArray comp CntNone None)) (VList l).
Proof.
  intros Hnm Hsu Hne n ctx bs Hd.
  apply array_fuel in Hd. destruct Hd as (n' & -> & parts & _ & Hparts & ->).
  destruct (rest_rt E known n' comp ctx d l parts Hsu Hne Hparts) as (vs & Hvs & Hel).
  exists (VList vs). split; [constructor; auto|]. split; [intros []|].
  intros ctx' dl Hag Ho pre suf Hsuf. rewrite (Hsuf eq_refl). cbn [conf] in Ho.
  assert (Hel' : elements_to_end E comp ctx' dl vs (at_data pre (concat parts) []) (after_data pre (concat parts) [])).
  { apply Hel; auto. destruct Hnm as [Hnm|Hnm]; rewrite Hnm; auto. }
  destruct (array_load_end_complete E comp (c_name c) ctx' dl vs _ _ Hel') as [k Hk].
  exists (S k). intros [|n2] Hn2; [lia|]. cbn [do_load kind].
  change (field_from_stream_with E (do_load E n2) n2 comp ctx' dl) with (field_from_stream E n2 comp ctx' dl).
  change (name_of (Field c (KArray comp CntNone None))) with (c_name c).
  apply (Hk n2 n2 []); lia.
Qed.

Lemma scalar_loaded E x y : scalar x -> loaded_as E x y -> y = x.
Proof. intros Hs H. destruct H; auto; destruct Hs. Qed.

Lemma sentinel_body_rt E known last d c comp cnt stop vs w :
  c_name (conf comp) = None \/ c_name (conf comp) = c_name c ->
  (forall x, In x (vs ++ [w]) -> field_rt E known false d comp x) ->
  Forall (fun x => scalar x /\ stop x = false) vs -> scalar w -> stop w = true ->
  body_rt E known last d (Field c (KArray comp cnt (Some (sentinel_kept stop)))) (VList (vs ++ [w])).
Proof.
  intros Hnm Hsu Hvs Hw Hst n ctx bs Hd.
  apply array_fuel in Hd. destruct Hd as (n' & -> & parts & _ & Hparts & ->).
  assert (Hrd : forall l parts, (forall x, In x l -> field_rt E known false d comp x) -> Forall scalar l ->
    Forall2 (fun x bs => field_to_stream E n' comp x ctx d = (bs, Ok tt)) l parts ->
    forall ctx' dl, agree known d dl -> oget dl (c_name (conf comp)) = None ->
    forall pre suf, read_all E comp ctx' dl l (at_data pre (concat parts) suf) (after_data pre (concat parts) suf)).
  { clear. intros l parts Hrt Hsc H. induction H as [|x bs l parts Hx _ IH].
    - intros. cbn [concat]. rewrite after_nil. constructor.
    - destruct (Hrt x (or_introl eq_refl) n' ctx bs Hx) as (v' & Hl & _ & Hld).
      inversion Hsc as [|? ? H1 H2]; subst. apply scalar_loaded in Hl; auto. subst v'.
      intros ctx' dl Hag Hf pre suf. cbn [concat]. rewrite at_app, <- after_app.
      eapply read_one.
      + apply Hld; auto. discriminate.
      + intros ->. destruct H1.
      + rewrite after_at. apply IH; auto. intros y Hy. apply Hrt. right. auto. }
  apply Forall2_app_inv_l in Hparts. destruct Hparts as (p1 & p2 & Hp1 & Hp2 & ->).
  inversion Hp2 as [|? b2 ? ? Hb2 Hnil]; subst. inversion Hnil; subst.
  assert (Hsc : Forall scalar vs) by (eapply Forall_impl; [|exact Hvs]; intros x [Hx _]; exact Hx).
  exists (VList (vs ++ [w])). split; [|split; [intros []|]].
  { apply la_list. assert (Ha : Forall scalar (vs ++ [w])) by (apply Forall_app; auto).
    revert Ha. generalize (vs ++ [w]). clear. induction 1; constructor; auto. apply la_scalar. auto. }
  intros ctx' dl Hag Ho pre suf _. cbn [conf] in Ho.
  assert (Ho' : oget dl (c_name (conf comp)) = None) by (destruct Hnm as [Hnm|Hnm]; rewrite Hnm; auto).
  rewrite concat_app. cbn [concat]. rewrite app_nil_r, at_app, <- after_app.
  assert (H1 : read_all E comp ctx' dl vs (at_data pre (concat p1) (b2 ++ suf)) (after_data pre (concat p1) (b2 ++ suf))).
  { apply Hrd; auto. intros x Hx. apply Hsu. apply in_or_app. auto. }
  assert (H2 : loads_to E comp ctx' dl (after_data pre (concat p1) (b2 ++ suf)) (after_data (pre ++ concat p1) b2 suf) w).
  { assert (Hin : In w (vs ++ [w])) by (apply in_or_app; right; left; auto).
    destruct (Hsu w Hin n' ctx b2 Hb2) as (v' & Hl & _ & Hld).
    apply scalar_loaded in Hl; auto. subst v'. rewrite after_at. apply Hld; auto. discriminate. }
  assert (Hh : halted E comp (sentinel_kept stop) ctx' dl [] (at_data pre (concat p1) (b2 ++ suf))
                 (after_data (pre ++ concat p1) b2 suf) (vs ++ [w])).
  { apply (sentinel_loop E comp (sentinel_kept stop) (fun l => l) stop) with (done := [])
      (s1 := after_data pre (concat p1) (b2 ++ suf)); auto.
    - intros s0 l ctx0 d0. unfold sentinel_kept. destruct (ends_with stop l); auto.
    - eapply Forall_impl; [|exact Hvs]. intros x [_ Hx]. exact Hx.
    - intros ->. destruct Hw. }
  destruct (halt_complete E comp (sentinel_kept stop) ctx' dl cnt (c_name c) _ _ _ _ Hh) as [k Hk].
  exists (S k). intros [|n2] Hn2; [lia|]. cbn [do_load kind].
  change (field_from_stream_with E (do_load E n2) n2 comp ctx' dl) with (field_from_stream E n2 comp ctx' dl).
  change (name_of (Field c (KArray comp cnt (Some (sentinel_kept stop))))) with (c_name c).
  apply Hk; lia.
Qed.

Lemma loads_mono E n m fs ctx d s d' s' : (n <= m)%nat -> loads E n ctx fs d s d' s' ->
  loads E m ctx fs d s d' s'.
Proof.
  intros Hnm H. induction H as [|name f fs d s v s1 d' s' Hv _ IH]; [constructor|].
  econstructor; eauto. eapply loads_to_mono; eauto.
Qed.

(** ** Components *)

(** What is read for a component, compared with the dumped values. *)
Definition result (E : env) (d : dict) (name : string) (f : field) (y : value) : Prop :=
  (c_discard (conf f) = true /\ dget d name = None /\ unconditional (conf f) /\ c_factory (conf f) = None
   /\ is_undefined (c_default (conf f)) = false /\ is_not_present (c_default (conf f)) = false)
  \/ (c_discard (conf f) = false /\ dget d name = Some VNotPresent
      /\ (exists known, shown known d (conf f) false) /\ is_undefined y = false)
  \/ (c_discard (conf f) = false /\ (exists known, shown known d (conf f) true)
      /\ exists x, dget d name = Some x /\ x <> VNotPresent /\ loaded_as E x y).

Definition comp_rt (E : env) (known : list string) (last : bool) (d : dict) (name : string) (f : field)
  : Prop :=
  forall n ctx bs, field_part E n ctx d (name, f) bs ->
  exists y, result E d name f y /\ accepts (conf f) y
    /\ forall ctx' dl, agree known d dl -> dget dl name = None ->
       forall pre suf, (last = true -> suf = []) ->
       loads_to E f ctx' dl (at_data pre bs suf) (after_data pre bs suf) y.

Lemma discard_comp E known last d name f : c_name (conf f) = Some name -> c_discard (conf f) = true ->
  dget d name = None -> fixed known d f -> comp_rt E known last d name f.
Proof.
  intros Hn Hdis Hd (Hun & Hnull & Hfac & Hdef & Hi & Hl) n ctx bs (v & Hv & Hcase). cbn [snd] in *.
  destruct f as [c k]. cbn [conf kind] in *.
  destruct (suits_leaf_kind _ _ _ _ Hl) as [Hk _].
  assert (Hh : holds E known last d (Field c k) (c_const c)) by (apply holds_leaf; auto).
  destruct (holds_data _ _ _ _ _ _ Hh) as (Hdata & Hu & Hnp & _).
  assert (Hvc : v = c_const c).
  { rewrite (value_default c ctx d (c_const c)) in Hv; try congruence.
    - rewrite Hn. exact Hd.
    - rewrite Hdef. intros H. rewrite H in Hdata. discriminate.
    - unfold default_of. rewrite Hfac. congruence.
    - intros H. rewrite H in Hu. discriminate.
    - intros H. rewrite H in Hnp. discriminate.
    - apply Hun. }
  subst v. destruct Hcase as [[H _]|[_ Hts]]; [rewrite H in Hnp; discriminate|].
  assert (Hlk : is_leaf k) by (apply is_leaf_kind; auto).
  assert (Hrt : field_rt E known last d (Field c k) (c_const c)).
  { apply value_rt; auto.
    - left. auto.
    - left. auto.
    - apply leaf_body_rt; auto. }
  destruct (Hrt n ctx bs Hts) as (y & Hy & Ha & Hgo). exists y. split; [|split; auto].
  - left. cbn [conf]. repeat split; auto; rewrite Hdef; auto.
  - intros ctx' dl Hag Ho. apply Hgo; auto. cbn [conf]. rewrite Hn. exact Ho.
Qed.

Lemma absent_comp E known last d name f : c_name (conf f) = Some name -> c_discard (conf f) = false ->
  dget d name = Some VNotPresent -> left_out known d f -> comp_rt E known last d name f.
Proof.
  intros Hn Hdis Hd (Hsh & Hu & Ha) n ctx bs (v & Hv & Hcase). cbn [snd] in *.
  assert (Hvn : v = VNotPresent).
  { rewrite compute_run, (stored_explicit _ _ _ _ Hn Hd) in Hv. cbn [is_not_present] in Hv. congruence. }
  destruct Hcase as [[_ ->]|[H _]]; [|contradiction].
  exists (c_npv (conf f)). split; [|split; auto].
  - right; left. repeat split; auto. eauto.
  - intros ctx' dl Hag _ pre suf _. rewrite after_nil. exists O. apply absent_loads.
    eapply shown_run; eauto.
Qed.

Lemma present_comp E known last d name f x : c_name (conf f) = Some name -> c_discard (conf f) = false ->
  dget d name = Some x -> plain_value x -> shown known d (conf f) true -> field_rt E known last d f x ->
  comp_rt E known last d name f.
Proof.
  intros Hn Hdis Hd (Hu & Hnp & _) Hsh Hrt n ctx bs (v & Hv & Hcase). cbn [snd] in *.
  assert (Hvx : v = x).
  { rewrite (value_explicit _ _ _ name x) in Hv; try congruence; try (intros ->; discriminate).
    eapply shown_run; eauto using agree_refl. }
  subst v. destruct Hcase as [[-> _]|[Hne Hts]]; [discriminate|].
  destruct (Hrt n ctx bs Hts) as (y & Hy & Ha & Hgo). exists y. split; [|split; auto].
  - right; right. split; auto. split; eauto.
  - intros ctx' dl Hag Ho. apply Hgo; auto. rewrite Hn. exact Ho.
Qed.

Lemma at_end_app last post : at_end last post = true -> post = [] /\ last = true.
Proof. destruct post; cbn; auto; discriminate. Qed.

(** The components of a struct, after those in [done] have been read into [dl]. *)
Lemma comps_rt E n ctx d last fs : forall done dl parts,
  NoDup (map fst (done ++ fs)) ->
  (forall pre name f post, fs = pre ++ (name, f) :: post ->
     comp_rt E (map fst (done ++ pre)) (at_end last post) d name f) ->
  dkeys dl = map fst done -> agree (map fst done) d dl ->
  Forall2 (field_part E n ctx d) fs parts ->
  exists new, map fst new = map fst fs
    /\ (forall name f y, In (name, f) fs -> dget (dl ++ new) name = Some y ->
          result E d name f y /\ accepts (conf f) y)
    /\ forall ctx' pre suf, (last = true -> suf = []) ->
       exists N, loads E N ctx' fs dl (at_data pre (concat parts) suf)
                       (dl ++ new) (after_data pre (concat parts) suf).
Proof.
  induction fs as [|[name f] fs IH]; intros done dl parts Hnd Hrt Hkeys Hag Hparts.
  - inversion Hparts; subst. exists []. rewrite app_nil_r. split; auto.
    split; [intros ? ? ? []|]. intros. exists O. cbn [concat]. rewrite after_nil. constructor.
  - inversion Hparts as [|? bs ? parts' Hp Hparts']; subst.
    pose proof (Hrt [] name f fs eq_refl) as Hc. rewrite app_nil_r in Hc.
    assert (Hnotin : ~ In name (dkeys dl)).
    { rewrite Hkeys. rewrite map_app in Hnd. cbn [map fst] in Hnd.
      apply NoDup_remove_2 in Hnd. intros Hi. apply Hnd. apply in_or_app. auto. }
    apply dget_none in Hnotin.
    destruct (Hc n ctx bs Hp) as (y & Hres & Hacc & Hload).
    destruct (IH (done ++ [(name, f)]) (dl ++ [(name, y)]) parts') as (new & Hk & Ha & Hgo); auto.
    + rewrite <- app_assoc. exact Hnd.
    + intros pre nm g post Heq. rewrite <- app_assoc. apply (Hrt ((name, f) :: pre) nm g post).
      rewrite Heq. reflexivity.
    + unfold dkeys in *. rewrite !map_app, Hkeys. reflexivity.
    + intros r v Hr Hv Hs. rewrite dget_app. rewrite map_app in Hr. apply in_app_or in Hr.
      destruct Hr as [Hr|[Hr|[]]]; [rewrite (Hag r v) by auto; reflexivity|].
      cbn [fst] in Hr. subst r. rewrite Hnotin. cbn [dget]. rewrite String.eqb_refl.
      destruct Hres as [(_ & H & _)|[(_ & H & _)|(_ & _ & x & H & _ & Hla)]]; rewrite Hv in H; try discriminate.
      * injection H as ->. destruct Hs.
      * injection H as <-. f_equal. eapply loaded_scalar; eauto.
    + exists ((name, y) :: new).
      assert (Heq : dl ++ (name, y) :: new = (dl ++ [(name, y)]) ++ new) by (rewrite <- app_assoc; reflexivity).
      rewrite Heq. split; [cbn [map fst]; congruence|]. split.
      * intros nm g z [Hi|Hi] Hz; [|eauto]. injection Hi as -> ->.
        rewrite !dget_app, Hnotin in Hz. cbn [dget] in Hz. rewrite String.eqb_refl in Hz.
        injection Hz as <-. auto.
      * intros ctx' pre suf Hsuf. destruct (Hgo ctx' (pre ++ bs) suf Hsuf) as [N1 HN1].
        destruct (Hload ctx' dl Hag Hnotin pre (concat parts' ++ suf)) as [N2 HN2].
        { intros He. apply at_end_app in He. destruct He as [-> ->]. inversion Hparts'; subst.
          cbn. auto. }
        exists (Nat.max N1 N2). cbn [concat]. rewrite at_app, <- after_app.
        eapply loads_cons.
        -- eapply loads_to_mono; [|exact HN2]. lia.
        -- rewrite after_at. unfold dmem. rewrite Hnotin. eapply loads_mono; [|exact HN1]. lia.
Qed.

Lemma filled_instance E cid m : straight_class (cls E cid) -> filled (cls E cid) m -> instance_of E cid m.
Proof.
  intros (Hwf & _) (Hnd & Hk). split; auto. split; auto. intros k Hi. apply Hk in Hi.
  destruct Hi as (f & Hi & _). apply in_map_iff. exists (k, f). auto.
Qed.

(** The components of a class, from their round trips. *)
Lemma class_rt E last cid d : straight_class (cls E cid) -> filled (cls E cid) d ->
  (forall pre name f post, k_comps (cls E cid) = pre ++ (name, f) :: post ->
     comp_rt E (map fst pre) (at_end last post) d name f) ->
  struct_rt E last cid d.
Proof.
  intros Hc Hf Hrt n ctx parts Hparts. pose proof Hc as (Hwf & Hmeth & Hsv).
  pose proof Hwf as (Hnd & Hnames & Hfv). pose proof (well_formed_bound _ Hwf) as Hb.
  destruct (comps_rt E n ctx d last (k_comps (cls E cid)) [] [] parts) as (all & Hkeys & Hres & Hgo); auto.
  { intros r v []. }
  cbn [app] in *.
  set (vals := filter (fun kv => negb (discarded (k_comps (cls E cid)) (fst kv))) all).
  assert (Hget : forall name f, In (name, f) (k_comps (cls E cid)) -> exists y, dget all name = Some y
     /\ dget vals name = if c_discard (conf f) then None else Some y).
  { intros name f Hi. assert (Hin : In name (dkeys all)).
    { unfold dkeys. rewrite Hkeys. apply in_map_iff. exists (name, f). auto. }
    apply dget_in in Hin. destruct Hin as [y Hy]. exists y. split; auto. subst vals.
    rewrite (dget_filter_key (fun k => negb (discarded (k_comps (cls E cid)) k))), (discarded_iff _ _ _ Hb Hi), Hy.
    destruct (c_discard (conf f)); reflexivity. }
  assert (Hiv : instance_of E cid vals).
  { split; auto. split.
    - apply nodup_filter_keys. unfold dkeys. rewrite Hkeys. exact Hnd.
    - intros k Hk. rewrite <- Hkeys. unfold dkeys in Hk. apply in_map_iff in Hk.
      destruct Hk as (kv & <- & Hk). apply filter_In in Hk. apply in_map. apply Hk. }
  assert (Hla : loaded_as E (VDict d) (VStruct cid vals)).
  { apply la_struct; auto; [apply filled_instance; auto| |].
    - intros name f Hi. destruct (Hget name f Hi) as (y & Hy & Hv).
      destruct (Hres name f y Hi Hy) as [[Hr|[Hr|Hr]] _].
      + left. destruct Hr as (Hd & H). rewrite Hd in Hv. unfold discard_entry. tauto.
      + right; left. destruct Hr as (Hd & H1 & H2 & H3). rewrite Hd in Hv.
        split; auto. split; auto. split; auto. exists y. auto.
      + right; right. destruct Hr as (Hd & H1 & x & H2 & H3 & _). rewrite Hd in Hv.
        split; auto. split; auto. exists x, y. auto.
    - intros k x y Hx Hne Hy. assert (Hin : In k (dkeys vals)) by (apply dget_in; eauto).
      apply Hiv in Hin. apply in_map_iff in Hin. destruct Hin as ([nm f] & Hnn & Hin). cbn in Hnn. subst nm.
      destruct (Hget k f Hin) as (z & Hz & Hv). rewrite Hy in Hv.
      destruct (Hres k f z Hin Hz) as [[Hr|[Hr|Hr]] _].
      + destruct Hr as (_ & H & _). congruence.
      + destruct Hr as (_ & H & _). congruence.
      + destruct Hr as (Hd & _ & x' & Hx' & _ & Hl). rewrite Hd in Hv. congruence. }
  exists vals. split; [exact Hla|]. split; [exact Hiv|].
  intros ctx' pre suf Hsuf. destruct (Hgo ctx' pre suf Hsuf) as [N HN]. exists N. intros n' Hn'.
  apply struct_load_iff; auto; [constructor|]. exists all.
  split; [eapply loads_mono; eauto|]. split; [intros ? []|]. split; [|reflexivity].
  split; [|rewrite Hsv; constructor]. intros name methods Hi. rewrite (Hmeth _ _ Hi).
  assert (Hin : In name (map fst (k_comps (cls E cid)))).
  { apply Hfv. apply in_map_iff. exists (name, methods). auto. }
  apply in_map_iff in Hin. destruct Hin as ([nm f] & Hnn & Hin). cbn in Hnn. subst nm.
  destruct (Hget name f Hin) as (y & Hy & _). exists f, y.
  destruct (bound_assoc _ _ _ Hb Hin) as [Has Hn].
  split; [exact Has|]. split; [exact (struct_get_stored E n' cid all name f y Has Hn Hy)|].
  split; [apply (Hres name f y Hin Hy)|constructor].
Qed.

(** ** Nested structs *)

(** A field of a dictionary used as an instance. *)
Definition kept (m : dict) (name : string) (f : field) : Prop :=
  (c_discard (conf f) = true /\ dget m name = None /\ unconditional (conf f) /\ c_factory (conf f) = None
   /\ is_undefined (c_default (conf f)) = false /\ is_not_present (c_default (conf f)) = false)
  \/ (c_discard (conf f) = false /\ exists known b x, shown known m (conf f) b /\ dget m name = Some x
      /\ is_undefined x = false /\ (b = false -> x = VNotPresent)).

Lemma to_dict_kept E n cid m : straight_class (cls E cid) -> filled (cls E cid) m ->
  (forall name f, In (name, f) (k_comps (cls E cid)) -> kept m name f) ->
  to_dict E n cid m false = dicts_of E n m.
Proof.
  intros Hc Hf Hk. pose proof Hc as (Hwf & _). pose proof (filled_instance _ _ _ Hc Hf) as Hi.
  assert (Hpick : forall name f, In (name, f) (k_comps (cls E cid)) -> exists v,
            run_struct E n cid m (compute_value_for_dump (conf f) VNone) = Ok v
            /\ dget m name = if c_discard (conf f) then None else Some v).
  { intros name f Hin. destruct (Hk name f Hin) as [(Hd & Hg & Hun & Hfac & Hu & Hnp)|(Hd & known & b & x & Hsh & Hg & Hu & Hb)].
    - eexists. split; [eapply discard_pick; eauto|]. rewrite Hd. exact Hg.
    - exists x. rewrite Hd. split; auto. rewrite (stored_pick E n cid known m m name f x b); auto.
      destruct b; auto. rewrite Hb; auto. }
  destruct (to_dict_picks E n cid m Hwf Hi) as (D & HD & HndD & HinclD & HgetD & Hkeys).
  { intros name f Hin. destruct (Hpick name f Hin) as (v & Hv & _). eauto. }
  assert (HDm : D = m).
  { apply dict_ext; auto.
    - apply Hkeys; auto. intros k Hg.
      assert (Hin : In k (map fst (k_comps (cls E cid)))) by (apply Hi, dget_in; eauto).
      apply in_map_iff in Hin. destruct Hin as ([nm f] & Hnm & Hin). cbn in Hnm. subst nm.
      destruct (Hk k f Hin) as [(_ & H & _)|(_ & known & b & x & _ & Hx & Hu & _)]; [congruence|].
      rewrite Hg in Hx. injection Hx as <-. discriminate.
    - intros k Hin. apply HinclD in Hin. apply in_map_iff in Hin. destruct Hin as ([nm f] & Hnm & Hin).
      cbn in Hnm. subst nm. destruct (Hpick k f Hin) as (v & Hv & Hg). rewrite Hg.
      apply (HgetD k f v Hin Hv). }
  subst D. exact HD.
Qed.

Lemma to_dict_self E n cid m all : straight_class (cls E cid) -> filled (cls E cid) m ->
  struct_free (VDict m) -> (forall name f, In (name, f) (k_comps (cls E cid)) -> kept m name f) ->
  to_dict E n cid m false = Ok all -> all = m.
Proof.
  intros Hc Hf Hfree Hk Htd. pose proof (to_dict_kept E n cid m Hc Hf Hk) as HD. rewrite Htd in HD.
  assert (Hr : recursive_to_dicts E (S n) (VDict m) = Ok (VDict all)).
  { assert (Heq : recursive_to_dicts E (S n) (VDict m) = do d' <- dicts_of E n m; Ok (VDict d')) by reflexivity.
    rewrite Heq, <- HD. reflexivity. }
  pose proof (free_identity E _ _ _ Hfree Hr) as H. congruence.
Qed.

Lemma holds_kept E last cid m : holds_struct E last cid m ->
  straight_class (cls E cid) /\ filled (cls E cid) m
  /\ forall name f, In (name, f) (k_comps (cls E cid)) -> kept m name f.
Proof.
  intros H. inversion H as [last' cid' m' Hc Hf Hfix Hout Hs]; subst. split; auto. split; auto.
  pose proof Hc as (Hwf & _). pose proof (well_formed_bound _ Hwf) as Hb.
  intros name f Hin. pose proof (in_split _ _ Hin) as (pre & post & Heq). destruct Hf as [Hnd Hk].
  destruct (c_discard (conf f)) eqn:Hd.
  - left. destruct (Hfix _ _ _ _ Heq Hd) as (Hun & _ & Hfac & Hdef & Hi & Hl).
    assert (Hh : holds E (map fst pre) last m f (c_const (conf f))).
    { destruct f as [c k]. apply holds_leaf; auto. }
    destruct (holds_data _ _ _ _ _ _ Hh) as (_ & Hu & Hnp & _). rewrite Hdef. repeat split; auto.
    apply dget_none. intros Hi'. apply Hk in Hi'. destruct Hi' as (g & Hg & Hgd).
    pose proof (bound_assoc _ _ _ Hb Hin) as [H1 _]. pose proof (bound_assoc _ _ _ Hb Hg) as [H2 _]. congruence.
  - right. split; auto. assert (Hi' : In name (dkeys m)) by (apply Hk; eauto).
    apply dget_in in Hi'. destruct Hi' as [x Hx]. destruct (is_not_present x) eqn:Hnp.
    + destruct x; try discriminate Hnp. destruct (Hout _ _ _ _ Heq Hx) as (Hsh & _).
      exists (map fst pre), false, VNotPresent. auto.
    + assert (Hne : x <> VNotPresent) by (intros ->; discriminate).
      destruct (suits_plain _ _ _ _ _ _ (Hs _ _ _ _ _ Heq Hx Hne)) as ((Hu & _) & Hsh).
      exists (map fst pre), true, x. repeat split; auto. discriminate.
Qed.

Lemma struct_parts E last cid m n ctx bs : holds_struct E last cid m ->
  (ddo vals <- dlift (struct_init E cid m);
   struct_to_stream_with E (do_dump E n) n cid vals ctx) = (bs, Ok tt) ->
  exists parts, Forall2 (field_part E n ctx m) (k_comps (cls E cid)) parts /\ bs = concat parts.
Proof.
  intros Hh Hd. destruct (holds_kept _ _ _ _ Hh) as (Hc & Hf & Hk).
  pose proof (filled_instance _ _ _ Hc Hf) as Hi.
  assert (Hinit : struct_init E cid m = Ok m) by (apply init_ok_iff; split; auto; apply Hi).
  rewrite Hinit, dbind_ok in Hd. fold (struct_to_stream E n cid m ctx) in Hd.
  apply struct_dump_iff in Hd. destruct Hd as (all & parts & _ & Htd & Hparts & ->).
  assert (Hall : all = m).
  { eapply to_dict_self; eauto. eapply (proj2 (proj2 (suits_free E))); eauto. }
  subst all. eauto.
Qed.

Lemma struct_body_load E last cid m n ctx bs : struct_rt E last cid m -> holds_struct E last cid m ->
  (ddo vals <- dlift (struct_init E cid m);
   struct_to_stream_with E (do_dump E n) n cid vals ctx) = (bs, Ok tt) ->
  exists vals, loaded_as E (VDict m) (VStruct cid vals)
    /\ forall ctx' pre suf, (last = true -> suf = []) -> exists N, forall n', (N <= n')%nat ->
         (ldo vals <- struct_from_stream_with E (do_load E n') n' cid ctx' [];
          lret (VStruct cid vals)) (at_data pre bs suf)
         = (after_data pre bs suf, Ok (VStruct cid vals)).
Proof.
  intros Hrt Hh Hd. destruct (struct_parts _ _ _ _ _ _ _ Hh Hd) as (parts & Hparts & ->).
  destruct (Hrt n ctx parts Hparts) as (vals & Hla & _ & Hgo). exists vals. split; auto.
  intros ctx' pre suf Hsuf. destruct (Hgo ctx' pre suf Hsuf) as [N HN]. exists N. intros n' Hn'.
  unfold lbind. fold (struct_from_stream E n' cid ctx' []). rewrite HN by auto. reflexivity.
Qed.

(** Taking the class-specific dump out of [to_stream]. *)
Lemma container_dump E n c k v ctx d bs : ~ is_leaf k -> is_data v = true -> v <> VDefault ->
  field_to_stream E n (Field c k) v ctx d = (bs, Ok tt) -> do_dump E n (Field c k) v ctx d = (bs, Ok tt).
Proof.
  intros Hk Hdata Hdef Hd.
  assert (Ha : accepts c v) by (apply (dump_accepts E n (Field c k) v ctx d bs); auto).
  unfold field_to_stream, field_to_stream_with in Hd. rewrite to_stream_data in Hd; auto.
  destruct (do_dump E n (Field c k) v ctx d) as [out [[]| |]] eqn:Ho; try discriminate.
  apply sized_write_same in Hd; [subst; auto|]. destruct k; try exact I; destruct Hk; exact I.
Qed.

Lemma nested_body_rt E known last d c cid m : holds_struct E last cid m -> struct_rt E last cid m ->
  body_rt E known last d (Field c (KNested cid)) (VDict m).
Proof.
  intros Hh Hrt n ctx bs Hd. apply container_dump in Hd; auto; try discriminate.
  destruct n as [|n]; [discriminate|]. cbn [do_dump kind] in Hd.
  destruct (struct_body_load E last cid m n ctx bs Hrt Hh Hd) as (vals & Hla & Hgo).
  exists (VStruct cid vals). split; auto. split; [intros []|].
  intros ctx' dl _ _ pre suf Hsuf. destruct (Hgo ctx' pre suf Hsuf) as [N HN]. exists (S N).
  intros [|n'] Hn'; [lia|]. cbn [do_load kind]. apply HN. lia.
Qed.

Section UnionRt.
Variables (E : env) (known : list string) (last : bool) (d : dict) (c : fconf) (choices : list choice)
  (ld : stream -> value -> dict -> res nat) (dd : value -> value -> dict -> res nat)
  (name : string) (w : value) (pick : value -> nat).
Hypothesis Hin : In name known.
Hypothesis Hw : dget d name = Some w.
Hypothesis Hs : scalar w.
Hypothesis Hld : forall s ctx d, ld s ctx d = do v <- dget_res d name; Ok (pick v).
Hypothesis Hdd : forall v ctx d, dd v ctx d = do v <- dget_res d name; Ok (pick v).

Lemma union_decide v ctx : dd v ctx d = Ok (pick w).
Proof. rewrite Hdd. unfold dget_res. rewrite Hw. reflexivity. Qed.

Lemma union_decide_load s ctx dl : agree known d dl -> ld s ctx dl = Ok (pick w).
Proof. intros Hag. rewrite Hld. unfold dget_res. rewrite (Hag name w) by auto. reflexivity. Qed.

Lemma union_field_rt g v : nth_error choices (pick w) = Some (CField g) ->
  c_name (conf g) = None \/ c_name (conf g) = c_name c -> holds E known last d g v ->
  body_rt E known last d g v -> body_rt E known last d (Field c (KUnion choices ld dd)) v.
Proof.
  intros Hg Hnm Hh Hb n ctx bs Hd.
  destruct (holds_data _ _ _ _ _ _ Hh) as (Hdata & _ & _ & Hdef).
  apply container_dump in Hd; auto. destruct n as [|n]; [discriminate|]. cbn [do_dump kind] in Hd.
  rewrite union_decide, dbind_ok, Hg in Hd.
  destruct (Hb n ctx bs Hd) as (v' & Hl & _ & Hgo). exists v'. split; auto. split; [intros []|].
  intros ctx' dl Hag Ho pre suf Hsuf. cbn [conf] in Ho.
  destruct (Hgo ctx' dl Hag) with (pre := pre) (suf := suf) as [N HN]; auto.
  { destruct Hnm as [->| ->]; auto. }
  exists (S N). intros [|n'] Hn'; [lia|]. cbn [do_load kind].
  rewrite union_decide_load, Hg by auto. apply HN. lia.
Qed.

Lemma union_struct_rt cid m : nth_error choices (pick w) = Some (CStruct cid) ->
  holds_struct E last cid m -> struct_rt E last cid m ->
  body_rt E known last d (Field c (KUnion choices ld dd)) (VDict m).
Proof.
  intros Hg Hh Hrt n ctx bs Hd. apply container_dump in Hd; auto; try discriminate.
  destruct n as [|n]; [discriminate|]. cbn [do_dump kind] in Hd.
  rewrite union_decide, dbind_ok, Hg in Hd.
  destruct (struct_body_load E last cid m n ctx bs Hrt Hh Hd) as (vals & Hla & Hgo).
  exists (VStruct cid vals). split; auto. split; [intros []|].
  intros ctx' dl Hag _ pre suf Hsuf. destruct (Hgo ctx' pre suf Hsuf) as [N HN]. exists (S N).
  intros [|n'] Hn'; [lia|]. cbn [do_load kind].
  rewrite union_decide_load, Hg by auto. apply HN. lia.
Qed.
End UnionRt.

Lemma suits_rt E :
  (forall known last d f v, suits E known last d f v -> field_rt E known last d f v)
  /\ (forall known last d f v, holds E known last d f v -> body_rt E known last d f v)
  /\ (forall last cid m, holds_struct E last cid m -> struct_rt E last cid m).
Proof.
  apply suits_all.
  - intros. eapply null_rt; eauto.
  - intros. apply value_rt; auto.
  - intros. apply leaf_body_rt; auto.
  - intros. apply array_body_rt; auto.
  - intros. apply rest_body_rt; auto.
  - intros. apply sentinel_body_rt; auto.
  - intros. apply nested_body_rt; auto.
  - intros. eapply union_field_rt; eauto.
  - intros. eapply union_struct_rt; eauto.
  - intros last cid m Hc Hf Hfix Hout Hs IH. apply class_rt; auto.
    pose proof Hc as (Hwf & _). pose proof Hwf as (_ & Hnames & _). pose proof (well_formed_bound _ Hwf) as Hb.
    intros pre name f post Heq.
    assert (Hin : In (name, f) (k_comps (cls E cid))) by (rewrite Heq; apply in_or_app; right; left; auto).
    assert (Hn : c_name (conf f) = Some name).
    { rewrite Forall_forall in Hnames. apply (Hnames (name, f) Hin). }
    destruct Hf as [Hnd Hk]. destruct (c_discard (conf f)) eqn:Hd.
    + apply discard_comp; eauto. apply dget_none. intros Hi'. apply Hk in Hi'. destruct Hi' as (g & Hg & Hgd).
      pose proof (bound_assoc _ _ _ Hb Hin) as [H1 _]. pose proof (bound_assoc _ _ _ Hb Hg) as [H2 _]. congruence.
    + assert (Hi' : In name (dkeys m)) by (apply Hk; eauto).
      apply dget_in in Hi'. destruct Hi' as [x Hx]. destruct (is_not_present x) eqn:Hnp.
      * destruct x; try discriminate Hnp. apply absent_comp; eauto.
      * assert (Hne : x <> VNotPresent) by (intros ->; discriminate).
        destruct (suits_plain _ _ _ _ _ _ (Hs _ _ _ _ _ Heq Hx Hne)) as (Hpl & Hsh).
        eapply present_comp; eauto.
Qed.

(** ** The struct round trip *)
Lemma struct_roundtrip E n last cid vals ctx bs d : instance_of E cid vals ->
  struct_to_stream E n cid vals ctx = (bs, Ok tt) -> to_dict E n cid vals false = Ok d ->
  holds_struct E last cid d ->
  exists vals' d', instance_of E cid vals' /\ same_data (VDict d) (VDict d')
    /\ (forall ctx' pre suf, (last = true -> suf = []) -> exists N, forall n', (N <= n')%nat ->
          struct_from_stream E n' cid ctx' [] (at_data pre bs suf)
          = (after_data pre bs suf, Ok vals'))
    /\ exists N, forall n', (N <= n')%nat -> to_dict E n' cid vals' false = Ok d'.
Proof.
  intros Hi Hs Htd Hh.
  apply struct_dump_iff in Hs. destruct Hs as (all & parts & _ & Htd' & Hparts & ->).
  rewrite Htd in Htd'. injection Htd' as <-.
  destruct (proj2 (proj2 (suits_rt E)) last cid d Hh n ctx parts Hparts) as (vals' & Hla & Hkv & Hgo).
  destruct (converts E _ _ Hla) as (N & u & HN & Hsame & _).
  assert (Hex : exists N' d', N = S N' /\ u = VDict d' /\ to_dict E N' cid vals' false = Ok d').
  { destruct N as [|N']; [discriminate|]. exists N'.
    assert (Heq : recursive_to_dicts E (S N') (VStruct cid vals')
               = do d <- to_dict E N' cid vals' false; Ok (VDict d)) by reflexivity.
    rewrite Heq in HN. destruct (to_dict E N' cid vals' false) as [d'| |]; try discriminate.
    injection HN as <-. eauto. }
  destruct Hex as (N' & d' & -> & -> & Hd'). exists vals', d'.
  split; [exact Hkv|split; [exact Hsame|split; [exact Hgo|]]].
  exists N'. intros n' Hn'. apply (rle_ok _ _ _ (to_dict_mono E N' n' cid vals' false Hn') Hd').
Qed.

Lemma bytes_roundtrip E n last cid vals ctx bs d : instance_of E cid vals ->
  struct_to_stream E n cid vals ctx = (bs, Ok tt) -> to_dict E n cid vals false = Ok d ->
  holds_struct E last cid d ->
  exists vals' d', same_data (VDict d) (VDict d')
    /\ forall ctx', exists N, forall n', (N <= n')%nat ->
         struct_to_bytes E n cid vals ctx = Ok bs
         /\ struct_from_bytes E n' cid bs ctx' true [] = Ok vals'
         /\ to_dict E n' cid vals' false = Ok d'.
Proof.
  intros Hi Hs Htd Hsu.
  destruct (struct_roundtrip E n last cid vals ctx bs d Hi Hs Htd Hsu) as (vals' & d' & _ & Hsame & Hgo & N1 & HN1).
  exists vals', d'. split; auto. intros ctx'. destruct (Hgo ctx' [] []) as [N2 HN2]; auto.
  exists (Nat.max N1 N2). intros n' Hn'. split; [|split].
  - unfold struct_to_bytes. rewrite Hs. reflexivity.
  - unfold struct_from_bytes. specialize (HN2 n' ltac:(lia)).
    unfold at_data, after_data in HN2. cbn [app length] in HN2. rewrite app_nil_r in HN2.
    rewrite HN2. unfold tell. cbn [s_pos Nat.add].
    replace (Z.of_nat (length bs) <? zlen bs - 1) with false by (unfold zlen; lia). reflexivity.
  - apply HN1. lia.
Qed.
