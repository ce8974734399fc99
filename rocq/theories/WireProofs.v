(** Exactly which data dump, and to which bytes (C75). *)
From Verif Require Import Tac PyIntProofs FieldProofs FieldMore LeafProofs StructProofs ToDictProofs FuelProofs.
From Verif Require Import ContainedProofs ArrayProofs RoundProofs WireLeaf SpecWire.
Open Scope Z_scope.

(** ** The size check *)
Lemma ges_ref E n c k d name : c_size c = SRef name ->
  get_expected_size E n (Field c k) d = match dget d name with
    | Some (VInt m) => Ok m | Some _ => Raise ETypeErr | None => Raise (EMissingRequired (Some name)) end.
Proof. intros H. unfold get_expected_size, ges, get_expected_size_with. cbn [conf]. rewrite H. reflexivity. Qed.

Lemma filled_up_iff E n c k d raw bs :
  sized_write (get_expected_size E n (Field c k) d) c k raw = (bs, Ok tt) <-> filled_up c d k raw bs.
Proof.
  assert (Hsize : forall m, (match c_size c with SInt n => Ok n | SNone => Ok (zlen raw)
                     | SRef _ => get_expected_size E n (Field c k) d end) = Ok m
                  <-> c_size c = SNone /\ m = zlen raw \/ declared_size c d m).
  { intros m. destruct (c_size c) as [|s|nm] eqn:Hs.
    - split; [intros [= <-]; auto|]. intros [[_ ->]|[H|(x & H & _)]]; congruence.
    - split; [intros [= <-]; right; left; auto|]. intros [[H _]|[H|(x & H & _)]]; congruence.
    - rewrite (ges_ref E n c k d nm Hs). split.
      + intros H. right. right. exists nm. split; auto. destruct (dget d nm) as [[]|]; congruence.
      + intros [[H _]|[H|(x & H & Hx)]]; try congruence. rewrite Hs in H. injection H as <-. rewrite Hx. reflexivity. }
  unfold sized_write. split.
  - intros H. apply dbind_dlift_inv in H. destruct H as (m & Hm & H). apply Hsize in Hm.
    destruct Hm as [[Hs ->]|Hm].
    + replace (0 <? zlen raw - zlen raw) with false in H by lia.
      replace (zlen raw - zlen raw <? 0) with false in H by lia. injection H as <-. left. auto.
    + right. destruct (Z.ltb_spec 0 (zlen raw - m)); [discriminate|].
      destruct (Z.ltb_spec (zlen raw - m) 0).
      * unfold add_padding in H.
        assert (Hp : exists cd p, (k = KString cd (Some p) \/ k = KStringZ cd (Some p))
                  /\ bs = raw ++ repeat p (Z.to_nat (m - zlen raw))).
        { destruct k as [sg e|fmt mx|fmt e|r tz sg e| |cd [p|]|cd [p|]|fmt|comp cnt halt|cid|choices ld dmp];
            try discriminate H; rewrite dbind_ok in H; injection H as <-; eauto. }
        destruct Hp as (cd & p & Hk & ->). rewrite zlen_app. unfold zlen at 2. rewrite repeat_length.
        replace (zlen raw + Z.of_nat (Z.to_nat (m - zlen raw))) with m by lia. split; auto. right. eauto 6.
      * injection H as <-. replace (zlen raw) with m by lia. auto.
  - intros [[Hs ->]|[Hm Hb]].
    + rewrite (proj2 (Hsize (zlen raw)) (or_introl (conj Hs eq_refl))), dbind_ok.
      replace (0 <? zlen raw - zlen raw) with false by lia.
      replace (zlen raw - zlen raw <? 0) with false by lia. reflexivity.
    + rewrite (proj2 (Hsize (zlen bs)) (or_intror Hm)), dbind_ok. destruct Hb as [->|(cd & p & j & Hk & ->)].
      * replace (0 <? zlen raw - zlen raw) with false by lia.
        replace (zlen raw - zlen raw <? 0) with false by lia. reflexivity.
      * assert (Hz : zlen (raw ++ repeat p j) = zlen raw + Z.of_nat j).
        { rewrite zlen_app. unfold zlen at 2. rewrite repeat_length. reflexivity. }
        rewrite Hz.
        destruct (Z.ltb_spec 0 (zlen raw - (zlen raw + Z.of_nat j))); [lia|].
        destruct (Z.ltb_spec (zlen raw - (zlen raw + Z.of_nat j)) 0).
        -- unfold add_padding. replace (Z.to_nat (zlen raw + Z.of_nat j - zlen raw)) with j by lia.
           destruct Hk as [-> | ->]; rewrite dbind_ok; reflexivity.
        -- assert (j = O) as -> by lia. cbn [repeat]. rewrite app_nil_r. reflexivity.
Qed.

Lemma filled_container c d k raw bs : ~ is_leaf k -> filled_up c d k raw bs <-> bs = raw /\ fits_size c d bs.
Proof.
  intros Hk. unfold filled_up, fits_size, declared_size. split.
  - intros [[Hs ->]|[Hm Hb]].
    + rewrite Hs. auto.
    + destruct Hb as [->|(cd & p & j & [-> | ->] & _)]; try (destruct Hk; exact I).
      split; auto. destruct Hm as [->|(nm & -> & H)]; auto.
  - intros [-> Hf]. destruct (c_size c) as [|m|nm]; auto; right; split; auto.
    + left. congruence.
    + right. eauto.
Qed.

(** ** One field *)
Lemma data_iff E n c k v ctx d bs : is_data v = true ->
  field_to_stream E n (Field c k) v ctx d = (bs, Ok tt)
  <-> accepts c v /\ exists raw, do_dump E n (Field c k) v ctx d = (raw, Ok tt) /\ filled_up c d k raw bs.
Proof.
  intros Hv. split.
  - intros H. assert (Ha : accepts c v).
    { apply (dump_accepts E n (Field c k) v ctx d bs); auto. intros ->. discriminate. }
    split; auto. unfold field_to_stream, field_to_stream_with in H. rewrite to_stream_data in H by auto.
    destruct (do_dump E n (Field c k) v ctx d) as [raw [[]| |]]; try discriminate.
    exists raw. split; auto. apply filled_up_iff in H. auto.
  - intros (Ha & raw & Hr & Hf). unfold field_to_stream, field_to_stream_with. rewrite to_stream_data by auto.
    rewrite Hr. apply filled_up_iff. auto.
Qed.

Lemma none_iff E n c k ctx d bs : typed_null c d k ->
  field_to_stream E n (Field c k) VNone ctx d = (bs, Ok tt) <-> accepts c VNone /\ none_form c d k bs.
Proof.
  intros Ht.
  assert (Hnr : null_repr (do_dump E n) (Field c k) d = Ok bs <-> none_form c d k bs).
  { unfold null_repr, null_repr_with. cbn [conf]. unfold typed_null in Ht.
    assert (Hconst : forall v, c_null c = v -> (forall b, v <> VBytes b) -> typed c d k v ->
      match do_dump E n (Field c k) v VNone d with
      | (out, Ok _) => Ok out | (_, Raise e) => Raise e | (_, OOF) => OOF end = Ok bs <-> none_form c d k bs).
    { intros v Hn Hb Hty. assert (Hd : do_dump E n (Field c k) v VNone d
         = leaf_dump c k (get_expected_size_with (fun _ => draise ETypeErr) c k d) v).
      { destruct n; destruct Hty as [| |i k e x y [] _| | | | |]; reflexivity. }
      rewrite Hd. pose proof (leaf_form_iff c d k v bs Hty) as Hl.
      destruct (leaf_dump c k _ v) as [out r]. split.
      - destruct r as [[]| |]; try discriminate. intros [= ->]. apply none_constant; [congruence|].
        rewrite Hn. apply Hl. auto.
      - intros H. destruct H as [nb Hn'|m Hn' _|nb _ Hf].
        + destruct (Hb nb). congruence.
        + exfalso. assert (Hv : v = VNone \/ v = VDefault) by (destruct Hn'; [left|right]; congruence).
          destruct Hv as [Hv|Hv]; rewrite Hv in Hty; inversion Hty.
        + rewrite Hn in Hf. apply Hl in Hf. injection Hf as -> ->. auto. }
    assert (Hzero : forall v, c_null c = v -> v = VNone \/ v = VDefault -> (exists m, declared_size c d m) ->
      match ges (do_dump E n) (Field c k) d with
      | Ok m => Ok (repeat 0 (Z.to_nat m))
      | Raise e => if is_UndefinedSizeError e then Raise (EUnserializable (c_name c)) else Raise e
      | OOF => OOF end = Ok bs <-> none_form c d k bs).
    { intros v Hn Hv [m Hm]. unfold ges. cbn [conf kind]. rewrite (ges_declared _ _ _ _ m Hm). split.
      - intros [= <-]. apply none_zeros; auto. destruct Hv; [left|right]; congruence.
      - intros H. destruct H as [nb Hn'|m' _ Hm'|nb _ Hf].
        + exfalso. destruct Hv; congruence.
        + rewrite (declared_unique _ _ _ _ Hm Hm'). reflexivity.
        + exfalso. rewrite Hn in Hf. destruct Hv as [Hv|Hv]; rewrite Hv in Hf; inversion Hf. }
    revert Ht. destruct (c_null c) eqn:Hn; intros Ht;
      try (apply Hconst; auto; discriminate); try (apply (Hzero _ eq_refl); auto; fail).
    - split; [discriminate|]. intros H. exfalso. inversion H; subst; try congruence.
      + match goal with H : _ \/ _ |- _ => destruct H; congruence end.
      + match goal with Hf : leaf_form _ _ _ _ _ |- _ => rewrite Hn in Hf; inversion Hf end.
    - split; [intros [= <-]; apply none_given; auto|]. intros H.
      destruct H as [nb Hn'|m' Hn' _|nb Hb _]; [congruence|destruct Hn'; congruence|destruct (Hb bs0); auto]. }
  unfold field_to_stream, field_to_stream_with, to_stream_with. cbn [is_default is_undefined is_none orb conf].
  rewrite dbind_ok. split.
  - intros H. apply dbind_dlift_inv in H. destruct H as ([] & Hr & H). apply run_accepts in Hr. split; auto.
    apply dbind_dlift_inv in H. destruct H as (nb & Hnb & H). injection H as <-. apply Hnr. auto.
  - intros [Ha Hf]. apply Hnr in Hf. rewrite (accepts_run _ _ Ha), dbind_ok, Hf, dbind_ok. reflexivity.
Qed.

(** ** Structs *)
Scheme regular_ind2 := Minimality for regular Sort Prop
  with regular_struct_ind2 := Minimality for regular_struct Sort Prop.
Combined Scheme regular_mutind from regular_ind2, regular_struct_ind2.

Lemma regular_plain E d f v : regular E d f v ->
  is_undefined v = false /\ is_not_present v = false /\ is_default v = false.
Proof.
  induction 1; auto. match goal with H : typed _ _ _ _ |- _ => destruct H; auto end.
Qed.

Lemma regular_data E d f v : regular E d f v -> v <> VNone -> is_data v = true.
Proof.
  intros H Hn. destruct (regular_plain _ _ _ _ H) as (H1 & H2 & H3). destruct v; try discriminate; auto; congruence.
Qed.

Lemma regular_free E :
  (forall d f v, regular E d f v -> struct_free v)
  /\ (forall cid m, regular_struct E cid m -> struct_free (VDict m)).
Proof.
  apply (regular_mutind E (fun d f v => struct_free v) (fun cid m => struct_free (VDict m))); intros; auto.
  - constructor. exact I.
  - match goal with H : typed _ _ _ _ |- _ => destruct H; constructor; exact I end.
  - apply free_list. apply Forall_forall. auto.
  - apply free_dict. apply Forall_forall. intros [k v] Hi. cbn [snd].
    match goal with H : filled _ _ |- _ => destruct H as [Hnd Hk] end. pose proof (in_dget _ _ _ Hnd Hi) as Hg.
    assert (Hin : In k (dkeys m)) by (apply dget_in; eauto). apply Hk in Hin. destruct Hin as (f & Hin & _).
    assert (Hv : v = VNotPresent \/ v <> VNotPresent) by (destruct v; auto; right; discriminate).
    destruct Hv as [->|Hv]; [constructor; exact I|eauto].
Qed.

Lemma free_total E v : struct_free v -> exists n, recursive_to_dicts E n v = Ok v.
Proof.
  assert (Hall : forall {A} (P : nat -> A -> Prop) l, (forall n m a, (n <= m)%nat -> P n a -> P m a) ->
            Forall (fun a => exists n, P n a) l -> exists n, Forall (P n) l).
  { intros A P l Hm H. induction H as [|a l [n Hn] _ [m Hl]]; [exists O; constructor|].
    exists (Nat.max n m). constructor; [apply (Hm n); auto; lia|].
    eapply Forall_impl; [|exact Hl]. intros x Hx. apply (Hm m); auto; lia. }
  revert v. fix IH 2. intros v [w Hw|l Hl|d Hd].
  - exists 1%nat. destruct w; try contradiction; reflexivity.
  - assert (Hx : Forall (fun a => exists n, recursive_to_dicts E n a = Ok a) l).
    { induction Hl as [|x l Hx _ IHl]; constructor; auto. }
    apply Hall in Hx; [|intros n m a Hle; apply rtd_up; auto]. destruct Hx as [n Hn]. exists (S n).
    assert (Hm : mapM (recursive_to_dicts E n) l = Ok l).
    { clear Hl. induction Hn as [|x l Hx _ IHl]; [reflexivity|]. cbn [mapM]. rewrite Hx. cbn [bind]. rewrite IHl. reflexivity. }
    cbn [recursive_to_dicts]. rewrite Hm. reflexivity.
  - assert (Hx : Forall (fun kv => exists n, recursive_to_dicts E n (snd kv) = Ok (snd kv)) d).
    { induction Hd as [|[k x] l Hx _ IHl]; constructor; auto. }
    apply Hall in Hx; [|intros n m a Hle; apply rtd_up; auto]. destruct Hx as [n Hn]. exists (S n).
    assert (Hm : mapM (fun kv => do v <- recursive_to_dicts E n (snd kv); Ok (fst kv, v)) d = Ok d).
    { clear Hd. induction Hn as [|[k x] l Hx _ IHl]; [reflexivity|]. cbn [mapM fst snd] in *. rewrite Hx. cbn [bind].
      rewrite IHl. reflexivity. }
    cbn [recursive_to_dicts]. rewrite Hm. reflexivity.
Qed.

Section Struct.
Variables (E : env) (cid : nat) (m : dict).
Hypothesis Hreg : regular_struct E cid m.

Lemma reg_inv : straight_class (cls E cid) /\ filled (cls E cid) m
  /\ (forall name f, In (name, f) (k_comps (cls E cid)) -> c_discard (conf f) = true ->
       padding_field f /\ regular E m f (c_default (conf f)))
  /\ (forall name f v, In (name, f) (k_comps (cls E cid)) -> dget m name = Some v ->
       v <> VNotPresent -> regular E m f v /\ shown (dkeys m) m (conf f) true)
  /\ (forall name f, In (name, f) (k_comps (cls E cid)) -> dget m name = Some VNotPresent ->
       exists b, shown (dkeys m) m (conf f) b).
Proof. inversion Hreg; subst. repeat (split; eauto). Qed.

Lemma reg_instance : instance_of E cid m.
Proof. destruct reg_inv as (H1 & H2 & _). apply filled_instance; auto. Qed.

Lemma reg_bound : bound (k_comps (cls E cid)).
Proof. destruct reg_inv as ((Hwf & _) & _). apply well_formed_bound; auto. Qed.

Lemma reg_discard name f : In (name, f) (k_comps (cls E cid)) -> c_discard (conf f) = true <-> dget m name = None.
Proof.
  intros Hin. destruct reg_inv as (_ & (Hnd & Hk) & _). rewrite dget_none, Hk. split.
  - intros Hd (g & Hg & Hgd). pose proof (bound_assoc _ _ _ reg_bound Hin) as [H1 _].
    pose proof (bound_assoc _ _ _ reg_bound Hg) as [H2 _]. congruence.
  - intros H. destruct (c_discard (conf f)) eqn:Hd; auto. destruct H. eauto.
Qed.

(** Every component has exactly one value. *)
Lemma reg_value name f : In (name, f) (k_comps (cls E cid)) ->
  exists v, component_value m name f v /\ (forall w, component_value m name f w -> w = v)
    /\ is_undefined v = false
    /\ (v = VNotPresent \/ v <> VNotPresent /\ regular E m f v)
    /\ (forall ctx, run_dict m (compute_value_for_dump (conf f) ctx) = Ok v)
    /\ forall n, struct_get E (S n) cid m name = Ok v.
Proof.
  intros Hin. destruct reg_inv as ((Hwf & _) & Hf & Hpad & Hval & Habs).
  destruct (bound_assoc _ _ _ reg_bound Hin) as [Ha Hn].
  destruct (dget m name) as [v|] eqn:Hg.
  - exists v. assert (Hu : is_undefined v = false).
    { destruct v; auto. destruct (Hval name f VUndefined Hin Hg) as [Hr _]; [discriminate|].
      destruct (regular_plain _ _ _ _ Hr) as (H & _). discriminate. }
    assert (Hnp : v = VNotPresent \/ v <> VNotPresent) by (destruct v; auto; right; discriminate).
    split; [left; auto|]. split; [intros w [Hw|(Hw & _)]; congruence|]. split; auto. split; [|split].
    + destruct Hnp as [->|Hnp]; auto. right. split; auto. apply (Hval name f v Hin Hg Hnp).
    + intros ctx. destruct Hnp as [->|Hnp].
      * rewrite compute_run, (stored_explicit _ _ _ _ Hn Hg). reflexivity.
      * destruct (Hval name f v Hin Hg Hnp) as [_ Hsh]. apply (value_explicit _ _ _ name); auto.
        -- intros ->. discriminate.
        -- eapply shown_run; eauto using agree_refl.
    + intros n. apply (struct_get_stored E (S n) cid m name f v Ha Hn Hg).
  - assert (Hd : c_discard (conf f) = true) by (apply (reg_discard name); auto).
    destruct (Hpad name f Hin Hd) as ((Hun & Hfac & Hu & Hnp & Hdf) & Hr). exists (c_default (conf f)).
    split; [right; auto|]. split; [intros w [Hw|(_ & _ & Hw)]; congruence|]. split; auto. split; [|split].
    + right. split; auto. intros H. rewrite H in Hnp. discriminate.
    + intros ctx. apply value_default.
      * rewrite Hn. exact Hg.
      * intros H. rewrite H in Hu. discriminate.
      * unfold default_of. rewrite Hfac. reflexivity.
      * intros H. rewrite H in Hu. discriminate.
      * intros H. rewrite H in Hnp. discriminate.
      * apply Hun.
    + intros n. cbn [struct_get]. unfold comps. rewrite Ha. unfold name_of. rewrite Hn. cbn [oget]. rewrite Hg.
      apply (discard_pick E n cid m name f Hwf reg_instance Hin Hg Hun Hfac Hu Hnp).
Qed.

Lemma validated_iff n : validated E (S n) cid m <-> all_accepted (cls E cid) m.
Proof.
  destruct reg_inv as ((Hwf & Hmeth & Hsv) & _). split.
  - intros [H _] name f v Hi Hin Hv. apply in_map_iff in Hi. destruct Hi as ([nm ms] & Hnm & Hi). cbn in Hnm. subst nm.
    destruct (H name ms Hi) as (g & w & Hg & Hw & Ha & _).
    destruct (bound_assoc _ _ _ reg_bound Hin) as [Has _]. rewrite Has in Hg. injection Hg as <-.
    destruct (reg_value name f Hin) as (x & _ & Hx & _ & _ & _ & Hget). rewrite (Hx v Hv). rewrite Hget in Hw. congruence.
  - intros H. split; [|rewrite Hsv; constructor]. intros name ms Hi.
    assert (Hn : In name (map fst (k_fvals (cls E cid)))) by (apply in_map_iff; exists (name, ms); auto).
    pose proof Hwf as (_ & _ & Hfv). apply Hfv in Hn as Hc. apply in_map_iff in Hc.
    destruct Hc as ([nm f] & Hnm & Hin). cbn in Hnm. subst nm.
    destruct (reg_value name f Hin) as (x & Hx & _ & _ & _ & _ & Hget). exists f, x.
    split; [apply (bound_assoc _ _ _ reg_bound Hin)|]. split; auto. split; [eapply H; eauto|].
    rewrite (Hmeth name ms Hi). constructor.
Qed.

Lemma reg_kept name f : In (name, f) (k_comps (cls E cid)) -> kept m name f.
Proof.
  intros Hin. destruct reg_inv as (_ & _ & Hpad & Hval & Habs). destruct (c_discard (conf f)) eqn:Hd.
  - left. destruct (Hpad name f Hin Hd) as ((Hun & Hfac & Hu & Hnp & _) & _).
    repeat split; auto. apply (reg_discard name f); auto.
  - right. split; auto. destruct (dget m name) as [v|] eqn:Hg.
    + assert (Hnp : v = VNotPresent \/ v <> VNotPresent) by (destruct v; auto; right; discriminate).
      destruct Hnp as [->|Hnp].
      * destruct (Habs name f Hin Hg) as [b Hb]. exists (dkeys m), b, VNotPresent. auto.
      * destruct (Hval name f v Hin Hg Hnp) as [Hr Hsh]. exists (dkeys m), true, v. repeat split; auto.
        -- apply (regular_plain _ _ _ _ Hr).
        -- discriminate.
    + apply (reg_discard name f Hin) in Hg. congruence.
Qed.

Lemma reg_to_dict : exists N, forall n, (N <= n)%nat -> to_dict E n cid m false = Ok m.
Proof.
  destruct reg_inv as (Hc & Hf & _). pose proof Hc as (Hwf & _).
  pose proof (proj2 (regular_free E) cid m Hreg) as Hfree.
  assert (Hex : exists N, to_dict E N cid m false = Ok m).
  { destruct (free_total E (VDict m) Hfree) as [[|N] HN]; [discriminate|]. exists N.
    rewrite (to_dict_kept E N cid m Hc Hf reg_kept).
    assert (Heq : recursive_to_dicts E (S N) (VDict m) = do d' <- dicts_of E N m; Ok (VDict d')) by reflexivity.
    rewrite Heq in HN. destruct (dicts_of E N m); try discriminate. cbn [bind] in HN. congruence. }
  destruct Hex as [N HN]. exists N. intros n Hn. apply (rle_ok _ _ _ (to_dict_mono E N n cid m false Hn) HN).
Qed.
End Struct.

(** What dumping the components amounts to. *)
Definition fields_dump (E : env) (ctx : value) (m : dict) (fs : list (string * field)) (bs : list Z) : Prop :=
  exists n parts, Forall2 (field_part E n ctx m) fs parts /\ bs = concat parts.

Lemma field_part_mono E n n' ctx m nf b : (n <= n')%nat ->
  field_part E n ctx m nf b -> field_part E n' ctx m nf b.
Proof.
  intros Hle (v & Hv & H). exists v. split; auto. destruct H as [H|[Hn H]]; auto. right. split; auto.
  apply (dumps_to_mono E n); auto.
Qed.

Lemma fields_iff E cid m ctx : regular_struct E cid m ->
  (forall name f v, In (name, f) (k_comps (cls E cid)) -> component_value m name f v -> v <> VNotPresent ->
     forall b, dumps_to E f v ctx m b <-> wire E m f v b) ->
  forall fs bs, incl fs (k_comps (cls E cid)) -> fields_dump E ctx m fs bs <-> wire_fields E m fs bs.
Proof.
  intros Hreg Hw. induction fs as [|[name f] fs IH]; intros bs Hincl.
  - split.
    + intros (n & parts & H & ->). inversion H; subst. constructor.
    + intros H. inversion H; subst. exists O, []. split; [constructor|reflexivity].
  - assert (Hin : In (name, f) (k_comps (cls E cid))) by (apply Hincl; left; auto).
    assert (Hincl' : incl fs (k_comps (cls E cid))) by (intros x Hx; apply Hincl; right; auto).
    destruct (reg_value E cid m Hreg name f Hin) as (v & Hv & Huniq & Hu & Hcase & Hrun & _).
    split.
    + intros (n & parts & H & ->). inversion H as [|? b ? ps Hp Hps]; subst. cbn [concat].
      assert (Hrest : wire_fields E m fs (concat ps)).
      { apply IH; auto. exists n, ps. auto. }
      destruct Hp as (w & Hwr & Hp). cbn [snd] in *. rewrite Hrun in Hwr. injection Hwr as <-.
      destruct Hp as [[-> ->]|[Hne Hts]].
      * cbn [app]. apply fields_absent; auto. destruct Hv as [Hv|(Hg & Hd & Heq)]; auto.
        destruct (reg_inv E cid m Hreg) as (_ & _ & Hpad & _).
        destruct (Hpad name f Hin Hd) as ((_ & _ & _ & Hnp & _) & _). rewrite <- Heq in Hnp. discriminate.
      * apply (fields_present E m name f fs v); auto. apply (Hw name f v Hin Hv Hne). exists n. auto.
    + intros H. inversion H as [|m' nm f' fs' bs' Hg Hr|m' nm f' fs' w b bs' Hcv Hne Hwire Hr]; subst.
      * apply IH in Hr; auto. destruct Hr as (n & parts & Hps & ->). exists n, ([] :: parts).
        split; [|reflexivity]. constructor; auto.
        assert (v = VNotPresent) as -> by (symmetry; apply Huniq; left; auto).
        exists VNotPresent. cbn [snd]. auto.
      * apply IH in Hr; auto. destruct Hr as (n & parts & Hps & ->).
        assert (w = v) as -> by auto.
        apply (Hw name f v Hin Hv Hne) in Hwire. destruct Hwire as [n' Hts].
        exists (Nat.max n n'), (b :: parts). split; [|reflexivity]. constructor.
        -- exists v. cbn [snd]. split; auto. right. split; auto. apply (dumps_to_mono E n'); auto. lia.
        -- eapply forall2_impl; [|exact Hps]. intros x y Hxy. apply (field_part_mono E n); auto. lia.
Qed.

Lemma struct_iff E cid m ctx bs : regular_struct E cid m ->
  (forall b, fields_dump E ctx m (k_comps (cls E cid)) b <-> wire_fields E m (k_comps (cls E cid)) b) ->
  (exists n, struct_to_stream E n cid m ctx = (bs, Ok tt))
  <-> all_accepted (cls E cid) m /\ wire_fields E m (k_comps (cls E cid)) bs.
Proof.
  intros Hreg Hf. split.
  - intros [n H]. apply struct_dump_iff in H. destruct H as (all & parts & Hv & Htd & Hp & ->).
    destruct (reg_to_dict E cid m Hreg) as [N HN].
    assert (all = m) as ->.
    { destruct (Nat.le_ge_cases N n) as [Hle|Hle].
      - rewrite HN in Htd; auto. congruence.
      - pose proof (rle_ok _ _ _ (to_dict_mono E n N cid m false Hle) Htd) as Htd'. rewrite HN in Htd'; auto. congruence. }
    assert (Hv' : validated E (S n) cid m).
    { apply validate_contents_iff. apply validate_contents_iff in Hv.
      apply (rle_ok _ _ _ (validate_contents_mono E n (S n) cid m ltac:(lia)) Hv). }
    split; [apply (validated_iff E cid m Hreg n); auto|]. apply Hf. exists n, parts. auto.
  - intros [Ha Hw]. apply Hf in Hw. destruct Hw as (n & parts & Hp & ->).
    destruct (reg_to_dict E cid m Hreg) as [N HN]. exists (S (Nat.max n N)). apply struct_dump_iff.
    exists m, parts. split; [apply validated_iff; auto|]. split; [apply HN; lia|]. split; auto.
    eapply forall2_impl; [|exact Hp]. intros x y Hxy. apply (field_part_mono E n); auto. lia.
Qed.

(** A Nested field, or a Struct among the choices of a Union. *)
Lemma nested_iff E cid m ctx bs : regular_struct E cid m ->
  (forall b, fields_dump E ctx m (k_comps (cls E cid)) b <-> wire_fields E m (k_comps (cls E cid)) b) ->
  (exists n, (ddo vals <- dlift (struct_init E cid m);
              struct_to_stream_with E (do_dump E n) n cid vals ctx) = (bs, Ok tt))
  <-> all_accepted (cls E cid) m /\ wire_fields E m (k_comps (cls E cid)) bs.
Proof.
  intros Hreg Hf. rewrite <- (struct_iff E cid m ctx bs Hreg Hf).
  assert (Hinit : struct_init E cid m = Ok m) by (apply init_ok_iff; split; auto; apply (reg_instance E cid m Hreg)).
  split; intros [n H]; exists n; [rewrite Hinit, dbind_ok in H|rewrite Hinit, dbind_ok]; exact H.
Qed.

Lemma items_iff E d comp ctx : forall l bs,
  (forall v b, In v l -> dumps_to E comp v ctx d b <-> wire E d comp v b) ->
  (exists parts, Forall2 (fun x b => dumps_to E comp x ctx d b) l parts /\ bs = concat parts)
  <-> wire_items E d comp l bs.
Proof.
  induction l as [|v l IH]; intros bs H.
  - split.
    + intros (parts & Hp & ->). inversion Hp; subst. constructor.
    + intros Hw. inversion Hw; subst. exists []. split; [constructor|reflexivity].
  - assert (Hl : forall w b, In w l -> dumps_to E comp w ctx d b <-> wire E d comp w b) by (intros; apply H; right; auto).
    split.
    + intros (parts & Hp & ->). inversion Hp; subst. cbn [concat]. constructor.
      * apply H; [left; auto|auto].
      * apply IH; auto. eauto.
    + intros Hw. inversion Hw as [|? ? ? ? b bs' Hv Hr]; subst. apply IH in Hr; auto. destruct Hr as (parts & Hp & ->).
      exists (b :: parts). split; [|reflexivity]. constructor; auto. apply H; [left; auto|auto].
Qed.

(** The container's own dump succeeds with bytes of the right size. *)
Lemma container_iff E c k v ctx d bs : ~ is_leaf k -> is_data v = true ->
  dumps_to E (Field c k) v ctx d bs
  <-> accepts c v /\ fits_size c d bs /\ exists n, do_dump E (S n) (Field c k) v ctx d = (bs, Ok tt).
Proof.
  intros Hk Hv. split.
  - intros [n H]. apply (dumps_to_mono E n (S n)) in H; [|lia]. apply data_iff in H; auto.
    destruct H as (Ha & raw & Hr & Hf). apply filled_container in Hf; auto. destruct Hf as [-> Hf]. eauto.
  - intros (Ha & Hf & n & Hd). exists (S n). apply data_iff; auto. split; auto. exists bs. split; auto.
    apply filled_container; auto.
Qed.

Lemma typed_leaf c d k v : typed c d k v -> is_leaf k /\ is_data v = true.
Proof. intros []; split; auto; try exact I; match goal with H : float_kind _ _ _ |- _ => destruct H; exact I end. Qed.

Lemma wire_iff E :
  (forall d f v, regular E d f v -> forall ctx bs, dumps_to E f v ctx d bs <-> wire E d f v bs)
  /\ (forall cid m, regular_struct E cid m -> forall ctx bs,
        fields_dump E ctx m (k_comps (cls E cid)) bs <-> wire_fields E m (k_comps (cls E cid)) bs).
Proof.
  apply (regular_mutind E
    (fun d f v => forall ctx bs, dumps_to E f v ctx d bs <-> wire E d f v bs)
    (fun cid m => forall ctx bs,
        fields_dump E ctx m (k_comps (cls E cid)) bs <-> wire_fields E m (k_comps (cls E cid)) bs)).
  - intros d c k Ht ctx bs. split.
    + intros [n H]. apply none_iff in H; auto. destruct H. apply wire_none; auto.
    + intros H. exists O. apply none_iff; auto. inversion H; subst; auto.
      * match goal with Hf : leaf_form _ _ _ _ _ |- _ => inversion Hf end.
      * congruence.
  - intros d c k v Ht ctx bs. destruct (typed_leaf _ _ _ _ Ht) as [Hk Hv].
    assert (Hd : forall n, do_dump E n (Field c k) v ctx d
       = leaf_dump c k (get_expected_size_with (fun _ => draise ETypeErr) c k d) v).
    { intros n. destruct n, k; try contradiction; reflexivity. }
    split.
    + intros [n H]. apply data_iff in H; auto. destruct H as (Ha & raw & Hr & Hf). rewrite Hd in Hr.
      apply leaf_form_iff in Hr; auto. eapply wire_leaf; eauto.
    + intros H. exists O. apply data_iff; auto.
      inversion H; subst; try contradiction; try discriminate Hv.
      split; auto. exists raw. split; auto. rewrite Hd. apply leaf_form_iff; auto.
  - intros d c comp cnt halt l _ IH ctx bs. rewrite (array_dumps_to E c comp cnt halt (VList l) ctx d bs l) by auto.
    assert (Hi : forall v b, In v l -> dumps_to E comp v ctx d b <-> wire E d comp v b) by (intros; apply IH; auto).
    split.
    + intros (Ha & Hlen & parts & Hp & -> & Hf). apply wire_array; auto. apply (items_iff E d comp ctx); eauto.
    + intros H. inversion H; subst.
      * match goal with Hf : leaf_form _ _ _ _ _ |- _ => inversion Hf end.
      * split; auto. split; auto.
        match goal with Hw : wire_items _ _ _ _ _ |- _ => apply (items_iff E d comp ctx) in Hw; auto; destruct Hw as (parts & Hp & ->) end.
        exists parts. auto.
  - intros d c cid m Hreg IH ctx bs. rewrite container_iff by auto.
    assert (Hn := nested_iff E cid m ctx bs Hreg (IH ctx)). cbn [do_dump kind]. rewrite Hn. split.
    + intros (Ha & Hf & Hall & Hw). apply wire_nested; auto.
    + intros H. inversion H; subst; auto. match goal with Hf : leaf_form _ _ _ _ _ |- _ => inversion Hf end.
  - intros d c choices ld dd i g v Hdec Hnth Hne Hreg IH ctx bs.
    rewrite container_iff by (auto; eapply regular_data; eauto). cbn [do_dump kind].
    assert (Heq : (exists n, (ddo i <- dlift (dd v ctx d);
                match nth_error choices i with
                | Some (CField g) => field_to_stream_with (do_dump E n) g v ctx d
                | Some (CStruct cid) =>
                  match v with
                  | VDict vals => ddo vals <- dlift (struct_init E cid vals);
                                  struct_to_stream_with E (do_dump E n) n cid vals ctx
                  | _ => draise ETypeErr
                  end
                | None => draise ETypeErr
                end) = (bs, Ok tt)) <-> wire E d g v bs).
    { rewrite <- (IH ctx bs). rewrite Hdec. unfold dumps_to, field_to_stream. split; intros [n H]; exists n.
      - rewrite dbind_ok, Hnth in H. exact H.
      - rewrite dbind_ok, Hnth. exact H. }
    rewrite Heq. split.
    + intros (Ha & Hf & Hw). eapply wire_union_field; eauto.
    + intros H. inversion H; subst; try congruence.
      * match goal with Hf : leaf_form _ _ _ _ _ |- _ => inversion Hf; subst end.
        match goal with Hk : float_kind _ _ _ |- _ => inversion Hk end.
      * assert (Hi : Ok i0 = Ok i) by (etransitivity; [symmetry; eauto|apply (Hdec VNone)]). injection Hi as ->. 
        assert (g0 = g) as -> by congruence. auto.
      * exfalso. assert (Hi : Ok i0 = Ok i) by (etransitivity; [symmetry; eauto|apply (Hdec VNone)]). congruence.
  - intros d c choices ld dd i cid m Hdec Hnth Hreg IH ctx bs.
    rewrite container_iff by auto. cbn [do_dump kind].
    assert (Hn := nested_iff E cid m ctx bs Hreg (IH ctx)).
    rewrite Hdec.
    assert (Heq : (exists n, (ddo i <- dlift (Ok i);
                match nth_error choices i with
                | Some (CField g) => field_to_stream_with (do_dump E n) g (VDict m) ctx d
                | Some (CStruct cid) =>
                   ddo vals <- dlift (struct_init E cid m);
                                  struct_to_stream_with E (do_dump E n) n cid vals ctx
                | None => draise ETypeErr
                end) = (bs, Ok tt)) <-> all_accepted (cls E cid) m /\ wire_fields E m (k_comps (cls E cid)) bs).
    { rewrite <- Hn. split; intros [n H]; exists n.
      - rewrite dbind_ok, Hnth in H. exact H.
      - rewrite dbind_ok, Hnth. exact H. }
    rewrite Heq. split.
    + intros (Ha & Hf & Hall & Hw). eapply wire_union_struct; eauto.
    + intros H. inversion H; subst; try congruence.
      * match goal with Hf : leaf_form _ _ _ _ _ |- _ => inversion Hf; subst end.
      * exfalso. assert (Hi : Ok i0 = Ok i) by (etransitivity; [symmetry; eauto|apply (Hdec VNone)]). congruence.
      * assert (Hi : Ok i0 = Ok i) by (etransitivity; [symmetry; eauto|apply (Hdec VNone)]). injection Hi as ->.
        assert (cid0 = cid) as -> by congruence. auto.
  - intros cid m Hc Hf Hpad Hr0 IH0 Hsh Hr IH Habs ctx bs.
    assert (Hreg : regular_struct E cid m) by (apply regular_all; auto).
    apply (fields_iff E cid m ctx Hreg); [|apply incl_refl].
    intros name f v Hin Hcv Hne b. destruct Hcv as [Hg|(Hg & Hd & ->)]; eauto.
Qed.

(** ** The theorems *)
Lemma dumped_iff E cid vals d ctx bs n0 : to_dict E n0 cid vals false = Ok d -> regular_struct E cid d ->
  (exists n, struct_to_stream E n cid vals ctx = (bs, Ok tt))
  <-> (exists n, validated E n cid vals) /\ wire_fields E d (k_comps (cls E cid)) bs.
Proof.
  intros Htd Hreg. pose proof (proj2 (wire_iff E) cid d Hreg ctx bs) as Hw. split.
  - intros [n H]. apply struct_dump_iff in H. destruct H as (all & parts & Hv & Htd' & Hp & ->).
    assert (all = d) as ->.
    { pose proof (rle_ok _ _ _ (to_dict_mono E n (Nat.max n n0) cid vals false ltac:(lia)) Htd') as H1.
      pose proof (rle_ok _ _ _ (to_dict_mono E n0 (Nat.max n n0) cid vals false ltac:(lia)) Htd) as H2. congruence. }
    split; [eauto|]. apply Hw. exists n, parts. auto.
  - intros [[n Hv] H]. apply Hw in H. destruct H as (n' & parts & Hp & ->).
    exists (Nat.max n0 (Nat.max n n')). apply struct_dump_iff. exists d, parts.
    split; [|split; [|split; auto]].
    + apply validate_contents_iff. apply validate_contents_iff in Hv.
      apply (rle_ok _ _ _ (validate_contents_mono E n (Nat.max n0 (Nat.max n n')) cid vals ltac:(lia)) Hv).
    + apply (rle_ok _ _ _ (to_dict_mono E n0 (Nat.max n0 (Nat.max n n')) cid vals false ltac:(lia)) Htd).
    + eapply forall2_impl; [|exact Hp]. intros x y Hxy. apply (field_part_mono E n'); auto. lia.
Qed.

Lemma wire_unique E cid d bs bs' : regular_struct E cid d ->
  wire_fields E d (k_comps (cls E cid)) bs -> wire_fields E d (k_comps (cls E cid)) bs' -> bs = bs'.
Proof.
  intros Hreg H H'. apply (proj2 (wire_iff E) cid d Hreg VNone) in H, H'.
  destruct H as (n & parts & Hp & ->), H' as (n' & parts' & Hp' & ->). f_equal.
  assert (Hup : forall n ps, Forall2 (field_part E n VNone d) (k_comps (cls E cid)) ps -> forall n'', (n <= n'')%nat ->
            Forall2 (field_part E n'' VNone d) (k_comps (cls E cid)) ps).
  { intros a ps Ha b Hb. eapply forall2_impl; [|exact Ha]. intros x y Hxy. apply (field_part_mono E a); auto. }
  apply (Hup _ _) with (n'' := Nat.max n n') in Hp; [|lia]. apply (Hup _ _) with (n'' := Nat.max n n') in Hp'; [|lia].
  revert Hp parts' Hp'. generalize (Nat.max n n') as N. generalize (k_comps (cls E cid)) as fs.
  intros fs N Hp. induction Hp as [|nf b fs parts Hb _ IH]; intros parts' Hp'; inversion Hp' as [|? b' ? ps Hb' Hps]; subst; auto.
  f_equal; auto. destruct Hb as (v & Hv & Hc), Hb' as (w & Hw & Hc'). rewrite Hv in Hw. injection Hw as <-.
  destruct Hc as [[-> ->]|[Hne Ht]], Hc' as [[Hx ->]|[Hne' Ht']]; try congruence.
Qed.

Lemma wire_reads E last cid m bs : regular_struct E cid m -> holds_struct E last cid m ->
  all_accepted (cls E cid) m -> wire_fields E m (k_comps (cls E cid)) bs ->
  exists vals d, instance_of E cid vals /\ same_data (VDict m) (VDict d)
    /\ (forall ctx pre suf, (last = true -> suf = []) -> exists N, forall n, (N <= n)%nat ->
          struct_from_stream E n cid ctx [] (at_data pre bs suf) = (after_data pre bs suf, Ok vals))
    /\ exists N, forall n, (N <= n)%nat -> to_dict E n cid vals false = Ok d.
Proof.
  intros Hreg Hh Ha Hw.
  assert (Hs : exists n, struct_to_stream E n cid m VNone = (bs, Ok tt)).
  { apply struct_iff; auto. intros b. apply (proj2 (wire_iff E)); auto. }
  destruct Hs as [n Hs]. destruct (reg_to_dict E cid m Hreg) as [N HN].
  apply (struct_roundtrip E (Nat.max n N) last cid m VNone bs m).
  - apply reg_instance; auto.
  - apply struct_dump_iff in Hs. destruct Hs as (all & parts & Hv & Htd & Hp & ->).
    apply struct_dump_iff. exists all, parts. split; [|split; [|split; auto]].
    + apply validate_contents_iff. apply validate_contents_iff in Hv.
      apply (rle_ok _ _ _ (validate_contents_mono E n (Nat.max n N) cid m ltac:(lia)) Hv).
    + apply (rle_ok _ _ _ (to_dict_mono E n (Nat.max n N) cid m false ltac:(lia)) Htd).
    + eapply forall2_impl; [|exact Hp]. intros x y Hxy. apply (field_part_mono E n); auto. lia.
  - apply HN. lia.
  - exact Hh.
Qed.

Lemma instance_iff E cid m ctx bs : regular_struct E cid m ->
  (exists n, struct_to_stream E n cid m ctx = (bs, Ok tt))
  <-> all_accepted (cls E cid) m /\ wire_fields E m (k_comps (cls E cid)) bs.
Proof. intros Hreg. apply struct_iff; auto. intros b. apply (proj2 (wire_iff E)); auto. Qed.

Lemma field_iff E d f v ctx bs : regular E d f v -> dumps_to E f v ctx d bs <-> wire E d f v bs.
Proof. intros Hreg. apply (proj1 (wire_iff E)); auto. Qed.
