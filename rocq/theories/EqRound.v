(** Comparing an instance with what its dump loads as (C76). *)
From Verif Require Import Tac FieldProofs FieldMore StructProofs FuelProofs ToDictProofs EqProofs ContainerProofs RoundProofs.
From Verif Require Import SpecEq.
Open Scope Z_scope.

(** ** Data of the round trip can be compared *)
Lemma leaf_comparable c d k v : leaf_suits c d k v -> comparable v.
Proof. intros H. apply (suits_comparable _ _ _ _ H). Qed.

Lemma holds_comparable E :
  (forall known last d f v, suits E known last d f v -> comparable v)
  /\ (forall known last d f v, holds E known last d f v -> comparable v)
  /\ (forall last cid m, holds_struct E last cid m -> comparable (VDict m)).
Proof.
  apply suits_all; intros; auto.
  - constructor. exact I.
  - eapply leaf_comparable; eauto.
  - apply cmp_list. auto.
  - apply cmp_list. auto.
  - apply cmp_list. auto.
  - destruct f as [Hnd Hk]. apply cmp_dict; auto. intros k v Hi. pose proof (in_dget _ _ _ Hnd Hi) as Hg.
    assert (Hin : In k (dkeys m)) by (apply dget_in; eauto). apply Hk in Hin. destruct Hin as (f & Hin & _).
    apply in_split in Hin. destruct Hin as (pre & post & Hin).
    destruct v; try (eapply H; eauto; discriminate). constructor. exact I.
Qed.

Lemma same_data_same a b : same_data a b -> comparable a -> same a b.
Proof.
  intros H. induction H as [v|l m Hl _ IH|d e Hk _ IH]; intros Hc.
  - apply same_refl; auto.
  - inversion Hc as [? Ha| | |? Hin|]; subst; [destruct Ha|]. apply same_list; auto.
    intros i x y Hx Hy. eapply IH; eauto. apply Hin. eapply nth_error_In; eauto.
  - inversion Hc as [? Ha| | | |? Hnd Hin]; subst; [destruct Ha|]. apply same_dict; auto.
    intros k x y Hx Hy. eapply IH; eauto. apply (Hin k). apply dget_In. auto.
Qed.

Lemma same_data_comparable a b : same_data a b -> comparable a -> unique b -> comparable b.
Proof.
  intros H. induction H as [v|l m Hl _ IH|d e Hk _ IH]; intros Hc Hu; auto.
  - inversion Hc as [? Ha| | |? Hin|]; subst; [destruct Ha|].
    inversion Hu as [? Ha| |? Hq|]; subst; [destruct Ha|]. apply cmp_list. intros y Hy.
    apply In_nth_error in Hy. destruct Hy as [i Hi].
    destruct (nth_error l i) as [x|] eqn:Hx.
    + apply (IH i x y Hx Hi); [apply Hin|apply Hq]; eapply nth_error_In; eauto.
    + apply nth_error_None in Hx. assert (i < length m)%nat by (apply nth_error_Some; congruence). lia.
  - inversion Hc as [? Ha| | | |? Hnd Hin]; subst; [destruct Ha|].
    inversion Hu as [? Ha| | |? Hnd' Hq]; subst; [destruct Ha|]. apply cmp_dict; auto.
    intros k y Hi. pose proof (in_dget _ _ _ Hnd' Hi) as Hy. destruct (dget d k) as [x|] eqn:Hx.
    + apply (IH k x y Hx Hy); [apply (Hin k)|apply (Hq k)]; apply dget_In; auto.
    + apply Hk in Hx. congruence.
Qed.

(** ** The views *)
Lemma set_values_in vals k : NoDup (dkeys vals) ->
  dget (set_values vals) k = match dget vals k with Some v => if is_undefined v then None else Some v | None => None end.
Proof.
  unfold set_values. induction vals as [|[k' v] vals IH]; intros Hnd; auto. inversion Hnd as [|? ? Hni Hnd']; subst.
  cbn [filter snd dget]. destruct (is_undefined v) eqn:Hu; cbn [negb].
  - rewrite IH by auto. destruct (String.eqb_spec k' k) as [->|]; auto. rewrite Hu.
    rewrite (proj2 (dget_none_keys vals k) Hni). reflexivity.
  - cbn [dget]. destruct (String.eqb_spec k' k); [rewrite Hu|]; auto.
Qed.

Lemma set_values_nodup vals : NoDup (dkeys vals) -> NoDup (dkeys (set_values vals)).
Proof. apply nodup_filter_keys. Qed.

(** The loaded instance. *)
Lemma loaded_view E cid d vals : loaded_as E (VDict d) (VStruct cid vals) ->
  (forall k, dget d k <> Some VNotPresent) ->
  exists N u, view E N (VStruct cid vals) u /\ same_data (VDict d) (VDict u) /\ unique (VDict u)
    /\ (forall k, dget u k = None <-> dget vals k = None).
Proof.
  intros H Hp. inversion H as [| |? ? ? Hc Hm Hv He Hld]; subst.
  pose proof Hv as (_ & Hnd & Hincl).
  assert (Hx : forall k y, dget vals k = Some y -> exists x, dget d k = Some x /\ loaded_as E x y).
  { intros k y Hy. assert (Hk : In k (dkeys vals)) by (apply dget_in; eauto). apply Hincl in Hk.
    apply in_map_iff in Hk. destruct Hk as ([k' f] & Hk & Hf). cbn in Hk. subst k'.
    destruct (He k f Hf) as [(_ & _ & Hn & _)|[(_ & Hn & _)|(_ & _ & x & y' & Hx & Hy' & Hne)]];
      [congruence|destruct (Hp k Hn)|]. exists x. split; auto. eapply Hld; eauto. }
  assert (Hset : set_values vals = vals).
  { unfold set_values. assert (Ha : forall kv, In kv vals -> is_undefined (snd kv) = false).
    { intros [k y] Hi. cbn [snd]. apply in_dget in Hi; auto. destruct (Hx k y Hi) as (x & _ & Hl).
      apply (loaded_data _ _ _ Hl). }
    clear - Ha. induction vals as [|kv vals IH]; auto. cbn [filter]. rewrite (Ha kv) by (left; auto). cbn [negb].
    f_equal. apply IH. intros ? ?. apply Ha. right; auto. }
  destruct (common_fuel (fun n kv => exists x u, dget d (fst kv) = Some x
      /\ recursive_to_dicts E n (snd kv) = Ok u /\ same_data x u /\ unique u) vals) as [N HN].
  { intros n m kv Hn (x & u & Hxx & Hu & Hr). exists x, u. split; auto. split; auto. eapply rtd_up; eauto. }
  { intros [k y] Hi. cbn [fst snd]. apply in_dget in Hi; auto. destruct (Hx k y Hi) as (x & Hxx & Hl).
    destruct (converts E x y Hl) as (n & u & Hu & Hs). exists n, x, u. auto. }
  destruct (dicts_total E N vals) as [u Hu].
  { intros kv Hi. destruct (HN kv Hi) as (x & w & _ & Hw & _). eauto. }
  pose proof (dicts_of_keys _ _ _ _ Hu) as Hkeys. exists N, u.
  assert (Hnone : forall k, dget u k = None <-> dget vals k = None).
  { intros k. rewrite !dget_none_keys, Hkeys. tauto. }
  assert (Hsome : forall k z, dget u k = Some z -> exists x, dget d k = Some x /\ same_data x z /\ unique z).
  { intros k z Hz. pose proof (dicts_of_get _ _ _ _ Hu k) as Hg. destruct (dget vals k) as [y|] eqn:Hy; [|congruence].
    destruct Hg as (z' & Hz' & Hg). assert (z' = z) as -> by congruence.
    destruct (HN (k, y)) as (x & w & Hxx & Hw & Hs & Hq); [apply dget_In; auto|]. cbn [fst snd] in *.
    exists x. split; auto. assert (w = z) as -> by congruence. auto. }
  split; [constructor; rewrite Hset; auto|]. split; [|split; auto].
  - apply data_dict.
    + intros k. rewrite Hnone. split; intros Hn.
      * destruct (dget vals k) as [y|] eqn:Hy; auto. destruct (Hx k y Hy) as (x & Hxx & _). congruence.
      * destruct (dget d k) as [x|] eqn:Hxx; auto. destruct Hm as (_ & _ & Hinclm).
        assert (Hk : In k (dkeys d)) by (apply dget_in; eauto). apply Hinclm in Hk.
        apply in_map_iff in Hk. destruct Hk as ([k' f] & Hk & Hf). cbn in Hk. subst k'.
        destruct (He k f Hf) as [(_ & Hz & _)|[(_ & Hz & _)|(_ & _ & x' & y' & _ & Hy' & _)]];
          [congruence|destruct (Hp k Hz)|congruence].
    + intros k x z Hxx Hz. destruct (Hsome k z Hz) as (x' & Hx' & Hs & _). congruence.
  - apply unique_dict; [rewrite Hkeys; auto|]. intros k z Hi. apply in_dget in Hi; [|rewrite Hkeys; auto].
    destruct (Hsome k z Hi) as (_ & _ & _ & Hq). auto.
Qed.

(** The original: what is set agrees with [to_dict]. *)
Lemma set_in_dict E n cid vals d name v z : instance_of E cid vals -> to_dict E n cid vals false = Ok d ->
  (forall k, dget d k <> Some VNotPresent) -> dget (set_values vals) name = Some v -> dget d name = Some z ->
  recursive_to_dicts E n v = Ok z.
Proof.
  intros Hi Htd Hp Hv Hz. pose proof Hi as (Hwf & Hnd & Hincl).
  destruct (to_dict_spec E n cid vals false d Hi Htd) as (w & Hw & raw & Hraw & _ & Hkeys & Hval).
  pose proof (dicts_of_get _ _ _ _ Hraw name) as Hg. destruct (dget raw name) as [x|] eqn:Hx; [|congruence].
  destruct Hg as (z' & Hz' & Hg). assert (z' = z) as -> by congruence.
  rewrite set_values_in in Hv by auto. destruct (dget vals name) as [v'|] eqn:Hv'; [|discriminate].
  destruct (is_undefined v') eqn:Hu; [discriminate|]. injection Hv as ->.
  assert (Hk : In name (dkeys vals)) by (apply dget_in; eauto). apply Hincl in Hk.
  apply in_map_iff in Hk. destruct Hk as ([k' f] & Hk & Hf). cbn in Hk. subst k'.
  assert (Hwx : dget w name = Some v \/ dget w name = Some VNotPresent).
  { pose proof (whatever_spec E n cid vals w Hi Hw) as (_ & _ & Hspec). specialize (Hspec name f Hf).
    assert (Hmem : struct_mem vals name = true) by (eapply mem_stored; eauto).
    destruct (bound_assoc _ _ _ (well_formed_bound _ Hwf) Hf) as [Ha Hn].
    destruct (run_struct E n cid vals (compute_value_for_dump (conf f) VNone)) as [r|e|] eqn:Hr; [| |destruct Hspec].
    - unfold run_struct in Hr. rewrite run_compute in Hr. fold (run_struct E n cid vals (stored_or_fallback (conf f))) in Hr.
      rewrite (struct_value E n cid vals name f Hwf Hi Hf true) in Hr by auto.
      rewrite (struct_get_stored E n cid vals name f v Ha Hn Hv') in Hr.
      destruct (is_not_present v); [injection Hr as <-; auto|].
      destruct (run_q _ _ _ (c_present (conf f) VNone None)) as [[]| |]; try discriminate; [|injection Hr as <-; auto].
      rewrite Hu in Hr. injection Hr as <-. auto.
    - destruct Hspec as [_ Hspec]. rewrite Hmem, Hv' in Hspec. auto. }
  destruct (Hval name f x Hf Hx) as [Hwn|[Hwn _]]; [|destruct Hwx; congruence].
  destruct Hwx as [Hwx|Hwx]; [congruence|]. assert (x = VNotPresent) as -> by congruence.
  destruct n; [discriminate Hz'|]. injection Hz' as <-. destruct (Hp name Hz).
Qed.

Lemma set_view E n cid vals d : instance_of E cid vals -> to_dict E n cid vals false = Ok d ->
  (forall k, dget d k <> Some VNotPresent) -> filled (cls E cid) (set_values vals) ->
  exists u, view E n (VStruct cid vals) u /\ NoDup (dkeys u) /\ forall k, dget u k = dget d k.
Proof.
  intros Hi Htd Hp [Hnd Hfill]. pose proof Hi as (Hwf & _ & _). pose proof (well_formed_bound _ Hwf) as Hb.
  destruct (to_dict_keys E n cid vals false d Hi Htd) as (HndD & HkD).
  assert (Hkeys : forall k, In k (dkeys (set_values vals)) <-> In k (dkeys d)).
  { intros k. rewrite Hfill, HkD. split; intros (f & Hf & Hd); exists f; auto.
    destruct Hd as [Hd|Hd]; [discriminate|auto]. }
  destruct (dicts_total E n (set_values vals)) as [u Hu].
  { intros [k v] Hin. cbn [snd]. assert (Hk : In k (dkeys d)) by (apply Hkeys, in_map_iff; exists (k, v); auto).
    apply dget_in in Hk. destruct Hk as [z Hz]. exists z. eapply set_in_dict; eauto. apply in_dget; auto. }
  pose proof (dicts_of_keys _ _ _ _ Hu) as Hk. exists u. split; [constructor; auto|].
  split; [rewrite Hk; auto|]. intros k. pose proof (dicts_of_get _ _ _ _ Hu k) as Hg.
  destruct (dget (set_values vals) k) as [v|] eqn:Hv.
  - destruct Hg as (z & Hz & Hg). rewrite Hg.
    assert (Hkd : In k (dkeys d)) by (apply Hkeys, dget_in; eauto). apply dget_in in Hkd. destruct Hkd as [z' Hz'].
    pose proof (set_in_dict E n cid vals d k v z' Hi Htd Hp Hv Hz'). congruence.
  - rewrite Hg. symmetry. apply dget_none_keys. intros Hin. apply Hkeys in Hin. apply dget_in in Hin. destruct Hin. congruence.
Qed.

(** ** Equality *)
Lemma dict_eq_incl eqv d e : dict_eq_with eqv d e = Ok true -> incl (dkeys d) (dkeys e).
Proof.
  induction d as [|[k x] d IH]; cbn [dict_eq_with]; [intros _ ? []|].
  destruct (dget e k) as [y|] eqn:Hy; [|discriminate]. destruct (eqv x y) as [[]| |]; cbn [bind]; try discriminate.
  intros H k' [<-|Hk]; [apply dget_in; eauto|apply IH; auto].
Qed.

Lemma dict_eq_keys E n d e : NoDup (dkeys d) -> NoDup (dkeys e) -> py_eq E n (VDict d) (VDict e) = Ok true ->
  forall k, In k (dkeys d) <-> In k (dkeys e).
Proof.
  intros Hd He H. destruct n; [discriminate|]. cbn [py_eq] in H.
  destruct (Z.eqb_spec (zlen d) (zlen e)) as [Hl|]; cbn [negb] in H; [|discriminate].
  apply dict_eq_incl in H. intros k. split; [apply H|]. unfold zlen in Hl.
  apply NoDup_length_incl; auto. unfold dkeys. rewrite !map_length. lia.
Qed.

Lemma loaded_keys E cid d vals : loaded_as E (VDict d) (VStruct cid vals) ->
  forall k, In k (dkeys vals) <-> exists f, In (k, f) (k_comps (cls E cid)) /\ c_discard (conf f) = false.
Proof.
  intros H k. inversion H as [| |? ? ? Hc Hm Hv He Hld]; subst. pose proof Hv as (_ & Hnd & Hincl). split.
  - intros Hk. pose proof (Hincl _ Hk) as Hk'. apply in_map_iff in Hk'. destruct Hk' as ([k' f] & He' & Hf).
    cbn in He'. subst k'. exists f. split; auto. apply dget_in in Hk. destruct Hk as [y Hy].
    destruct (He k f Hf) as [(_ & _ & Hn & _)|[(Hd & _)|(Hd & _)]]; auto. congruence.
  - intros (f & Hf & Hd). apply dget_in.
    destruct (He k f Hf) as [(Hd' & _)|[(_ & _ & _ & y & Hy & _)|(_ & _ & x & y & _ & Hy & _)]]; eauto. congruence.
Qed.

Theorem equal_after E n last cid vals ctx bs d : instance_of E cid vals ->
  struct_to_stream E n cid vals ctx = (bs, Ok tt) -> to_dict E n cid vals false = Ok d ->
  holds_struct E last cid d -> (forall k, dget d k <> Some VNotPresent) ->
  exists vals', instance_of E cid vals'
    /\ (forall ctx' pre suf, (last = true -> suf = []) -> exists N, forall n', (N <= n')%nat ->
          struct_from_stream E n' cid ctx' [] (at_data pre bs suf) = (after_data pre bs suf, Ok vals'))
    /\ forall m r, py_eq E m (VStruct cid vals) (VStruct cid vals') = Ok r
         \/ py_eq E m (VStruct cid vals') (VStruct cid vals) = Ok r ->
         (r = true <-> filled (cls E cid) (set_values vals)).
Proof.
  intros Hi Hs Htd Hh Hp. pose proof Hs as Hs'.
  apply struct_dump_iff in Hs'. destruct Hs' as (all & parts & _ & Htd' & Hparts & ->).
  rewrite Htd in Htd'. injection Htd' as <-.
  destruct (proj2 (proj2 (suits_rt E)) last cid d Hh n ctx parts Hparts) as (vals' & Hla & Hkv & Hgo).
  exists vals'. split; [exact Hkv|]. split; [exact Hgo|].
  destruct (loaded_view E cid d vals' Hla Hp) as (N & u & Vu & Hdu & Huq & Hku).
  pose proof (loaded_keys E cid d vals' Hla) as Hkl.
  assert (Hcd : comparable (VDict d)) by (apply (proj2 (proj2 (holds_comparable E)) last cid d); auto).
  assert (Hcu : comparable (VDict u)) by (eapply same_data_comparable; eauto).
  assert (Hsd : same (VDict d) (VDict u)) by (apply same_data_same; auto).
  assert (Hnu : NoDup (dkeys u)) by (inversion Hcu as [? Ha| | | |? Hnd _]; subst; [destruct Ha|auto]).
  assert (Hsv : NoDup (dkeys (set_values vals))) by (apply set_values_nodup; apply Hi).
  assert (Hmain : forall m da db r, view E m (VStruct cid vals) da -> view E m (VStruct cid vals') db ->
    (py_eq E m (VDict da) (VDict db) = Ok r \/ py_eq E m (VDict db) (VDict da) = Ok r) ->
    (r = true <-> filled (cls E cid) (set_values vals))).
  { intros m da db r Va Vb Hr. assert (db = u) as -> by (eapply view_det; eauto).
    assert (Hka : dkeys da = dkeys (set_values vals)) by (inversion Va; subst; eapply dicts_of_keys; eauto).
    assert (Hna : NoDup (dkeys da)) by (rewrite Hka; auto). split.
    - intros ->. split; auto. intros name. rewrite <- Hkl, <- Hka.
      assert (Hk : In name (dkeys da) <-> In name (dkeys u)).
      { destruct Hr as [Hr|Hr]; [|symmetry]; eapply dict_eq_keys; eauto. }
      rewrite Hk. pose proof (Hku name) as Hx. rewrite !dget_none_keys in Hx.
      destruct (in_dec String.string_dec name (dkeys u)), (in_dec String.string_dec name (dkeys vals')); tauto.
    - intros Hf. destruct (set_view E n cid vals d Hi Htd Hp Hf) as (da' & Va' & Hna' & Hg).
      assert (da' = da) as -> by (eapply view_det; eauto).
      assert (Hsa : same (VDict da) (VDict u)).
      { destruct (same_dict_inv _ _ Hsd) as [H1 H2]. apply same_dict; intros k; rewrite Hg; [apply H1|apply H2]. }
      assert (Hca : comparable (VDict da)).
      { inversion Hcd as [? Ha| | | |? Hnd Hin]; subst; [destruct Ha|]. apply cmp_dict; auto.
        intros k x Hx. apply in_dget in Hx; auto. rewrite Hg in Hx. apply (Hin k). apply dget_In; auto. }
      destruct Hr as [Hr|Hr].
      + apply (py_eq_same E m (VDict da) (VDict u) r Hca Hcu Hr); auto.
      + apply (py_eq_same E m (VDict u) (VDict da) r Hcu Hca Hr). apply same_sym; auto. }
  intros m r Hr. destruct m as [|m]; [destruct Hr; discriminate|].
  destruct Hr as [Hr|Hr]; apply eq_views in Hr; auto; try (left; exact I).
  - destruct Hr as (da & db & Va & Vb & Hr). eapply Hmain; eauto.
  - destruct Hr as (db & da & Vb & Va & Hr). eapply Hmain; eauto. tauto.
Qed.
