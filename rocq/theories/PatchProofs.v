(** Changing some values leaves the data of independent fields alone (C83). *)
From Coq Require Import ZArith List String Lia.
From Verif Require Import Tac FieldProofs StructProofs ToDictProofs SizeProofs InheritProofs.
From Verif Require Export SpecPatch.
Import ListNotations.

Section Patch.
Variable E : env.
Variable cid : nat.
Variable names : list string.
Hypothesis Hwf : well_formed (cls E cid).
Hypothesis Hind : independent (cls E cid) names.

Lemma comp_in name f : In (name, f) (comps E cid) -> cname f = name /\ c_name (conf f) = Some name.
Proof.
  intros Hi. destruct Hwf as (_ & Hb & _). rewrite Forall_forall in Hb. specialize (Hb _ Hi). cbn [fst snd] in Hb.
  unfold cname, name_of. rewrite Hb. auto.
Qed.

Lemma comp_looks name f ctx : In (name, f) (comps E cid) -> In name names ->
  looks_at names (compute_value_for_dump (conf f) ctx).
Proof.
  intros Hi Hn. destruct (comp_in _ _ Hi) as [_ Hx]. destruct (Hind _ _ Hi Hn) as (_ & Hp & Hq).
  eapply compute_looks; eauto.
Qed.

Lemma mem_agree vals vals' : NoDup (dkeys vals) -> NoDup (dkeys vals') -> agree names vals vals' ->
  forall name, In name names -> struct_mem vals name = struct_mem vals' name.
Proof.
  intros H1 H2 Ha name Hn. apply eq_true_iff_eq. rewrite !struct_mem_in, !struct_keys_in by auto.
  rewrite (Ha name Hn). tauto.
Qed.

Lemma get_agree vals vals' : NoDup (dkeys vals) -> NoDup (dkeys vals') -> agree names vals vals' ->
  forall n name, In name names -> struct_get E n cid vals name = struct_get E n cid vals' name.
Proof.
  intros H1 H2 Ha. induction n as [|n IH]; intros name Hn; cbn [struct_get];
    destruct (assoc (comps E cid) name) as [f|] eqn:Hf; auto; apply assoc_in in Hf;
    destruct (comp_in _ _ Hf) as [_ Hx]; unfold name_of; rewrite Hx; cbn [oget]; rewrite (Ha name Hn);
    destruct (dget vals' name); auto.
  eapply looks_same; [eapply comp_looks; eauto| |].
  - apply mem_agree; auto.
  - apply IH.
Qed.

Lemma run_agree {A} vals vals' n (q : query A) : NoDup (dkeys vals) -> NoDup (dkeys vals') ->
  agree names vals vals' -> looks_at names q -> run_struct E n cid vals q = run_struct E n cid vals' q.
Proof.
  intros H1 H2 Ha Hq. unfold run_struct. eapply looks_same; eauto.
  - apply mem_agree; auto.
  - apply get_agree; auto.
Qed.

Lemma names_in name : In name (map fst (comps E cid)) -> exists f, In (name, f) (comps E cid).
Proof. intros H. apply in_map_iff in H. destruct H as ([k f] & <- & Hi). eauto. Qed.

Lemma out_of_fields w name : incl (dkeys w) (map fst (comps E cid)) -> ~ In name (map fst (comps E cid)) ->
  dget w name = None.
Proof. intros Hi Hn. apply dget_none. intros H. apply Hn, Hi, H. Qed.

Lemma whatever_agree vals vals' n w w' : instance_of E cid vals -> instance_of E cid vals' ->
  agree names vals vals' -> to_dict_whatever_possible E n cid vals = Ok w ->
  to_dict_whatever_possible E n cid vals' = Ok w' -> agree names w w'.
Proof.
  intros Hi Hi' Ha Hw Hw'. destruct (whatever_spec _ _ _ _ _ Hi Hw) as (_ & Hk & Hs).
  destruct (whatever_spec _ _ _ _ _ Hi' Hw') as (_ & Hk' & Hs'). intros name Hn.
  destruct (in_dec string_dec name (map fst (comps E cid))) as [Hin|Hout].
  - destruct (names_in _ Hin) as [f Hf]. specialize (Hs _ _ Hf). specialize (Hs' _ _ Hf).
    destruct Hi as (_ & Hnd & _). destruct Hi' as (_ & Hnd' & _).
    rewrite <- (run_agree vals vals' n) in Hs' by (eauto using comp_looks).
    destruct (run_struct E n cid vals (compute_value_for_dump (conf f) VNone)) as [v|e|]; [congruence| |contradiction].
    destruct Hs as [_ Hs]. destruct Hs' as [_ Hs']. rewrite Hs, Hs'.
    rewrite <- (mem_agree vals vals') by auto. rewrite (Ha name Hn). reflexivity.
  - rewrite !out_of_fields; auto.
Qed.

Lemma to_dict_agree vals vals' n keep d d' : instance_of E cid vals -> instance_of E cid vals' ->
  agree names vals vals' -> to_dict E n cid vals keep = Ok d -> to_dict E n cid vals' keep = Ok d' ->
  agree names d d'.
Proof.
  intros Hi Hi' Ha Hd Hd'. destruct (to_dict_spec _ _ _ _ _ _ Hi Hd) as (w & Hw & raw & Hr & _ & Hk & Hs).
  destruct (to_dict_spec _ _ _ _ _ _ Hi' Hd') as (w' & Hw' & raw' & Hr' & _ & Hk' & Hs').
  pose proof (whatever_agree _ _ _ _ _ Hi Hi' Ha Hw Hw') as Haw. intros name Hn.
  assert (Hraw : dget raw name = dget raw' name).
  { destruct (dget raw name) as [v|] eqn:Hv.
    - assert (Hin : In name (dkeys raw)) by (apply dget_in; eauto). apply Hk in Hin. pose proof Hin as [Hin1 _].
      apply Hk' in Hin. apply dget_in in Hin. destruct Hin as [v' Hv']. rewrite Hv'. f_equal.
      destruct (names_in _ Hin1) as [f Hf]. specialize (Hs _ _ _ Hf Hv). specialize (Hs' _ _ _ Hf Hv').
      rewrite <- (Haw name Hn) in Hs'. destruct Hs as [Hs|[Hs1 Hs2]], Hs' as [Hs'|[Hs1' Hs2']]; try congruence.
      rewrite <- (agree_dict names w w') in Hs2' by (eauto using comp_looks). congruence.
    - symmetry. apply dget_none. intros Hin. apply Hk' in Hin. apply Hk in Hin. apply dget_in in Hin.
      destruct Hin. congruence. }
  pose proof (dicts_of_get _ _ _ _ Hr name) as G. pose proof (dicts_of_get _ _ _ _ Hr' name) as G'.
  rewrite Hraw in G. destruct (dget raw' name) as [v|]; [|congruence].
  destruct G as (x & Hx & ->). destruct G' as (x' & Hx' & ->). congruence.
Qed.

Lemma part_same n ctx all all' name f b b' : agree names all all' ->
  In (name, f) (k_comps (cls E cid)) -> In name names ->
  field_part E n ctx all (name, f) b -> field_part E n ctx all' (name, f) b' -> b = b'.
Proof.
  intros Ha Hi Hn (v & Hv & Hb) (v' & Hv' & Hb'). cbn [snd] in *.
  rewrite <- (agree_dict names all all') in Hv' by (eauto using comp_looks).
  rewrite Hv in Hv'. injection Hv' as <-.
  destruct (Hind _ _ Hi Hn) as [Hc _].
  destruct Hb as [[-> ->]|[Hne Hb]], Hb' as [[Hx ->]|[Hne' Hb']]; auto; try congruence.
  rewrite <- (field_agree E names n f v ctx all all') in Hb' by auto. congruence.
Qed.

Lemma dump_same n vals vals' ctx out out' : instance_of E cid vals -> instance_of E cid vals' ->
  agree names vals vals' ->
  struct_to_stream E n cid vals ctx = (out, Ok tt) -> struct_to_stream E n cid vals' ctx = (out', Ok tt) ->
  exists all all' parts parts', to_dict E n cid vals false = Ok all /\ to_dict E n cid vals' false = Ok all'
    /\ Forall2 (field_part E n ctx all) (k_comps (cls E cid)) parts /\ out = concat parts
    /\ Forall2 (field_part E n ctx all') (k_comps (cls E cid)) parts' /\ out' = concat parts'
    /\ agree names all all'
    /\ forall i name f, nth_error (k_comps (cls E cid)) i = Some (name, f) -> In name names ->
         nth_error parts i = nth_error parts' i.
Proof.
  intros Hi Hi' Ha Hd Hd'. apply struct_dump_iff in Hd. destruct Hd as (all & parts & _ & Hall & Hp & ->).
  apply struct_dump_iff in Hd'. destruct Hd' as (all' & parts' & _ & Hall' & Hp' & ->).
  pose proof (to_dict_agree _ _ _ _ _ _ Hi Hi' Ha Hall Hall') as Hag.
  exists all, all', parts, parts'. repeat (split; auto).
  assert (Hin : incl (k_comps (cls E cid)) (k_comps (cls E cid))) by (intros x; auto).
  revert Hin parts parts' Hp Hp'. generalize (k_comps (cls E cid)) at 1 3 4 5 as fs.
  induction fs as [|[k g] fs IH]; intros Hin parts parts' Hp Hp' i name f Hi1 Hn;
    [destruct i; discriminate|].
  inversion Hp as [|? b ? parts1 Hb Hp1]; subst. inversion Hp' as [|? b' ? parts1' Hb' Hp1']; subst.
  destruct i as [|i]; cbn [nth_error] in *.
  - injection Hi1 as -> ->. f_equal. eapply (part_same n ctx all all'); eauto. apply Hin. left; auto.
  - eapply IH; eauto. intros x Hx. apply Hin. right; auto.
Qed.

End Patch.

Lemma others_in E cid name x : In x (others (cls E cid) name) <-> In x (map fst (k_comps (cls E cid))) /\ x <> name.
Proof.
  unfold others. rewrite filter_In. destruct (String.eqb_spec x name); cbn [negb]; intuition congruence.
Qed.

Lemma parts_fixed E n ctx all pre zs ps : fixed_sizes pre zs -> Forall2 (field_part E n ctx all) pre ps ->
  (forall name f, In (name, f) pre -> written ctx all f) -> zlen (concat ps) = sum zs.
Proof.
  intros Hz Hp Hw. rewrite zlen_concat. f_equal. revert zs Hz Hw. induction Hp as [|[name f] b fs ps Hb Hp IH];
    intros zs Hz Hw; inversion Hz as [|? z ? zs' Hz1 Hz']; subst; auto. cbn [map]. f_equal.
  - eapply part_fixed; eauto. eapply Hw. left; eauto.
  - apply IH; auto. intros. eapply Hw. right; eauto.
Qed.

(** Two instances that differ in one field that no other field depends on. *)
Lemma dump_patch E n cid vals vals' ctx out out' pre name f post : well_formed (cls E cid) ->
  k_comps (cls E cid) = pre ++ (name, f) :: post ->
  independent (cls E cid) (others (cls E cid) name) ->
  instance_of E cid vals -> instance_of E cid vals' -> (forall x, x <> name -> dget vals x = dget vals' x) ->
  struct_to_stream E n cid vals ctx = (out, Ok tt) -> struct_to_stream E n cid vals' ctx = (out', Ok tt) ->
  exists a b b' c all all', out = a ++ b ++ c /\ out' = a ++ b' ++ c
    /\ to_dict E n cid vals false = Ok all /\ to_dict E n cid vals' false = Ok all'
    /\ field_part E n ctx all (name, f) b /\ field_part E n ctx all' (name, f) b'
    /\ exists ps qs, Forall2 (field_part E n ctx all) pre ps /\ a = concat ps
       /\ Forall2 (field_part E n ctx all) post qs /\ c = concat qs.
Proof.
  intros Hwf Hk Hind Hi Hi' Hd Ho Ho'.
  assert (Ha : agree (others (cls E cid) name) vals vals').
  { intros x Hx. apply others_in in Hx. apply Hd. tauto. }
  destruct (dump_same E cid _ Hwf Hind n vals vals' ctx out out' Hi Hi' Ha Ho Ho')
    as (all & all' & parts & parts' & Hall & Hall' & Hp & -> & Hp' & -> & Hag & _).
  rewrite Hk in Hp, Hp'. apply Forall2_app_inv_l in Hp. destruct Hp as (ps & r & Hps & Hr & ->).
  apply Forall2_app_inv_l in Hp'. destruct Hp' as (ps' & r' & Hps' & Hr' & ->).
  inversion Hr as [|? b ? qs Hb Hqs]; subst. inversion Hr' as [|? b' ? qs' Hb' Hqs']; subst.
  assert (Hnd : NoDup (map fst pre ++ name :: map fst post)).
  { destruct Hwf as (Hnd & _). rewrite Hk, map_app in Hnd. exact Hnd. }
  apply NoDup_remove_2 in Hnd.
  assert (Hsame : forall fs ps ps', incl fs (k_comps (cls E cid)) -> ~ In name (map fst fs) ->
    Forall2 (field_part E n ctx all) fs ps -> Forall2 (field_part E n ctx all') fs ps' -> ps = ps').
  { intros fs xs. revert fs. induction xs as [|x xs IH]; intros fs xs' Hin Hni Hx Hx'; inversion Hx; subst;
      inversion Hx'; subst; auto. destruct x0 as [k g]. cbn [map fst In] in Hni. f_equal.
    - eapply (part_same E cid _ Hwf Hind n ctx all all'); eauto; [apply Hin; left; auto|].
      apply others_in. split; [|intros ->; apply Hni; auto]. change k with (fst (k, g)). apply in_map, Hin. left; auto.
    - eapply (IH l); eauto. intros w Hw. apply Hin. right; auto. }
  assert (ps = ps') as <-.
  { apply (Hsame pre); auto; [rewrite Hk; intros x Hx; apply in_or_app; auto|].
    intros Hx. apply Hnd, in_or_app. auto. }
  assert (qs = qs') as <-.
  { apply (Hsame post); auto; [rewrite Hk; intros x Hx; apply in_or_app; right; right; auto|].
    intros Hx. apply Hnd, in_or_app. auto. }
  exists (concat ps), b, b', (concat qs), all, all'. rewrite !concat_app. cbn [concat].
  repeat (split; auto). exists ps, qs. auto.
Qed.

(** If it has a constant offset and size, the new data is the old data overwritten there. *)
Lemma dump_overwritten E n cid vals vals' ctx out out' all all' pre name f post zs z : well_formed (cls E cid) ->
  k_comps (cls E cid) = pre ++ (name, f) :: post ->
  independent (cls E cid) (others (cls E cid) name) ->
  instance_of E cid vals -> instance_of E cid vals' -> (forall x, x <> name -> dget vals x = dget vals' x) ->
  struct_to_stream E n cid vals ctx = (out, Ok tt) -> struct_to_stream E n cid vals' ctx = (out', Ok tt) ->
  to_dict E n cid vals false = Ok all -> to_dict E n cid vals' false = Ok all' ->
  fixed_sizes pre zs -> (forall x g, In (x, g) pre -> written ctx all g) ->
  c_size (conf f) = SInt z -> written ctx all f -> written ctx all' f ->
  exists b, field_part E n ctx all' (name, f) b /\ zlen b = z
    /\ out' = firstn (Z.to_nat (sum zs)) out ++ b ++ skipn (Z.to_nat (sum zs + z)) out.
Proof.
  intros Hwf Hk Hind Hi Hi' Hd Ho Ho' Hall Hall' Hz Hw Hs Hwf1 Hwf2.
  destruct (dump_patch _ _ _ _ _ _ _ _ _ _ _ _ Hwf Hk Hind Hi Hi' Hd Ho Ho')
    as (a & b & b' & c & al & al' & -> & -> & H1 & H2 & Hb & Hb' & ps & qs & Hps & -> & _ & _).
  rewrite Hall in H1. injection H1 as <-. rewrite Hall' in H2. injection H2 as <-.
  pose proof (parts_fixed _ _ _ _ _ _ _ Hz Hps Hw) as Hla.
  pose proof (part_fixed _ _ _ _ _ _ _ _ Hb Hwf1 Hs) as Hlb. pose proof (part_fixed _ _ _ _ _ _ _ _ Hb' Hwf2 Hs) as Hlb'.
  exists b'. split; auto. split; auto. unfold zlen in *.
  assert (Z.to_nat (sum zs) = length (concat ps)) as -> by lia.
  assert (Z.to_nat (sum zs + z) = length (concat ps ++ b)) as -> by (rewrite app_length; lia).
  rewrite firstn_app, Nat.sub_diag, firstn_all, firstn_O, app_nil_r. f_equal. f_equal.
  rewrite app_assoc, skipn_app, Nat.sub_diag, skipn_all. reflexivity.
Qed.

(** Assigning to the field is such a change. *)
Lemma setitem_instance E cid vals name v vals' : instance_of E cid vals ->
  struct_setitem E cid vals name v = Ok vals' ->
  instance_of E cid vals' /\ forall x, x <> name -> dget vals x = dget vals' x.
Proof.
  intros (Hwf & Hnd & Hin). unfold struct_setitem. destruct (assoc (comps E cid) name) as [f|] eqn:Hf; [|discriminate].
  apply assoc_in in Hf. destruct (comp_in E cid Hwf _ _ Hf) as [_ Hn]. unfold field_set. rewrite Hn.
  match goal with |- (if ?b then _ else _) = _ -> _ => destruct b; [discriminate|] end.
  destruct (run_validators _ _); cbn [bind]; [|discriminate..]. intros [= <-].
  split; [split; [auto|]; split|].
  - rewrite dkeys_dset. destruct (dmem vals name) eqn:Hm; auto. apply nodup_app; auto.
    + constructor; [intros []|constructor].
    + intros x Hx [<-|[]]. apply dmem_in in Hx. congruence.
  - rewrite dkeys_dset. intros x Hx. destruct (dmem vals name); auto. apply in_app_or in Hx.
    destruct Hx as [Hx|[<-|[]]]; auto. change name with (fst (name, f)). apply in_map. exact Hf.
  - intros x Hx. rewrite dget_dset. destruct (String.eqb_spec name x); congruence.
Qed.
