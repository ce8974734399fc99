(** Sizes, lengths and reading single fields (C32, C34). *)
From Verif Require Import Tac.
From Verif Require Export ContainedProofs ArrayProofs.

Section Sizes.
Variable E : env.

(** ---------------------------------------------------------------- get_size *)
Lemma sum_sizes_fixed n fs zs d : fixed_sizes fs zs -> sum_sizes E n fs d = Ok (sum zs).
Proof.
  intros H. induction H as [|[name f] z fs zs Hz _ IH]; cbn [sum_sizes sum fold_right]; auto.
  cbn [snd] in Hz. unfold get_expected_size, ges, get_expected_size_with. rewrite Hz. cbn [bind].
  rewrite IH. auto.
Qed.

Lemma get_size_fixed n cid zs : fixed_sizes (k_comps (cls E cid)) zs -> get_size E n cid = Ok (Some (sum zs)).
Proof. intros H. unfold get_size, get_size_values. rewrite (sum_sizes_fixed _ _ zs); auto. Qed.

Lemma sum_sizes_ok n fs zs d :
  Forall2 (fun nf z => get_expected_size E n (snd nf) d = Ok z) fs zs -> sum_sizes E n fs d = Ok (sum zs).
Proof.
  intros H. induction H as [|[name f] z fs zs Hz _ IH]; cbn [sum_sizes sum fold_right]; auto.
  cbn [snd] in Hz. rewrite Hz. cbn [bind]. rewrite IH. auto.
Qed.

Lemma sum_sizes_fail n pre zs name f post d e :
  Forall2 (fun nf z => get_expected_size E n (snd nf) d = Ok z) pre zs ->
  get_expected_size E n f d = Raise e -> sum_sizes E n (pre ++ (name, f) :: post) d = Raise e.
Proof.
  intros H He. induction H as [|[nm g] z fs zs Hz _ IH]; cbn [app sum_sizes].
  - rewrite He. auto.
  - cbn [snd] in Hz. rewrite Hz. cbn [bind]. rewrite IH. auto.
Qed.

Lemma get_size_ok n cid zs :
  Forall2 (fun nf z => get_expected_size E n (snd nf) [] = Ok z) (k_comps (cls E cid)) zs ->
  get_size E n cid = Ok (Some (sum zs)).
Proof. intros H. unfold get_size, get_size_values. rewrite (sum_sizes_ok _ _ zs); auto. Qed.

Lemma get_size_none n cid pre zs name f post e : k_comps (cls E cid) = pre ++ (name, f) :: post ->
  Forall2 (fun nf z => get_expected_size E n (snd nf) [] = Ok z) pre zs ->
  get_expected_size E n f [] = Raise e ->
  (exists fld, e = EUndefinedSize fld \/ e = EMissingRequired fld) -> get_size E n cid = Ok None.
Proof.
  intros Hk H He [fld Hc]. unfold get_size, get_size_values, comps. rewrite Hk.
  rewrite (sum_sizes_fail _ _ _ _ _ _ _ _ H He). destruct Hc as [-> | ->]; auto.
Qed.

Lemma get_size_raises n cid pre zs name f post e : k_comps (cls E cid) = pre ++ (name, f) :: post ->
  Forall2 (fun nf z => get_expected_size E n (snd nf) [] = Ok z) pre zs ->
  get_expected_size E n f [] = Raise e ->
  ~ (exists fld, e = EUndefinedSize fld \/ e = EMissingRequired fld) -> get_size E n cid = Raise e.
Proof.
  intros Hk H He Hc. unfold get_size, get_size_values, comps. rewrite Hk.
  rewrite (sum_sizes_fail _ _ _ _ _ _ _ _ H He).
  destruct e; auto; destruct Hc; eauto.
Qed.

Lemma zlen_concat (ps : list (list Z)) : zlen (concat ps) = sum (map zlen ps).
Proof.
  induction ps as [|p ps IH]; auto. cbn [concat map sum fold_right]. rewrite zlen_app, IH. auto.
Qed.

Lemma part_fixed n ctx all name f bs z : field_part E n ctx all (name, f) bs ->
  written ctx all f -> c_size (conf f) = SInt z -> zlen bs = z.
Proof.
  intros (v & Hv & Hcase) (w & Hw & Hnp & Hnn & Hd) Hz. cbn [snd] in *.
  rewrite Hv in Hw. injection Hw as <-. destruct Hcase as [[Hx _]|[_ Hx]]; [contradiction|].
  eapply field_dump_size; eauto. left. auto.
Qed.

Lemma dump_fixed n cid vals ctx out all zs : fixed_sizes (k_comps (cls E cid)) zs ->
  struct_to_stream E n cid vals ctx = (out, Ok tt) -> to_dict E n cid vals false = Ok all ->
  (forall name f, In (name, f) (k_comps (cls E cid)) -> written ctx all f) ->
  get_size E n cid = Ok (Some (zlen out)).
Proof.
  intros Hz Hd Ha Hw. rewrite (get_size_fixed n cid zs Hz). f_equal. f_equal.
  apply struct_dump_iff in Hd. destruct Hd as (all' & parts & _ & Ha' & Hp & ->).
  rewrite Ha in Ha'. injection Ha' as <-. rewrite zlen_concat. f_equal.
  revert parts zs Hp Hz Hw. induction (k_comps (cls E cid)) as [|[name f] fs IH];
    intros parts zs Hp Hz Hw; inversion Hp as [|? bs ? parts' Hb Hp']; inversion Hz as [|? z ? zs' Hz1 Hz']; subst; auto.
  cbn [map]. f_equal.
  - symmetry. eapply part_fixed; eauto. eapply Hw. left; eauto.
  - apply IH; auto. intros. eapply Hw. right; eauto.
Qed.

(** ---------------------------------------------------------------- len() *)
Definition field_len (n : nat) (f : field) (w : dict) : res Z :=
  match c_size (conf f) with
  | SInt z => Ok z
  | _ =>
    match get_expected_size E n f w with
    | Raise e =>
      if is_binobj_Error e then
        do v <- run_dict w (compute_value_for_dump (conf f) VNone);
        do bs <- field_to_bytes E n f v VNone [];
        Ok (zlen bs)
      else Raise e
    | r => r
    end
  end.

Lemma len_fields_sum n fs w zs : Forall2 (fun nf z => field_len n (snd nf) w = Ok z) fs zs ->
  len_fields E n fs w = Ok (sum zs).
Proof.
  intros H. induction H as [|[name f] z fs zs Hz _ IH]; cbn [len_fields sum fold_right]; auto.
  cbn [snd] in Hz. unfold field_len in Hz. rewrite Hz. cbn [bind]. rewrite IH. auto.
Qed.

Lemma len_fixed n cid vals w zs : fixed_sizes (k_comps (cls E cid)) zs ->
  to_dict_whatever_possible E n cid vals = Ok w -> 0 <= sum zs ->
  struct_len E n cid vals = Ok (sum zs).
Proof.
  intros Hz Hw Hpos. unfold struct_len. rewrite Hw. cbn [bind].
  rewrite (len_fields_sum _ _ _ zs).
  - cbn [bind]. destruct (sum zs <? 0) eqn:Hn; auto. lia.
  - unfold comps. clear -Hz. induction Hz as [|nf z fs zs Hz _ IH]; constructor; auto.
    unfold field_len. rewrite Hz. auto.
Qed.

Lemma len_negative n cid vals w zs : fixed_sizes (k_comps (cls E cid)) zs ->
  to_dict_whatever_possible E n cid vals = Ok w -> sum zs < 0 ->
  struct_len E n cid vals = Raise EValueErr.
Proof.
  intros Hz Hw Hneg. unfold struct_len. rewrite Hw. cbn [bind].
  rewrite (len_fields_sum _ _ _ zs).
  - cbn [bind]. destruct (sum zs <? 0) eqn:Hn; auto. lia.
  - unfold comps. clear -Hz. induction Hz as [|nf z fs zs Hz _ IH]; constructor; auto.
    unfold field_len. rewrite Hz. auto.
Qed.

Lemma field_len_agrees n f name v w all bs : measurable E f ->
  c_name (conf f) = Some name -> unconditional (conf f) ->
  dget w name = Some v -> dget all name = Some v ->
  v <> VUndefined -> v <> VNotPresent -> v <> VNone -> v <> VDefault ->
  (forall r, c_size (conf f) = SRef r -> dget w r = dget all r) ->
  field_to_stream E n f v VNone all = (bs, Ok tt) -> field_len n f w = Ok (zlen bs).
Proof.
  intros Hm Hname Hun Hw Ha Hu Hnp Hnn Hnd Href Hd. unfold field_len.
  destruct (c_size (conf f)) as [|z|r] eqn:Hs.
  - pose proof Hd as Hi. apply to_stream_ok_inv in Hi.
    destruct Hi as (x & [[_ ->]|[Hx _]] & _ & _ & Hacc & Hcase); [|congruence].
    destruct Hcase as [[Hx _]|(_ & b & Hb & Hsw)]; [congruence|].
    apply sized_write_inv in Hsw. rewrite Hs in Hsw. subst b.
    unfold get_expected_size, ges, get_expected_size_with. rewrite Hs. unfold expected_unsized.
    rewrite Hname. cbn [oget]. rewrite Hw. cbn [bind].
    replace (is_none v) with false by (destruct v; auto; congruence).
    assert (Hg : forall dd, get_expected_size_with dd (conf f) (kind f) all
                  = match size_for_value (conf f) (kind f) v with
                    | Ok (Some z) => Ok z
                    | Ok None => Raise (EUndefinedSize (c_name (conf f)))
                    | Raise e => Raise e | OOF => OOF end).
    { intros dd. unfold get_expected_size_with. rewrite Hs. unfold expected_unsized.
      rewrite Hname. cbn [oget]. rewrite Ha. cbn [bind].
      replace (is_none v) with false by (destruct v; auto; congruence).
      destruct (size_for_value (conf f) (kind f) v) as [[z|]|e|]; auto. }
    destruct f as [c k]. cbn [conf kind] in *.
    assert (Hother : size_for_value c k v = Ok None -> (c_size c = SNone -> self_contained E (Field c k)) ->
      match (do sz <- size_for_value c k v;
             match sz with Some n0 => Ok n0 | None => Raise (EUndefinedSize (Some name)) end) with
      | Raise e => if is_binobj_Error e then
          do v0 <- run_dict w (compute_value_for_dump c VNone);
          do bs0 <- field_to_bytes E n (Field c k) v0 VNone []; Ok (zlen bs0) else Raise e
      | r => r end = Ok (zlen bs)).
    { intros Hsz Hsc. rewrite Hsz. cbn [bind is_binobj_Error].
      rewrite (value_explicit _ _ _ name v); auto; [|apply Hun]. cbn [bind].
      unfold field_to_bytes. rewrite (Hsc Hs n v VNone [] all), Hd. auto. }
    destruct k; cbn [measurable kind] in Hm; try (apply Hother; cbn [size_for_value]; rewrite ?Hs; auto; fail);
      rewrite do_dump_leaf in Hb by auto; cbn [leaf_dump] in Hb; cbn [size_for_value].
    + (* vli *)
      destruct (vli_encode_value fmt v) as [enc|e|] eqn:Henc; cbn [bind].
      * unfold catch_value_error, dlift in Hb. cbn [dbind] in Hb.
        destruct (match max_bytes with Some m => m <? zlen enc | None => false end); [discriminate|].
        cbv [dwrite] in Hb. cbn [app] in Hb. congruence.
      * exfalso. unfold catch_value_error, dlift in Hb. destruct (is_ValueError_or_OverflowError e); discriminate.
      * discriminate.
    + (* bytes *)
      rewrite Hg in Hb. cbn [size_for_value] in Hb.
      destruct (py_len v) as [l|] eqn:Hl; [|rewrite dbind_raise in Hb; discriminate].
      rewrite dbind_ok, Z.eqb_refl in Hb. cbn [negb] in Hb. cbn [bind].
      destruct v; try discriminate. cbv [dwrite] in Hb. cbn [py_len] in Hl. congruence.
    + (* string *)
      destruct v; try discriminate. rewrite Hg in Hb. cbn [size_for_value] in Hb.
      match goal with |- context [encode ?cd ?s] => destruct (encode cd s) as [enc|e|] eqn:Henc end; cbn [bind].
      * unfold encode_and_resize in Hb. rewrite Henc in Hb. cbn [bind] in Hb. rewrite Z.sub_diag in Hb.
        cbn in Hb. congruence.
      * unfold encode_and_resize in Hb. rewrite Henc in Hb. discriminate.
      * unfold encode_and_resize in Hb. rewrite Henc in Hb. discriminate.
    + (* stringz *)
      destruct v; try discriminate.
      match goal with |- context [encode ?cd ?s] => destruct (encode cd s) as [enc|e|] eqn:Henc end; cbn [bind]; try discriminate.
      cbn in Hb. congruence.
  - f_equal. symmetry. apply (field_dump_size E n f v VNone all bs z Hd); auto; try (left; auto; fail); congruence.
  - pose proof Hd as Hi. apply to_stream_ok_inv in Hi.
    destruct Hi as (x & [[_ ->]|[Hx _]] & _ & _ & Hacc & Hcase); [|congruence].
    destruct Hcase as [[Hx _]|(_ & b & Hb & Hsw)]; [congruence|].
    apply sized_write_inv in Hsw. rewrite Hs in Hsw. destruct Hsw as (z & Hz & Hzl).
    unfold ges, get_expected_size_with in Hz. rewrite Hs in Hz.
    unfold get_expected_size, ges, get_expected_size_with. rewrite Hs, (Href r eq_refl), Hz. congruence.
Qed.

Lemma len_agrees n cid vals out : instance_of E cid vals -> plain_data vals ->
  (forall name f, In (name, f) (k_comps (cls E cid)) -> simple f /\ measurable E f) ->
  (forall name f v, In (name, f) (k_comps (cls E cid)) -> own_value vals name (conf f) v ->
     v <> VNone /\ v <> VDefault) ->
  struct_to_stream E n cid vals VNone = (out, Ok tt) -> struct_len E n cid vals = Ok (zlen out).
Proof.
  intros Hi Hpd Hs Hv Hd. apply struct_dump_iff in Hd. destruct Hd as (all & parts & _ & Ha & Hp & ->).
  destruct (to_dict_spec _ _ _ _ _ _ Hi Ha) as (w & Hw & _).
  unfold struct_len. rewrite Hw. cbn [bind]. unfold comps.
  assert (Hval : forall name f, In (name, f) (k_comps (cls E cid)) ->
            exists v, own_value vals name (conf f) v /\ v <> VUndefined /\ v <> VNotPresent
              /\ dget all name = Some v /\ dget w name = Some v).
  { intros name f Hin. destruct (Hs _ _ Hin) as [Hsf _].
    destruct (simple_value E n cid vals all name f Hi Hpd Ha Hin Hsf) as (v & H1 & H2 & H3 & _ & H4 & w' & Hw' & H5).
    exists v. rewrite Hw in Hw'. injection Hw' as <-. auto. }
  assert (Hagree : forall r, dget w r = dget all r).
  { intros r. destruct (whatever_spec _ _ _ _ _ Hi Hw) as (_ & Hincl & _).
    destruct (to_dict_keys _ _ _ _ _ _ Hi Ha) as (_ & Hkeys).
    destruct (dget w r) as [x|] eqn:Hx.
    - assert (Hin : In r (dkeys w)) by (apply dget_in; eauto). apply Hincl in Hin.
      apply in_map_iff in Hin. destruct Hin as ([r' f] & Hr & Hin). cbn [fst] in Hr. subst r'.
      destruct (Hval _ _ Hin) as (v & _ & _ & _ & Hall & Hww). congruence.
    - destruct (dget all r) as [x|] eqn:Hxa; auto.
      assert (Hin : In r (dkeys all)) by (apply dget_in; eauto). apply Hkeys in Hin.
      destruct Hin as (f & Hin & _). destruct (Hval _ _ Hin) as (v & _ & _ & _ & Hall & Hww). congruence. }
  rewrite (len_fields_sum _ _ _ (map zlen parts)).
  - cbn [bind]. rewrite <- zlen_concat. destruct (zlen (concat parts) <? 0) eqn:Hn; auto.
    pose proof (zlen_nonneg (concat parts)). lia.
  - assert (Hg : forall fs parts, incl fs (k_comps (cls E cid)) -> Forall2 (field_part E n VNone all) fs parts ->
      Forall2 (fun nf z => field_len n (snd nf) w = Ok z) fs (map zlen parts)).
    { intros fs ps Hincl H2. induction H2 as [|[name f] bs fs ps Hb H2 IH]; cbn [map]; constructor.
      - cbn [snd]. assert (Hin : In (name, f) (k_comps (cls E cid))) by (apply Hincl; left; auto).
        destruct (Hs _ _ Hin) as [Hsf Hm]. destruct (Hval _ _ Hin) as (v & Hov & Hu & Hnp & Hall & Hww).
        destruct (Hv _ _ _ Hin Hov) as [Hnn Hnd]. pose proof Hsf as (Hun & _).
        pose proof (instance_name _ _ _ _ _ Hi Hin) as Hname.
        destruct Hb as (x & Hx & Hcase). cbn [snd] in *.
        rewrite (value_explicit _ _ _ name v) in Hx; auto; [|apply Hun]. injection Hx as <-.
        destruct Hcase as [[Hx _]|[_ Hx]]; [contradiction|].
        apply (field_len_agrees n f name v w all bs); auto.
      - apply IH. intros x Hx. apply Hincl. right. auto. }
    apply Hg; auto. apply incl_refl.
Qed.

(** ---------------------------------------------------------------- loads of known extent *)
Lemma consumes_wrap f m : always_present (conf f) -> null_fits E f m ->
  (forall n ctx d s s' v, do_load E n f ctx d s = (s', Ok v) ->
     v <> VNotPresent /\ Z.of_nat (s_pos s') = Z.of_nat (s_pos s) + m) ->
  consumes E f m.
Proof.
  intros Hp Hn Hl n ctx d s s' v H. unfold field_from_stream, field_from_stream_with, from_stream_with in H.
  rewrite Hp in H.
  match type of H with context [lbind (fun s => match do_load E n f ctx d s with _ => _ end) ?K] =>
    set (kk := K) in H end.
  assert (Hload : forall s1, lbind (fun s0 => match do_load E n f ctx d s0 with
           | (s', Raise e) => (s', Raise (set_field (c_name (conf f)) e)) | x => x end) kk s1 = (s', Ok v) ->
        v <> VNotPresent /\ Z.of_nat (s_pos s') = Z.of_nat (s_pos s1) + m).
  { intros s1 H1. unfold lbind at 1 in H1.
    destruct (do_load E n f ctx d s1) as [s2 [x|e|]] eqn:Hd; try discriminate.
    apply Hl in Hd. destruct Hd as [Hx Hpos]. unfold kk in H1. unfold lbind, llift, lret in H1.
    destruct (allow_null (conf f)).
    - destruct (py_eq E n x (c_null (conf f))) as [b|e|]; cbn [bind] in H1; try discriminate.
      set (y := if b then VNone else x) in H1.
      assert (Hy : y <> VNotPresent) by (unfold y; destruct b; [discriminate|auto]).
      destruct (if negb (is_undefined (c_const (conf f))) then _ else _) as [[]|e|]; try discriminate.
      destruct (run_validators (c_validators (conf f)) y) as [[]|e|]; try discriminate.
      injection H1 as <- <-. auto.
    - destruct (if negb (is_undefined (c_const (conf f))) then _ else _) as [[]|e|]; try discriminate.
      destruct (run_validators (c_validators (conf f)) x) as [[]|e|]; try discriminate.
      injection H1 as <- <-. auto. }
  destruct (allow_null (conf f)) eqn:Hal; [|auto].
  destruct (null_repr (do_dump E n) f d) as [nb|e|] eqn:Hnr; try discriminate.
  - unfold peek_bytes in H. destruct (read s (zlen nb)) as [data s1] eqn:Hr. cbn [negb andb] in H.
    destruct (bytes_eqb data nb) eqn:Hb; [|apply Hload; auto].
    destruct (run_validators (c_validators (conf f)) VNone) as [[]|e|]; try discriminate.
    injection H as <- <-. split; [discriminate|]. unfold advance. cbn [s_pos].
    unfold null_fits, allow_null in *. rewrite <- (Hn ltac:(intros Hx; rewrite Hx in Hal; discriminate) n d nb Hnr).
    unfold zlen. lia.
  - destruct (is_UnserializableValueError e); try discriminate.
    destruct (is_default (c_null (conf f))); try discriminate. auto.
Qed.

Lemma read_moves s n data s' : 0 <= n -> read s n = (data, s') -> (zlen data <? n) = false ->
  Z.of_nat (s_pos s') = Z.of_nat (s_pos s) + n.
Proof.
  intros Hn H Hl. unfold read in H. replace (n <? 0) with false in H by lia. injection H as <- <-.
  unfold advance. cbn [s_pos]. unfold zlen in Hl. rewrite firstn_length in Hl. lia.
Qed.

Lemma read_exact_moves c m s s' x : 0 <= m -> read_exact_size c (Ok m) s = (s', Ok x) ->
  Z.of_nat (s_pos s') = Z.of_nat (s_pos s) + m.
Proof.
  intros Hm H. unfold read_exact_size in H. destruct (read s m) as [data s1] eqn:Hr.
  destruct (zlen data <? m) eqn:Hl; [discriminate|]. injection H as <- _. eapply read_moves; eauto.
Qed.

Lemma read_int_moves m sg e s s' x : 0 <= m -> read_int m sg e s = (s', Ok x) ->
  Z.of_nat (s_pos s') = Z.of_nat (s_pos s) + m.
Proof.
  intros Hm H. unfold read_int in H. destruct (read s m) as [data s1] eqn:Hr.
  destruct (zlen data <? m) eqn:Hl; [discriminate|]. injection H as <- _. eapply read_moves; eauto.
Qed.

Lemma lbind_inv {A B} (m : loader A) (k : A -> loader B) s s' b :
  lbind m k s = (s', Ok b) -> exists s1 a, m s = (s1, Ok a) /\ k a s1 = (s', Ok b).
Proof.
  unfold lbind. destruct (m s) as [s1 [a|e|]]; intros H; try discriminate. eauto.
Qed.

Lemma leaf_consumes c k m : exact_kind k = true -> always_present c -> c_size c = SInt m -> 0 <= m ->
  null_fits E (Field c k) m -> consumes E (Field c k) m.
Proof.
  intros Hk Hp Hs Hm Hn. apply consumes_wrap; auto. intros n ctx d s s' v H.
  assert (Hl : leaf_kind k = true) by (destruct k; auto; discriminate).
  rewrite do_load_leaf in H by auto. unfold get_expected_size_with in H. rewrite Hs in H.
  destruct k; try discriminate; cbn [leaf_load] in H.
  - rewrite Hs in H. apply lbind_inv in H. destruct H as (s1 & z & H1 & H2). injection H2 as <- <-.
    split; [discriminate|]. eapply read_int_moves; eauto.
  - apply lbind_inv in H. destruct H as (s1 & z & H1 & H2).
    destruct (zlen z =? ff_bytes fmt); [|discriminate]. injection H2 as <- <-.
    split; [discriminate|]. eapply read_exact_moves; eauto.
  - apply lbind_inv in H. destruct H as (s1 & z & H1 & H2). injection H1 as <- <-.
    apply lbind_inv in H2. destruct H2 as (s2 & z2 & H2 & H3).
    apply lbind_inv in H3. destruct H3 as (s3 & z3 & H3 & H4). injection H4 as <- <-.
    unfold llift in H3. injection H3 as <- _. split; [discriminate|]. eapply read_int_moves; eauto.
  - apply lbind_inv in H. destruct H as (s1 & z & H1 & H2). injection H2 as <- <-.
    split; [discriminate|]. eapply read_exact_moves; eauto.
  - apply lbind_inv in H. destruct H as (s1 & z & H1 & H2).
    apply lbind_inv in H2. destruct H2 as (s2 & z2 & H2 & H3). injection H3 as <- <-.
    unfold llift in H2. injection H2 as <- _. split; [discriminate|]. eapply read_exact_moves; eauto.
  - rewrite Hs in H. destruct (read s m) as [raw s1] eqn:Hr.
    destruct (zlen raw <? m) eqn:Hlen; [discriminate|].
    destruct (match fmt with BINARY_VARIANT_1 | BINARY_VARIANT_2 => negb (zlen raw =? 16) | _ => false end);
      [discriminate|].
    destruct (uuid_parse fmt raw); try discriminate. injection H as <- <-.
    split; [discriminate|]. eapply read_moves; eauto.
Qed.

Lemma array_consumes c comp cnt m : always_present c -> consumes E comp m ->
  null_fits E (Field c (KArray comp (CntInt cnt) None)) (Z.max 0 cnt * m) ->
  consumes E (Field c (KArray comp (CntInt cnt) None)) (Z.max 0 cnt * m).
Proof.
  intros Hp Hc Hn. apply consumes_wrap; auto. intros n ctx d s s' v H.
  destruct n as [|n]; [discriminate|]. cbn [do_load kind] in H.
  assert (Hloop : forall fuel values s s' v,
    array_load fuel (array_halt (CntInt cnt) None (name_of (Field c (KArray comp (CntInt cnt) None))) ctx d)
      (field_from_stream E n comp ctx d) values s = (s', Ok v) ->
    v <> VNotPresent /\ Z.of_nat (s_pos s') = Z.of_nat (s_pos s) + Z.max 0 (cnt - zlen values) * m).
  { induction fuel as [|fuel IH]; intros values s0 s0' v0 H0; cbn [array_load] in H0; [discriminate|].
    unfold array_halt, should_halt, get_final_element_count in H0. cbn [count_at_most bind] in H0.
    destruct (cnt <=? zlen values) eqn:Hle.
    - injection H0 as <- <-. split; [discriminate|]. replace (Z.max 0 (cnt - zlen values)) with 0 by lia. lia.
    - destruct (field_from_stream E n comp ctx d s0) as [s1 [x|e|]] eqn:Hf; try discriminate.
      destruct (Hc _ _ _ _ _ _ Hf) as [Hx Hpos].
      replace (is_not_present x) with false in H0 by (destruct x; auto; congruence).
      apply IH in H0. destruct H0 as [Hv Hpos']. split; auto. rewrite Hpos', Hpos.
      rewrite zlen_app. unfold zlen at 2. cbn [length].
      replace (Z.max 0 (cnt - (zlen values + Z.of_nat 1))) with (cnt - zlen values - 1) by lia.
      replace (Z.max 0 (cnt - zlen values)) with (cnt - zlen values) by lia. lia. }
  apply Hloop in H. change (zlen (@nil value)) with 0 in H. rewrite Z.sub_0_r in H. auto.
Qed.

Lemma loads_move n ctx fs ms : Forall2 (fun nf m => consumes E (snd nf) m) fs ms ->
  forall d s d' s', loads E n ctx fs d s d' s' ->
  Z.of_nat (s_pos s') = Z.of_nat (s_pos s) + sum ms.
Proof.
  intros H. induction H as [|[name f] m fs ms Hm _ IH]; intros d s d' s' Hl; inversion Hl; subst.
  - cbn. lia.
  - cbn [snd] in Hm. match goal with Hf : field_from_stream _ _ _ _ _ _ = _ |- _ => apply Hm in Hf; destruct Hf as [_ Hf] end.
    match goal with Hr : loads _ _ _ fs _ _ _ _ |- _ => apply IH in Hr end.
    cbn [sum fold_right]. fold (sum ms). lia.
Qed.

Lemma nested_consumes c cid ms : always_present c -> well_formed (cls E cid) ->
  Forall2 (fun nf m => consumes E (snd nf) m) (k_comps (cls E cid)) ms ->
  null_fits E (Field c (KNested cid)) (sum ms) ->
  consumes E (Field c (KNested cid)) (sum ms).
Proof.
  intros Hp Hwf Hms Hn. apply consumes_wrap; auto. intros n ctx d s s' v H.
  destruct n as [|n]; [discriminate|]. cbn [do_load kind] in H.
  apply lbind_inv in H. destruct H as (s1 & vals & H1 & H2). injection H2 as <- <-.
  split; [discriminate|]. apply struct_load_iff in H1; auto; [|constructor].
  destruct H1 as (d' & Hl & _). eapply loads_move; eauto.
Qed.

(** When None is written as [size] zero bytes or as given bytes. *)
Lemma null_fits_none f m : c_null (conf f) = VUndefined -> null_fits E f m.
Proof. intros H Hn. contradiction. Qed.

Lemma null_fits_default f m : c_null (conf f) = VDefault \/ c_null (conf f) = VNone ->
  c_size (conf f) = SInt m -> 0 <= m -> null_fits E f m.
Proof.
  intros Hn Hs Hm _ n d nb H. unfold null_repr, null_repr_with, ges, get_expected_size_with in H.
  rewrite Hs in H. destruct Hn as [Hn|Hn]; rewrite Hn in H; injection H as <-; unfold zlen; rewrite repeat_length; lia.
Qed.

Lemma null_fits_bytes f nb : c_null (conf f) = VBytes nb -> null_fits E f (zlen nb).
Proof.
  intros Hn _ n d nb' H. unfold null_repr, null_repr_with in H. rewrite Hn in H. injection H as <-. auto.
Qed.

(** ---------------------------------------------------------------- get_field *)
Lemma get_field_fixed n cid name f pre post ms ctx s s' vals :
  well_formed (cls E cid) -> k_comps (cls E cid) = pre ++ (name, f) :: post ->
  Forall2 (fun nf m => consumes E (snd nf) m) pre ms -> c_offset (conf f) = Some (sum ms) ->
  load_contained E f -> c_discard (conf f) = false ->
  struct_from_stream E n cid ctx [] s = (s', Ok vals) ->
  exists v, get_field E n cid name ctx s = (s, Ok v) /\ dget vals name = Some v.
Proof.
  intros Hwf Hk Hms Hoff Hlc Hdis Hload.
  apply struct_load_iff in Hload; auto; [|constructor]. destruct Hload as (d & Hl & _ & _ & ->).
  pose proof (well_formed_bound _ Hwf) as Hb.
  assert (Hin : In (name, f) (k_comps (cls E cid))) by (rewrite Hk; apply in_app_iff; right; left; auto).
  destruct (bound_assoc _ _ _ Hb Hin) as [Has Hname].
  destruct (loads_value _ _ _ _ _ _ _ _ _ _ _ _ Hl Hk (proj1 Hb) eq_refl) as (d1 & s1 & s2 & v & Hl1 & Hf & Hv).
  assert (Hd1 : oget d1 (c_name (conf f)) = None).
  { rewrite Hname. cbn [oget]. apply dget_none. intros Hx.
    destruct (loads_keys _ _ _ _ _ _ _ _ Hl1) as (new & _ & _ & Hkeys & _). apply Hkeys in Hx.
    destruct Hx as [[]|Hx]. destruct Hb as [Hnd _]. rewrite Hk, map_app in Hnd.
    apply NoDup_remove_2 in Hnd. apply Hnd. apply in_app_iff. auto. }
  rewrite (Hlc n ctx d1 s1 Hd1) in Hf.
  pose proof (loads_move _ _ _ _ Hms _ _ _ _ Hl1) as Hpos.
  assert (Hdata : s_data s1 = s_data s).
  { assert (Hx : load_fields E (do_load E n) n pre ctx [] s = (s1, Ok d1)) by (apply load_fields_iff; auto).
    apply (fwd_load_fields E) in Hx; [apply Hx|]. intros; apply fwd_do_load. }
  exists v. split.
  - pose proof (get_field_restores E n cid name ctx s) as Hr.
    destruct (get_field E n cid name ctx s) as [sr r] eqn:Hg. cbn [fst] in Hr. subst sr. f_equal.
    unfold get_field, comps in Hg. rewrite Has, Hoff in Hg. unfold seek in Hg.
    replace (Z.of_nat (s_pos s) + sum ms <? 0) with false in Hg by lia.
    replace (mkStream (s_data s) (Z.to_nat (Z.of_nat (s_pos s) + sum ms))) with s1 in Hg
      by (destruct s1 as [d1' p1']; cbn [s_data s_pos] in *; subst d1'; f_equal; lia).
    rewrite Hf in Hg. congruence.
  - rewrite (dget_filter_key (fun k => negb (discarded (k_comps (cls E cid)) k))).
    rewrite (discarded_iff _ name f) by auto. rewrite Hdis. auto.
Qed.

Lemma prefix_value n ctx fs d s d' s' pre name f : prefix_loads E n ctx fs d s d' s' ->
  fs = pre ++ [(name, f)] -> NoDup (map fst fs) -> c_discard (conf f) = false ->
  (forall k, In k (map fst fs) -> ~ In k (dkeys d)) ->
  Forall (fun nf => c_discard (conf (snd nf)) = false) fs ->
  exists v, dget d' name = Some v.
Proof.
  intros H Hfs Hnd Hdis Hk Hall. apply prefix_is_loads in H; auto.
  destruct (loads_keys _ _ _ _ _ _ _ _ H) as (new & _ & _ & Hkeys & _).
  apply dget_in. apply Hkeys. right. rewrite Hfs, map_app. apply in_app_iff. right. left. auto.
Qed.

Lemma nodup_app_l {A} (l1 l2 : list A) : NoDup (l1 ++ l2) -> NoDup l1.
Proof.
  induction l1 as [|x l1 IH]; intros H; [constructor|]. inversion H; subst. constructor; auto.
  intros Hx. apply H2. apply in_app_iff. auto.
Qed.

Lemma loads_snoc n ctx pre d0 s d1 s1 name f v s2 : loads E n ctx pre d0 s d1 s1 ->
  field_from_stream E n f ctx d1 s1 = (s2, Ok v) -> ~ In name (dkeys d1) ->
  loads E n ctx (pre ++ [(name, f)]) d0 s (d1 ++ [(name, v)]) s2.
Proof.
  intros Hl1 Hf Hd1. induction Hl1 as [d s|nm g fs d s x s1' d' s1 Hg Hr IH]; cbn [app].
  - econstructor; [exact Hf|]. replace (dmem d name) with false; [constructor|].
    destruct (dmem d name) eqn:Hm; auto. apply dmem_in in Hm. contradiction.
  - econstructor; [exact Hg|]. apply IH; auto.
Qed.

Lemma get_field_variable n cid name f pre post ctx s s' vals :
  well_formed (cls E cid) -> k_comps (cls E cid) = pre ++ (name, f) :: post ->
  Forall (fun nf => c_discard (conf (snd nf)) = false) (pre ++ [(name, f)]) ->
  c_offset (conf f) = None ->
  struct_from_stream E n cid ctx [] s = (s', Ok vals) ->
  exists v, get_field E n cid name ctx s = (s, Ok v) /\ dget vals name = Some v.
Proof.
  intros Hwf Hk Hdis Hoff Hload.
  apply struct_load_iff in Hload; auto; [|constructor]. destruct Hload as (d & Hl & _ & _ & ->).
  pose proof (well_formed_bound _ Hwf) as Hb.
  assert (Hin : In (name, f) (k_comps (cls E cid))) by (rewrite Hk; apply in_app_iff; right; left; auto).
  destruct (bound_assoc _ _ _ Hb Hin) as [Has Hname].
  destruct (loads_value _ _ _ _ _ _ _ _ _ _ _ _ Hl Hk (proj1 Hb) eq_refl) as (d1 & s1 & s2 & v & Hl1 & Hf & Hv).
  assert (Hd1 : ~ In name (dkeys d1)).
  { intros Hx. destruct (loads_keys _ _ _ _ _ _ _ _ Hl1) as (new & _ & _ & Hkeys & _). apply Hkeys in Hx.
    destruct Hx as [[]|Hx]. destruct Hb as [Hnd _]. rewrite Hk, map_app in Hnd.
    apply NoDup_remove_2 in Hnd. apply Hnd. apply in_app_iff. auto. }
  assert (Hl2 : loads E n ctx (pre ++ [(name, f)]) [] s (d1 ++ [(name, v)]) s2).
  { eapply loads_snoc; eauto. }
  assert (Hnd2 : NoDup (map fst (pre ++ [(name, f)]))).
  { destruct Hb as [Hnd _]. rewrite Hk in Hnd. change ((name, f) :: post) with ([(name, f)] ++ post) in Hnd.
    rewrite app_assoc, map_app in Hnd. apply nodup_app_l in Hnd. auto. }
  apply prefix_is_loads in Hl2; auto.
  assert (Hpl : partial_load E n cid (Some name) ctx s = (s2, Ok (d1 ++ [(name, v)]))).
  { apply partial_load_last; auto. exists pre, f, post. auto. }
  exists v. split.
  - pose proof (get_field_restores E n cid name ctx s) as Hr.
    destruct (get_field E n cid name ctx s) as [sr r] eqn:Hg. cbn [fst] in Hr. subst sr. f_equal.
    unfold get_field in Hg. unfold comps at 1 in Hg. rewrite Has, Hoff in Hg.
    cbv zeta in Hg. rewrite Hpl in Hg.
    rewrite (struct_get_stored E n cid _ name f v) in Hg; auto; [congruence|].
    rewrite dget_app. apply dget_none in Hd1. rewrite Hd1. cbn [dget]. rewrite String.eqb_refl. auto.
  - rewrite (dget_filter_key (fun k => negb (discarded (k_comps (cls E cid)) k))).
    rewrite (discarded_iff _ name f) by auto.
    rewrite Forall_forall in Hdis.
    assert (Hx : c_discard (conf f) = false) by (apply (Hdis (name, f)), in_app_iff; right; left; auto).
    rewrite Hx. auto.
Qed.
End Sizes.
