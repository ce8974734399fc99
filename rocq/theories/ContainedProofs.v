(** Fields whose dump or load does not depend on the other fields; prefix dumps (C33). *)
From Verif Require Import Tac.
From Verif Require Export SpecAccess ContainerProofs.

(** ---------------------------------------------------------------- extensionality *)
Lemma to_stream_ext nr nr' dd dd' g g' c k v :
  nr = nr' -> (forall v, dd v = dd' v) -> (forall name, c_size c = SRef name -> g = g') ->
  to_stream_with nr dd g c k v = to_stream_with nr' dd' g' c k v.
Proof.
  intros -> Hdd Hg. unfold to_stream_with.
  destruct (if is_default v then default_of c else Ok v) as [w|e|];
    rewrite ?dbind_ok, ?dbind_raise, ?dbind_oof; auto.
  destruct (is_undefined w || is_default w); auto.
  destruct (run_validators (c_validators c) w) as [[]|e|];
    rewrite ?dbind_ok, ?dbind_raise, ?dbind_oof; auto.
  destruct (is_none w); auto. rewrite Hdd. destruct (dd' w) as [bs [[]|e|]]; auto.
  rewrite !dbind_ok. destruct (c_size c) eqn:Hs; auto. rewrite (Hg _ eq_refl). auto.
Qed.

Lemma dump_items_ext d1 d2 l : (forall v, d1 v = d2 v) -> dump_items d1 l = dump_items d2 l.
Proof. intros H. induction l as [|x l IH]; cbn [dump_items]; auto. rewrite H, IH. auto. Qed.

Lemma dump_unsized_ext d1 d2 name ne l : (forall v, d1 v = d2 v) ->
  forall nw, dump_unsized d1 name ne nw l = dump_unsized d2 name ne nw l.
Proof.
  intros H. induction l as [|x l IH]; intros nw; cbn [dump_unsized]; auto.
  destruct (match ne with Some c => count_is c nw | None => false end); auto.
  rewrite H. destruct (d2 x) as [o [[]|e|]]; cbn [dbind]; auto. rewrite IH. auto.
Qed.

Lemma array_dump_ext d1 d2 name cnt v d d' : (forall v, d1 v = d2 v) ->
  (forall nm, cnt <> CntRef nm) ->
  array_dump d1 name cnt v d = array_dump d2 name cnt v d'.
Proof.
  intros H Hc. unfold array_dump, get_final_element_count.
  assert (Hn : forall ne, match sized_items v with
     | Some l => match ne with
                 | Some c => if negb (count_is c (zlen l)) then draise (array_size_error name c (zlen l))
                             else dump_items d1 l
                 | None => dump_items d1 l end
     | None => match v with VGen l => dump_unsized d1 name ne 0 l | _ => draise ETypeErr end
     end = match sized_items v with
     | Some l => match ne with
                 | Some c => if negb (count_is c (zlen l)) then draise (array_size_error name c (zlen l))
                             else dump_items d2 l
                 | None => dump_items d2 l end
     | None => match v with VGen l => dump_unsized d2 name ne 0 l | _ => draise ETypeErr end
     end).
  { intros ne. destruct (sized_items v) as [l|].
    - rewrite (dump_items_ext d1 d2) by auto. auto.
    - destruct v; auto. apply dump_unsized_ext; auto. }
  destruct cnt as [|m|nm|]; [| |destruct (Hc nm eq_refl)|auto]; rewrite !dbind_ok;
    [exact (Hn None)|exact (Hn (Some (CountInt m)))].
Qed.

Lemma ges_no_ref dd dd' c k d d' : (forall name, c_size c <> SRef name) ->
  (c_size c = SNone -> expected_unsized dd c k d = expected_unsized dd' c k d') ->
  get_expected_size_with dd c k d = get_expected_size_with dd' c k d'.
Proof.
  intros Hr Hs. unfold get_expected_size_with. destruct (c_size c) as [|m|nm]; auto.
  destruct (Hr nm eq_refl).
Qed.

Lemma null_repr_ext dd dd' g g' c : (forall v, dd v = dd' v) ->
  (null_needs_size c -> g = g') -> null_repr_with dd g c = null_repr_with dd' g' c.
Proof.
  intros Hd Hg. unfold null_repr_with, null_needs_size in *.
  destruct (c_null c); try rewrite Hd; auto; rewrite Hg; auto.
Qed.

Lemma unsized_null_ext dd dd' c k : (forall v, dd v = dd' v) ->
  unsized_null_len dd c k = unsized_null_len dd' c k.
Proof. intros H. unfold unsized_null_len. destruct (c_null c); auto; destruct k; auto; rewrite H; auto. Qed.

Lemma expected_unsized_ext dd dd' c k d d' : (forall v, dd v = dd' v) ->
  oget d (c_name c) = oget d' (c_name c) ->
  expected_unsized dd c k d = expected_unsized dd' c k d'.
Proof.
  intros Hd Ho. unfold expected_unsized. rewrite Ho, (unsized_null_ext dd dd' c k Hd). auto.
Qed.

Lemma leaf_dump_ext c k g g' v :
  match k with KTime _ _ _ _ | KBytes | KString _ _ => g = g' | _ => True end ->
  leaf_dump c k g v = leaf_dump c k g' v.
Proof. destruct k; intros H; cbn [leaf_dump]; auto; rewrite H; auto. Qed.

Section Contained.
Variable E : env.

(** ---------------------------------------------------------------- dumps *)
Lemma ref_free_dump f : ref_free f -> forall n v ctx d d',
  do_dump E n f v ctx d = do_dump E n f v ctx d'
  /\ field_to_stream E n f v ctx d = field_to_stream E n f v ctx d'.
Proof.
  induction 1 as [c k m Hs Hk|c k Hs Hn Hk|c comp cnt Hr Hs Hcnt Hcomp IH|c cid Hr Hs];
    intros n v ctx d d'.
  - assert (Hl : leaf_kind k = true) by (destruct k; auto; contradiction).
    assert (Hd : forall v ctx, do_dump E n (Field c k) v ctx d = do_dump E n (Field c k) v ctx d').
    { intros v0 ctx0. rewrite !do_dump_leaf by auto. apply leaf_dump_ext.
      destruct k; auto; rewrite !(ges_int _ _ _ _ _ Hs); auto. }
    split; auto. unfold field_to_stream, field_to_stream_with. apply to_stream_ext; auto.
    + unfold null_repr. apply null_repr_ext; auto. intros _. unfold ges. cbn [conf kind].
      rewrite !(ges_int _ _ _ _ _ Hs). auto.
    + cbn [conf]. congruence.
  - assert (Hl : leaf_kind k = true) by (destruct k; auto; contradiction).
    assert (Hd : forall v ctx, do_dump E n (Field c k) v ctx d = do_dump E n (Field c k) v ctx d').
    { intros v0 ctx0. rewrite !do_dump_leaf by auto. apply leaf_dump_ext. destruct k; auto; contradiction. }
    split; auto. unfold field_to_stream, field_to_stream_with. apply to_stream_ext; auto.
    + unfold null_repr. apply null_repr_ext; auto. intros Hnn. contradiction.
    + cbn [conf]. congruence.
  - assert (Hd : forall v ctx, do_dump E n (Field c (KArray comp cnt None)) v ctx d
                             = do_dump E n (Field c (KArray comp cnt None)) v ctx d').
    { intros v0 ctx0. destruct n as [|n]; cbn [do_dump kind]; auto. apply array_dump_ext; auto.
      intros x. apply IH. }
    split; auto. unfold field_to_stream, field_to_stream_with. apply to_stream_ext; auto.
    + unfold null_repr. apply null_repr_ext; auto. intros Hnn. unfold ges. cbn [conf kind].
      apply ges_no_ref; auto. intros Hsn. destruct (Hs Hsn Hnn).
    + cbn [conf]. intros nm Hnm. destruct (Hr nm Hnm).
  - assert (Hd : forall v ctx, do_dump E n (Field c (KNested cid)) v ctx d
                             = do_dump E n (Field c (KNested cid)) v ctx d').
    { intros v0 ctx0. destruct n as [|n]; cbn [do_dump kind]; auto. }
    split; auto. unfold field_to_stream, field_to_stream_with. apply to_stream_ext; auto.
    + unfold null_repr. apply null_repr_ext; auto. intros Hnn. unfold ges. cbn [conf kind].
      apply ges_no_ref; auto. intros Hsn. destruct (Hs Hsn Hnn).
    + cbn [conf]. intros nm Hnm. destruct (Hr nm Hnm).
Qed.

Lemma ref_free_contained f : ref_free f -> self_contained E f.
Proof. intros H n v ctx d d'. apply (ref_free_dump f H). Qed.

Lemma ref_less_dump f : ref_less f -> forall n v ctx d d',
  oget d (c_name (conf f)) = None -> oget d' (c_name (conf f)) = None ->
  do_dump E n f v ctx d = do_dump E n f v ctx d'
  /\ field_to_stream E n f v ctx d = field_to_stream E n f v ctx d'
  /\ null_repr (do_dump E n) f d = null_repr (do_dump E n) f d'
  /\ ges (do_dump E n) f d = ges (do_dump E n) f d'.
Proof.
  assert (Hwrap : forall c k n d d', (forall name, c_size c <> SRef name) ->
    oget d (c_name c) = None -> oget d' (c_name c) = None ->
    (forall v ctx, do_dump E n (Field c k) v ctx d = do_dump E n (Field c k) v ctx d') ->
    forall v ctx,
    field_to_stream E n (Field c k) v ctx d = field_to_stream E n (Field c k) v ctx d'
    /\ null_repr (do_dump E n) (Field c k) d = null_repr (do_dump E n) (Field c k) d'
    /\ ges (do_dump E n) (Field c k) d = ges (do_dump E n) (Field c k) d').
  { intros c k n d d' Hr Ho Ho' Hd v ctx.
    assert (Hg : ges (do_dump E n) (Field c k) d = ges (do_dump E n) (Field c k) d').
    { unfold ges. cbn [conf kind]. apply ges_no_ref; auto. intros _. apply expected_unsized_ext; auto.
      rewrite Ho, Ho'. auto. }
    assert (Hn : null_repr (do_dump E n) (Field c k) d = null_repr (do_dump E n) (Field c k) d').
    { unfold null_repr. apply null_repr_ext; auto. }
    split; auto. unfold field_to_stream, field_to_stream_with. apply to_stream_ext; auto. }
  induction 1 as [c k Hr Hk|c comp cnt Hr Hcnt Hcomp IH Hu Hname|c cid Hr];
    intros n v ctx d d' Ho Ho'; cbn [conf] in Ho, Ho'.
  - assert (Hl : leaf_kind k = true) by (destruct k; auto; contradiction).
    assert (Hd : forall v ctx, do_dump E n (Field c k) v ctx d = do_dump E n (Field c k) v ctx d').
    { intros v0 ctx0. rewrite !do_dump_leaf by auto. apply leaf_dump_ext.
      assert (get_expected_size_with (fun _ => draise ETypeErr) c k d
              = get_expected_size_with (fun _ => draise ETypeErr) c k d').
      { apply ges_no_ref; auto. intros _. apply expected_unsized_ext; auto. rewrite Ho, Ho'. auto. }
      destruct k; auto. }
    split; auto.
  - assert (Hc : oget d (c_name (conf comp)) = None /\ oget d' (c_name (conf comp)) = None).
    { destruct Hname as [->| ->]; auto. }
    assert (Hd : forall v ctx, do_dump E n (Field c (KArray comp cnt None)) v ctx d
                             = do_dump E n (Field c (KArray comp cnt None)) v ctx d').
    { intros v0 ctx0. destruct n as [|n]; cbn [do_dump kind]; auto. apply array_dump_ext; auto.
      intros x. apply IH; tauto. }
    split; auto.
  - assert (Hd : forall v ctx, do_dump E n (Field c (KNested cid)) v ctx d
                             = do_dump E n (Field c (KNested cid)) v ctx d').
    { intros v0 ctx0. destruct n as [|n]; cbn [do_dump kind]; auto. }
    split; auto.
Qed.

(** ---------------------------------------------------------------- loads *)
Lemma from_stream_ext nr nr' dl dl' eqv c ctx d d' s :
  nr = nr' -> (forall s, dl s = dl' s) ->
  run_dict d (c_present c ctx (Some s)) = run_dict d' (c_present c ctx (Some s)) ->
  from_stream_with nr dl eqv c ctx d s = from_stream_with nr' dl' eqv c ctx d' s.
Proof.
  intros -> Hdl Hp. unfold from_stream_with. rewrite Hp.
  destruct (run_dict d' (c_present c ctx (Some s))) as [[|]|e|]; auto.
  assert (Hl : forall s, (ldo v <- (fun s0 => match dl s0 with
                       | (s', Raise e) => (s', Raise (set_field (c_name c) e))
                       | x => x end);
    ldo v0 <- llift (if allow_null c then do b <- eqv v (c_null c); Ok (if b then VNone else v) else Ok v);
    ldo _ <- llift (if negb (is_undefined (c_const c)) then
                      do b <- eqv v0 (c_const c); if b then Ok tt else Raise (EValidation (c_name c))
                    else Ok tt);
    ldo _ <- llift (run_validators (c_validators c) v0); lret v0) s
    = (ldo v <- (fun s0 => match dl' s0 with
                       | (s', Raise e) => (s', Raise (set_field (c_name c) e))
                       | x => x end);
    ldo v0 <- llift (if allow_null c then do b <- eqv v (c_null c); Ok (if b then VNone else v) else Ok v);
    ldo _ <- llift (if negb (is_undefined (c_const c)) then
                      do b <- eqv v0 (c_const c); if b then Ok tt else Raise (EValidation (c_name c))
                    else Ok tt);
    ldo _ <- llift (run_validators (c_validators c) v0); lret v0) s).
  { intros s0. unfold lbind at 1. unfold lbind at 4. rewrite Hdl. destruct (dl' s0) as [s1 [v|e|]]; auto. }
  destruct (allow_null c); [|apply Hl].
  destruct nr' as [nb|e|]; auto.
  - destruct (peek_bytes (zlen nb) true s) as [s1 [bs|e|]]; auto.
    destruct (bytes_eqb bs nb); auto.
  - destruct (is_UnserializableValueError e); auto. destruct (is_default (c_null c)); auto.
Qed.

Lemma array_load_ext h1 h2 l1 l2 : (forall s vs, h1 s vs = h2 s vs) -> (forall s, l1 s = l2 s) ->
  forall fuel vs s, array_load fuel h1 l1 vs s = array_load fuel h2 l2 vs s.
Proof.
  intros Hh Hl. induction fuel as [|fuel IH]; intros vs s; cbn [array_load]; auto.
  rewrite Hh. destruct (h2 s vs) as [[[|] vs']|e|]; auto. rewrite Hl.
  destruct (l2 s) as [s' [v|e|]]; auto.
Qed.

Lemma leaf_load_ext c k g g0 s g' : g = g' ->
  leaf_load c k g g0 s = leaf_load c k g' g0 s.
Proof. intros ->. auto. Qed.

Lemma ref_less_load f : ref_less f -> forall n ctx d s, unconditional (conf f) ->
  oget d (c_name (conf f)) = None ->
  field_from_stream E n f ctx d s = field_from_stream E n f ctx [] s.
Proof.
  induction 1 as [c k Hr Hk|c comp cnt Hr Hcnt Hcomp IH Hu0 Hname|c cid Hr];
    intros n ctx d s Hu Ho; cbn [conf] in Ho, Hu.
  - assert (Hl : leaf_kind k = true) by (destruct k; auto; contradiction).
    assert (Hrl : ref_less (Field c k)) by (constructor; auto).
    assert (He : oget [] (c_name (conf (Field c k))) = None) by (cbn [conf]; destruct (c_name c); auto).
    pose proof (ref_less_dump _ Hrl n) as HD.
    unfold field_from_stream, field_from_stream_with. apply from_stream_ext.
    + apply (HD VNone VNone d []); auto.
    + intros s0. rewrite !do_load_leaf by auto. apply leaf_load_ext. apply (HD VNone VNone d []); auto.
    + unfold run_dict. rewrite !Hu. auto.
  - assert (Hrl : ref_less (Field c (KArray comp cnt None))) by (constructor; auto).
    assert (He : oget [] (c_name (conf (Field c (KArray comp cnt None)))) = None)
      by (cbn [conf]; destruct (c_name c); auto).
    pose proof (ref_less_dump _ Hrl n) as HD.
    unfold field_from_stream, field_from_stream_with. apply from_stream_ext.
    + apply (HD VNone VNone d []); auto.
    + intros s0. destruct n as [|n]; cbn [do_load kind]; auto. apply array_load_ext.
      * intros s1 vs. unfold array_halt, should_halt, get_final_element_count.
        destruct cnt as [|m|nm|]; auto. destruct (Hcnt nm eq_refl).
      * intros s1. apply IH; auto. destruct Hname as [->| ->]; auto.
    + unfold run_dict. rewrite !Hu. auto.
  - assert (Hrl : ref_less (Field c (KNested cid))) by (constructor; auto).
    assert (He : oget [] (c_name (conf (Field c (KNested cid)))) = None)
      by (cbn [conf]; destruct (c_name c); auto).
    pose proof (ref_less_dump _ Hrl n) as HD.
    unfold field_from_stream, field_from_stream_with. apply from_stream_ext.
    + apply (HD VNone VNone d []); auto.
    + intros s0. destruct n as [|n]; cbn [do_load kind]; auto.
    + unfold run_dict. rewrite !Hu. auto.
Qed.

Lemma ref_less_load_contained f : ref_less f -> unconditional (conf f) -> load_contained E f.
Proof. intros H Hu n ctx d s Ho. apply ref_less_load; auto. Qed.

(** ---------------------------------------------------------------- partial dump *)
Lemma field_undefined_fails n f ctx d out :
  field_to_stream E n f VUndefined ctx d <> (out, Ok tt).
Proof.
  intros H. apply to_stream_ok_inv in H. destruct H as (w & [[_ ->]|[Hv _]] & Hu & _); congruence.
Qed.

Lemma partial_fields_dump_last n ctx vals last fs : bound fs -> In last (map fst fs) ->
  forall out, partial_dump_fields E n fs vals (Some last) ctx = (out, Ok tt)
  <-> exists pre f post parts, fs = pre ++ (last, f) :: post
      /\ Forall2 (own_part E n ctx vals) (pre ++ [(last, f)]) parts /\ out = concat parts.
Proof.
  induction fs as [|[name f] fs IH]; intros Hb Hin out; [destruct Hin|].
  pose proof (bound_cname _ name f Hb (or_introl eq_refl)) as Hcn.
  pose proof (bound_head _ _ _ Hb) as Hnin. pose proof (bound_tail _ _ Hb) as Hbt.
  cbn [partial_dump_fields].
  assert (Hstep : forall dv out, default_of (conf f) = Ok dv ->
    (let v := match dget vals (cname f) with Some v => v | None => dv end in
     if is_undefined v && false then dret tt else
     if is_undefined v && (is_undefined (c_const (conf f)) && is_undefined dv)
      then draise (EMissingRequired (name_of f))
      else
        ddo _ <- field_to_stream E n f v ctx [];
        if String.eqb (cname f) last then dret tt
        else partial_dump_fields E n fs vals (Some last) ctx) = (out, Ok tt)
    <-> exists o1 o2, own_part E n ctx vals (name, f) o1 /\ out = o1 ++ o2
        /\ (if String.eqb name last then dret tt
            else partial_dump_fields E n fs vals (Some last) ctx) = (o2, Ok tt)).
  { intros dv out0 Hdv. rewrite Hcn. cbv zeta. set (v := match dget vals name with Some v => v | None => dv end).
    rewrite andb_false_r. destruct (is_undefined v && (is_undefined (c_const (conf f)) && is_undefined dv)) eqn:Hb1.
    - split; [discriminate|]. intros (o1 & o2 & (w & (dw & Hdw & Hw) & Hf) & _).
      cbn [fst snd] in *. rewrite Hdv in Hdw. injection Hdw as <-. fold v in Hw. subst w.
      assert (Hvu : v = VUndefined) by (destruct v; auto; discriminate). rewrite Hvu in Hf.
      apply field_undefined_fails in Hf. destruct Hf.
    - split.
      + intros H. apply dbind_ok_inv in H. destruct H as (o1 & [] & o2 & H1 & H2 & ->).
        exists o1, o2. split; auto. exists v. split; auto. exists dv. auto.
      + intros (o1 & o2 & (w & (dw & Hdw & Hw) & Hf) & -> & H2).
        cbn [fst snd] in *. rewrite Hdv in Hdw. injection Hdw as <-. fold v in Hw. subst w.
        rewrite Hf. cbn [dbind]. rewrite H2. auto. }
  assert (Hd : forall o1, own_part E n ctx vals (name, f) o1 -> exists dv, default_of (conf f) = Ok dv).
  { intros o1 (w & (dw & Hdw & _) & _). eauto. }
  transitivity (exists o1 o2, own_part E n ctx vals (name, f) o1 /\ out = o1 ++ o2
        /\ (if String.eqb name last then dret tt
            else partial_dump_fields E n fs vals (Some last) ctx) = (o2, Ok tt)).
  { destruct (default_of (conf f)) as [dv|e|] eqn:Hdv.
    - rewrite dbind_ok. apply Hstep; auto.
    - rewrite dbind_raise. split; [discriminate|]. intros (o1 & _ & Ho & _). apply Hd in Ho. destruct Ho. congruence.
    - rewrite dbind_oof. split; [discriminate|]. intros (o1 & _ & Ho & _). apply Hd in Ho. destruct Ho. congruence. }
  destruct (String.eqb_spec name last) as [Heq|Hne].
  - split.
    + intros (o1 & o2 & Ho & -> & H2). cbv [dret] in H2. assert (o2 = []) by congruence. subst o2.
      exists [], f, fs, [o1]. cbn [app]. rewrite <- Heq. split; auto.
    + intros (pre & g & post & parts & Hfs & Hp & ->). destruct pre as [|[nm g'] pre].
      * cbn [app] in *. injection Hfs as <- <- <-. inversion Hp as [|? ? ? ? H1 H2]; subst.
        inversion H2; subst. exists y, []. split; auto.
      * exfalso. cbn [app] in Hfs. injection Hfs as <- <- Hfs. apply Hnin. rewrite Hfs, map_app.
        apply in_app_iff. right. left. cbn [fst]. auto.
  - destruct Hin as [Hx|Hin]; [cbn [fst] in Hx; contradiction|]. split.
    + intros (o1 & o2 & Ho & -> & H2). apply IH in H2; auto.
      destruct H2 as (pre & g & post & parts & -> & Hp & ->).
      exists ((name, f) :: pre), g, post, (o1 :: parts). split; auto. split; [constructor; auto|]. auto.
    + intros (pre & g & post & parts & Hfs & Hp & ->). destruct pre as [|[nm g'] pre].
      * cbn [app] in *. injection Hfs as -> _ _. contradiction.
      * cbn [app] in *. injection Hfs as <- <- Hfs. inversion Hp as [|? o1 ? parts' H1 H2]; subst.
        exists o1, (concat parts'). split; auto. split; auto. apply IH; auto.
        exists pre, g, post, parts'. auto.
Qed.

Lemma partial_dump_last n cid vals last ctx out : well_formed (cls E cid) ->
  In last (map fst (k_comps (cls E cid))) ->
  partial_dump E n cid vals (Some last) ctx = (out, Ok tt)
  <-> exists pre f post parts, k_comps (cls E cid) = pre ++ (last, f) :: post
      /\ Forall2 (own_part E n ctx vals) (pre ++ [(last, f)]) parts /\ out = concat parts.
Proof. intros Hwf Hin. apply partial_fields_dump_last; auto. apply well_formed_bound; auto. Qed.

(** Without [last_field]: up to the first field that has no value. *)
Lemma partial_fields_dump_none n ctx vals fs : bound fs ->
  forall out, partial_dump_fields E n fs vals None ctx = (out, Ok tt)
  <-> exists pre post parts, fs = pre ++ post
      /\ Forall2 (own_part E n ctx vals) pre parts /\ out = concat parts
      /\ match post with
         | [] => True
         | (name, f) :: _ => own_value vals name (conf f) VUndefined
         end.
Proof.
  induction fs as [|[name f] fs IH]; intros Hb out; cbn [partial_dump_fields].
  - split.
    + intros H. exists [], [], []. cbv [dret] in H. assert (out = []) by congruence. subst. auto.
    + intros (pre & post & parts & Hfs & Hp & -> & _). symmetry in Hfs. apply app_eq_nil in Hfs.
      destruct Hfs as [-> ->]. inversion Hp. auto.
  - pose proof (bound_cname _ name f Hb (or_introl eq_refl)) as Hcn.
    pose proof (bound_tail _ _ Hb) as Hbt. rewrite Hcn. clear Hcn.
    destruct (default_of (conf f)) as [dv|e|] eqn:Hdv.
    2,3: rewrite ?dbind_raise, ?dbind_oof; split; [discriminate|];
      intros (pre & post & parts & Hfs & Hp & -> & Hpost);
      (destruct pre as [|x pre]; cbn [app] in Hfs;
       [subst post; destruct Hpost as (dw & Hdw & _); congruence
       |injection Hfs as <- Hfs; inversion Hp as [|? ? ? ? (w & (dw & Hdw & _) & _) _]; cbn [snd] in *; congruence]).
    rewrite dbind_ok. cbv zeta. set (v := match dget vals name with Some v => v | None => dv end).
    rewrite andb_true_r.
    assert (Hov : forall w, own_value vals name (conf f) w <-> w = v).
    { intros w. split; [intros (dw & Hdw & ->)|intros ->; exists dv; auto].
      rewrite Hdv in Hdw. injection Hdw as <-. auto. }
    destruct (is_undefined v) eqn:Hun.
    + assert (Hv : v = VUndefined) by (destruct v; auto; discriminate). split.
      * intros H. cbv [dret] in H. assert (out = []) by congruence. subst.
        exists [], ((name, f) :: fs), []. split; auto. split; auto. split; auto. apply Hov. auto.
      * intros (pre & post & parts & Hfs & Hp & -> & Hpost). destruct pre as [|x pre].
        -- inversion Hp. auto.
        -- cbn [app] in Hfs. injection Hfs as <- Hfs.
           inversion Hp as [|? ? ? ? (w & Hw & Hf) _]. cbn [fst snd] in *. apply Hov in Hw. subst w.
           rewrite Hv in Hf. apply field_undefined_fails in Hf. destruct Hf.
    + cbn [andb]. split.
      * intros H. apply dbind_ok_inv in H. destruct H as (o1 & [] & o2 & H1 & H2 & ->).
        apply IH in H2; auto. destruct H2 as (pre & post & parts & -> & Hp & -> & Hpost).
        exists ((name, f) :: pre), post, (o1 :: parts). split; auto. split; auto. constructor; auto.
        exists v. split; auto. apply Hov. auto.
      * intros (pre & post & parts & Hfs & Hp & -> & Hpost). destruct pre as [|x pre].
        -- cbn [app] in Hfs. subst post. apply Hov in Hpost. rewrite <- Hpost in Hun. discriminate.
        -- cbn [app] in Hfs. injection Hfs as <- Hfs.
           inversion Hp as [|? o1 ? parts' (w & Hw & Hf) Hp']. cbn [fst snd] in *. apply Hov in Hw. subst.
           rewrite Hf. cbn [dbind concat].
           assert (H2 : partial_dump_fields E n (pre ++ post) vals None ctx = (concat parts', Ok tt)).
           { apply IH; auto. exists pre, post, parts'. auto. }
           rewrite H2. auto.
Qed.

Lemma partial_dump_none n cid vals ctx out : well_formed (cls E cid) ->
  partial_dump E n cid vals None ctx = (out, Ok tt)
  <-> exists pre post parts, k_comps (cls E cid) = pre ++ post
      /\ Forall2 (own_part E n ctx vals) pre parts /\ out = concat parts
      /\ match post with
         | [] => True
         | (name, f) :: _ => own_value vals name (conf f) VUndefined
         end.
Proof. intros Hwf. apply partial_fields_dump_none. apply well_formed_bound; auto. Qed.

(** ---------------------------------------------------------------- values as to_dict sees them *)
Lemma free_identity n : forall v v', struct_free v -> recursive_to_dicts E n v = Ok v' -> v' = v.
Proof.
  induction n as [|n IH]; intros v v' Hf H; [discriminate|].
  destruct Hf as [v Hv|l Hl|d Hd]; cbn [recursive_to_dicts] in H.
  - destruct v; try contradiction; congruence.
  - destruct (mapM (recursive_to_dicts E n) l) as [l'|e|] eqn:Hm; try discriminate. cbn [bind] in H.
    injection H as <-. f_equal. apply mapM_iff in Hm.
    induction Hm as [|x y l l' Hxy _ IHm]; auto. inversion Hl; subst. f_equal; auto.
  - match type of H with bind ?m _ = _ => destruct m as [d'|e|] eqn:Hm end; try discriminate.
    cbn [bind] in H. injection H as <-. f_equal. apply mapM_iff in Hm.
    induction Hm as [|[k x] [k' y] d d' Hxy _ IHm]; auto. inversion Hd; subst. cbn [fst snd] in *.
    destruct (recursive_to_dicts E n x) as [x'|e|] eqn:Hx; try discriminate. cbn [bind] in Hxy.
    injection Hxy as <- <-. f_equal; auto. f_equal. auto.
Qed.

Lemma simple_in_whatever n cid vals w name f : instance_of E cid vals -> plain_data vals ->
  to_dict_whatever_possible E n cid vals = Ok w ->
  In (name, f) (k_comps (cls E cid)) -> simple f ->
  (exists v, own_value vals name (conf f) v /\ v <> VUndefined /\ v <> VNotPresent
             /\ struct_free v /\ dget w name = Some v)
  \/ (dget w name = None
      /\ run_dict w (compute_value_for_dump (conf f) VNone)
         = Raise (EMissingRequired (c_name (conf f)))).
Proof.
  intros Hi Hpd Hw Hin (Hu & Hc & Hdis & dv & Hdv & Hfree & Hnp).
  pose proof (instance_name _ _ _ _ _ Hi Hin) as Hname.
  destruct (whatever_spec _ _ _ _ _ Hi Hw) as (Hnd & Hincl & Hspec). specialize (Hspec name f Hin).
  unfold run_struct in Hspec. rewrite run_compute, Hu in Hspec.
  unfold stored_or_fallback in Hspec. rewrite Hname in Hspec. cbn [run_q] in Hspec.
  pose proof Hi as (Hwf & Hndv & _).
  destruct (struct_mem vals name) eqn:Hm.
  - apply struct_mem_in in Hm. apply struct_keys_in in Hm; auto. destruct Hm as (v & Hv & Hvu).
    destruct (bound_assoc _ _ _ (well_formed_bound _ Hwf) Hin) as [Has _].
    cbn [run_q] in Hspec. rewrite (struct_get_stored _ _ _ _ _ _ _ Has Hname Hv) in Hspec. cbn [run_q] in Hspec.
    destruct (Hpd _ _ Hv) as (_ & Hvn & Hvf). left. exists v. split; [exists dv; rewrite Hv; auto|].
    split; auto. split; auto. split; auto. destruct v; auto; congruence.
  - assert (Hv : dget vals name = None).
    { destruct (dget vals name) as [v|] eqn:Hv; auto. exfalso.
      assert (struct_mem vals name = true); [|congruence]. apply struct_mem_in, struct_keys_in; auto.
      exists v. split; auto. apply (Hpd _ _ Hv). }
    assert (Hq : forall mem get keys, exists fv, run_q mem get keys (fallback_value (conf f)) = Ok fv
        /\ (fv = VUndefined \/ fv = dv)).
    { intros mem get keys. unfold fallback_value. rewrite Hc. unfold default_query.
      destruct (is_undefined (c_default (conf f))); cbn [negb run_q]; [eauto|].
      exists dv. split; auto. unfold default_of in Hdv.
      destruct (c_factory (conf f)) as [[x|e]|]; cbn [run_q]; congruence. }
    assert (Hsame : forall mem get keys mem' get' keys',
      run_q mem get keys (fallback_value (conf f)) = run_q mem' get' keys' (fallback_value (conf f))).
    { intros. unfold fallback_value. rewrite Hc. unfold default_query.
      destruct (is_undefined (c_default (conf f))); auto. cbn [negb].
      destruct (c_factory (conf f)) as [[x|e]|]; auto. }
    destruct (Hq (struct_mem vals) (struct_get E n cid vals) (struct_keys vals)) as (fv & Hfv & Hcase).
    rewrite Hfv in Hspec.
    assert (Hfn : is_not_present fv = false) by (destruct Hcase; subst; [auto|destruct dv; auto; congruence]).
    rewrite Hfn in Hspec. destruct (is_undefined fv) eqn:Hfu.
    + right. destruct Hspec as [_ Hspec]. split; auto.
      rewrite compute_run, stored_missing by (rewrite Hname; cbn [oget]; auto).
      unfold run_dict. rewrite Hu. rewrite (Hsame _ _ _ (struct_mem vals) (struct_get E n cid vals) (struct_keys vals)).
      rewrite Hfv, Hfn, Hfu. auto.
    + left. destruct Hcase as [->| ->]; [discriminate|]. exists dv. rewrite Hspec.
      split; [exists dv; rewrite Hv; split; auto|]. split; [destruct dv; auto; discriminate|]. auto.
Qed.

Lemma simple_value n cid vals all name f : instance_of E cid vals -> plain_data vals ->
  to_dict E n cid vals false = Ok all ->
  In (name, f) (k_comps (cls E cid)) -> simple f ->
  exists v, own_value vals name (conf f) v /\ v <> VUndefined /\ v <> VNotPresent
    /\ struct_free v /\ dget all name = Some v
    /\ exists w, to_dict_whatever_possible E n cid vals = Ok w /\ dget w name = Some v.
Proof.
  intros Hi Hpd Hall Hin Hs. destruct (to_dict_spec _ _ _ _ _ _ Hi Hall) as (w & Hw & raw & Hraw & Hnd & Hkeys & Hval).
  pose proof Hi as (Hwf & _). pose proof Hs as (_ & _ & Hdis & _).
  assert (Hr : exists v, dget raw name = Some v).
  { apply dget_in. apply Hkeys. split; [apply (in_map fst) in Hin; auto|]. right.
    rewrite (discarded_iff _ name f); auto. apply well_formed_bound; auto. }
  destruct Hr as [v Hr].
  destruct (simple_in_whatever n cid vals w name f Hi Hpd Hw Hin Hs) as [(x & Hx & Hxu & Hxn & Hxf & Hwx)|[Hwn Hbad]].
  - destruct (Hval name f v Hin Hr) as [Hv|[Hv _]]; [|congruence].
    assert (v = x) by congruence. subst x. exists v. split; auto. split; auto. split; auto. split; auto.
    split; [|exists w; auto].
    pose proof (dicts_of_get _ _ _ _ Hraw name) as Hg. rewrite Hr in Hg. destruct Hg as (v' & Hrec & Hg).
    apply free_identity in Hrec; auto. congruence.
  - destruct (Hval name f v Hin Hr) as [Hv|[_ Hv]]; congruence.
Qed.

Lemma own_value_fun vals name c v v' : own_value vals name c v -> own_value vals name c v' -> v = v'.
Proof. intros (d1 & H1 & ->) (d2 & H2 & ->). rewrite H1 in H2. injection H2 as <-. auto. Qed.

Lemma simple_part n cid vals all ctx name f bs : instance_of E cid vals -> plain_data vals ->
  to_dict E n cid vals false = Ok all ->
  In (name, f) (k_comps (cls E cid)) -> simple f -> self_contained E f ->
  field_part E n ctx all (name, f) bs <-> own_part E n ctx vals (name, f) bs.
Proof.
  intros Hi Hpd Hall Hin Hs Hsc.
  destruct (simple_value n cid vals all name f) as (v & Hv & Hu & Hn & Hf & Hg & _); auto.
  pose proof Hs as (Hun & _).
  assert (Hc : run_dict all (compute_value_for_dump (conf f) ctx) = Ok v).
  { apply (value_explicit _ _ _ name v); auto; [eapply instance_name; eauto|apply Hun]. }
  split.
  - intros (x & Hx & Hcase). cbn [snd] in *. rewrite Hc in Hx. injection Hx as <-.
    destruct Hcase as [[Hx _]|[_ Hx]]; [contradiction|]. exists v. split; auto. cbn [snd]. rewrite <- Hx. apply Hsc.
  - intros (x & Hx & Hd). cbn [fst snd] in *. rewrite (own_value_fun _ _ _ _ _ Hx Hv) in Hd.
    exists v. cbn [snd]. split; auto. right. split; auto. rewrite <- Hd. apply Hsc.
Qed.

Lemma forall2_app_r {A B} (R : A -> B -> Prop) l1 l2 m : Forall2 R (l1 ++ l2) m ->
  exists m1 m2, m = m1 ++ m2 /\ Forall2 R l1 m1 /\ Forall2 R l2 m2.
Proof. intros H. apply Forall2_app_inv_l in H. destruct H as (m1 & m2 & H1 & H2 & ->). eauto. Qed.

Lemma parts_prefix {A} (R R' : A -> list Z -> Prop) pre : forall p q,
  (forall x bs bs', In x pre -> R x bs -> R' x bs' -> bs = bs') ->
  Forall2 R pre p -> Forall2 R' pre q -> p = q.
Proof.
  induction pre as [|x pre IH]; intros p q Hf Hp Hq; inversion Hp; inversion Hq; subst; auto.
  f_equal; [eapply Hf; eauto; left; auto|]. apply IH; auto. intros. eapply Hf; eauto. right; auto.
Qed.

Lemma own_part_fun n ctx vals nf bs bs' : own_part E n ctx vals nf bs -> own_part E n ctx vals nf bs' -> bs = bs'.
Proof.
  intros (v & Hv & Hd) (v' & Hv' & Hd'). rewrite (own_value_fun _ _ _ _ _ Hv Hv') in Hd. congruence.
Qed.

(** A partial dump is a prefix of the full one. *)
Lemma partial_dump_prefix n cid vals last ctx out full : instance_of E cid vals -> plain_data vals ->
  (forall name f, In (name, f) (k_comps (cls E cid)) -> simple f /\ self_contained E f) ->
  (forall l, last = Some l -> In l (map fst (k_comps (cls E cid)))) ->
  struct_to_stream E n cid vals ctx = (full, Ok tt) ->
  partial_dump E n cid vals last ctx = (out, Ok tt) ->
  exists suffix, full = out ++ suffix.
Proof.
  intros Hi Hpd Hall Hlast Hfull Hpart. pose proof Hi as (Hwf & _).
  apply struct_dump_iff in Hfull. destruct Hfull as (all & parts & _ & Hd & Hp & ->).
  assert (Hpre : exists pre post parts', k_comps (cls E cid) = pre ++ post
            /\ Forall2 (own_part E n ctx vals) pre parts' /\ out = concat parts').
  { destruct last as [l|].
    - apply partial_dump_last in Hpart; auto. destruct Hpart as (pre & f & post & parts' & Hk & Hp' & ->).
      exists (pre ++ [(l, f)]), post, parts'. rewrite <- app_assoc. auto.
    - apply partial_dump_none in Hpart; auto. destruct Hpart as (pre & post & parts' & Hk & Hp' & -> & _).
      eauto 6. }
  destruct Hpre as (pre & post & parts' & Hk & Hp' & ->).
  rewrite Hk in Hp. apply forall2_app_r in Hp. destruct Hp as (m1 & m2 & -> & H1 & H2).
  assert (Heq : m1 = parts').
  { eapply parts_prefix; eauto. intros [name f] bs bs' Hx Hb Hb'.
    assert (Hin : In (name, f) (k_comps (cls E cid))) by (rewrite Hk; apply in_app_iff; auto).
    destruct (Hall _ _ Hin) as [Hs Hsc]. apply (simple_part n cid vals all) in Hb; auto.
    eapply own_part_fun; eauto. }
  subst m1. exists (concat m2). rewrite concat_app. auto.
Qed.

(** When the full dump works, so does every partial one. *)
Lemma partial_dump_exists n cid vals ctx full last : instance_of E cid vals -> plain_data vals ->
  (forall name f, In (name, f) (k_comps (cls E cid)) -> simple f /\ self_contained E f) ->
  (forall l, last = Some l -> In l (map fst (k_comps (cls E cid)))) ->
  struct_to_stream E n cid vals ctx = (full, Ok tt) ->
  exists out suffix, partial_dump E n cid vals last ctx = (out, Ok tt) /\ full = out ++ suffix
    /\ (last = None -> suffix = []).
Proof.
  intros Hi Hpd Hall Hlast Hfull. pose proof Hi as (Hwf & _). pose proof Hfull as Hf.
  apply struct_dump_iff in Hf. destruct Hf as (all & parts & _ & Hd & Hp & ->).
  assert (Hown : Forall2 (own_part E n ctx vals) (k_comps (cls E cid)) parts).
  { assert (Hg : forall fs parts, incl fs (k_comps (cls E cid)) ->
        Forall2 (field_part E n ctx all) fs parts -> Forall2 (own_part E n ctx vals) fs parts).
    { intros fs0 parts0 Hincl Hf2. induction Hf2 as [|[name f] bs fs0 parts0 Hb Hf2 IHf]; auto.
      assert (Hin : In (name, f) (k_comps (cls E cid))) by (apply Hincl; left; auto).
      destruct (Hall _ _ Hin) as [Hs Hsc]. constructor.
      - apply (simple_part n cid vals all); auto.
      - apply IHf. intros x Hx. apply Hincl. right. auto. }
    apply Hg; auto. apply incl_refl. }
  destruct last as [l|].
  - specialize (Hlast l eq_refl). apply in_map_iff in Hlast. destruct Hlast as ([l' f] & Hl & Hin).
    cbn [fst] in Hl. subst l'. apply in_split in Hin. destruct Hin as (pre & post & Hk).
    rewrite Hk in Hown. change ((l, f) :: post) with ([(l, f)] ++ post) in Hown.
    rewrite app_assoc in Hown. apply forall2_app_r in Hown. destruct Hown as (m1 & m2 & -> & H1 & H2).
    exists (concat m1), (concat m2). split; [|split; [apply concat_app|discriminate]].
    apply partial_dump_last; auto.
    + rewrite Hk, map_app. apply in_app_iff. right. left. auto.
    + exists pre, f, post, m1. auto.
  - exists (concat parts), []. split; [|rewrite app_nil_r; auto].
    apply partial_dump_none; auto. exists (k_comps (cls E cid)), [], parts. rewrite app_nil_r. auto.
Qed.

(** A size taken from another field cannot be resolved. *)
Lemma partial_dump_size_ref n ctx f name v : c_size (conf f) = SRef name -> is_data v = true ->
  accepts (conf f) v -> (exists bs, do_dump E n f v ctx [] = (bs, Ok tt)) \/ kind f = KBytes ->
  field_to_stream E n f v ctx [] = ([], Raise (EMissingRequired (Some name))).
Proof.
  intros Hs Hd Ha Hcase. unfold field_to_stream, field_to_stream_with. rewrite to_stream_data by auto.
  destruct Hcase as [[bs Hb]|Hk].
  - rewrite Hb. unfold sized_write. rewrite Hs. unfold ges, get_expected_size_with. rewrite Hs. cbn [dget].
    rewrite dbind_raise. auto.
  - destruct f as [c k]. cbn [kind conf] in *. subst k. rewrite do_dump_leaf by auto. cbn [leaf_dump].
    unfold get_expected_size_with. rewrite Hs. cbn [dget]. rewrite dbind_raise. auto.
Qed.
End Contained.
