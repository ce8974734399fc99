(** Termination of loads on arbitrary data. *)
From Verif Require Import Tac StreamProofs VarintsProofs VarintsMore LeafProofs LeafMore.
From Verif Require Import FieldProofs FieldMore StructProofs ForwardProofs FuelProofs ArrayProofs.
From Verif Require Export LoadProofs.

(** ** The loops over bytes *)
Lemma read_one s : (exists b r, rest s = b :: r /\ read s 1 = ([b], advance s 1)
    /\ length (rest (advance s 1)) = length r) \/ (rest s = [] /\ fst (read s 1) = []).
Proof.
  destruct (rest s) as [|b r] eqn:Hr; [right|left].
  - split; auto. unfold read. rewrite Hr. reflexivity.
  - exists b, r. split; auto. split.
    + unfold read. rewrite Hr. cbn [length]. replace (1 <? 0) with false by lia.
      rewrite Z.min_l by lia. reflexivity.
    + rewrite rest_advance, Hr. reflexivity.
Qed.

Lemma uint8_cases s : (exists z s1, read_uint8 s = (s1, Ok z) /\ (length (rest s1) < length (rest s))%nat)
  \/ exists s1 e, read_uint8 s = (s1, Raise e).
Proof.
  unfold read_uint8, read_int. destruct (read_one s) as [(b & r & Hr & Hrd & Hl)|[Hr Hf]].
  - left. rewrite Hrd. cbn. eexists _, _. split; [reflexivity|]. rewrite Hl, Hr. cbn. lia.
  - right. destruct (read s 1) as [data s1]. cbn in Hf. subst data. cbn. eauto.
Qed.

Lemma uleb_finishes fuel : forall v b s, (length (rest s) < fuel)%nat ->
  snd (decode_uleb_loop fuel v b s) <> OOF.
Proof.
  induction fuel as [|fuel IH]; intros v b s Hl; [lia|]. cbn [decode_uleb_loop]. unfold lbind, lret.
  destruct (uint8_cases s) as [(z & s1 & -> & H)|(s1 & e & ->)]; [|discriminate].
  destruct (Z.land z 128 =? 0); [discriminate|]. apply IH. lia.
Qed.

Lemma vlq_finishes fuel : forall v s, (length (rest s) < fuel)%nat ->
  snd (decode_vlq_loop fuel v s) <> OOF.
Proof.
  induction fuel as [|fuel IH]; intros v s Hl; [lia|]. cbn [decode_vlq_loop]. unfold lbind, lret.
  destruct (uint8_cases s) as [(z & s1 & -> & H)|(s1 & e & ->)]; [|discriminate].
  destruct (Z.land z 128 =? 0); [discriminate|]. apply IH. lia.
Qed.

Lemma compact_finishes fuel : forall sg v s, (length (rest s) < fuel)%nat ->
  snd (decode_compact_loop fuel sg v s) <> OOF.
Proof.
  induction fuel as [|fuel IH]; intros sg v s Hl; [lia|]. cbn [decode_compact_loop]. unfold lbind, lret.
  destruct (uint8_cases s) as [(z & s1 & -> & H)|(s1 & e & ->)]; [|discriminate].
  destruct sg; (destruct (Z.land z 128 =? 0); [discriminate|]; apply IH; lia).
Qed.

Lemma vli_finishes fmt s : snd (vli_decode fmt s) <> OOF.
Proof.
  destruct fmt; cbn [vli_decode].
  - apply compact_finishes. lia.
  - unfold decode_integer_leb128, decode_integer_uleb128.
    pose proof (uleb_finishes (S (length (rest s))) 0 0 s ltac:(lia)) as H.
    destruct (decode_uleb_loop _ _ _ s) as [s1 [v|e|]]; try exact H; try discriminate.
    destruct (v =? 0); [discriminate|]. destruct (_ <? _); discriminate.
  - apply uleb_finishes. lia.
  - apply vlq_finishes. lia.
Qed.

Lemma stringz_finishes fuel : forall nm cd mx nr buf acc s, (length (rest s) < fuel)%nat ->
  snd (stringz_loop fuel nm cd mx nr buf acc s) <> OOF.
Proof.
  induction fuel as [|fuel IH]; intros nm cd mx nr buf acc s Hl; [lia|]. cbn [stringz_loop].
  unfold iter_next. destruct (match mx with None => true | Some m => nr <? m end).
  2:{ destruct (forgiven cd buf); discriminate. }
  destruct (read_one s) as [(b & r & Hr & Hrd & Hl')|[Hr Hf]].
  - rewrite Hrd. assert (length (rest (advance s 1)) < fuel)%nat by (rewrite Hl'; rewrite Hr in Hl; cbn in Hl; lia).
    destruct (dec_step cd (buf ++ [b])) as [cp| | |cd'|]; try discriminate; auto.
    destruct (cp =? 0); [discriminate|auto].
  - destruct (read s 1) as [data s1]. cbn in Hf. subst data. destruct (forgiven cd buf); discriminate.
Qed.

Lemma read_int_finishes n sg e s : snd (read_int n sg e s) <> OOF.
Proof. unfold read_int. destruct (read s n). destruct (_ <? _); discriminate. Qed.

Lemma read_exact_finishes c n s : snd (read_exact_size c (Ok n) s) <> OOF.
Proof. unfold read_exact_size. destruct (read s n). destruct (_ <? _); discriminate. Qed.

Lemma leaf_load_finishes ints nm c k d dd dd0 s : c_name c = None \/ c_name c = nm ->
  sized_leaf ints c k -> have_ints ints d -> oget d nm = None ->
  snd (leaf_load c k (get_expected_size_with dd c k d) (get_expected_size_with dd0 c k []) s) <> OOF.
Proof.
  intros Hnm Hs Hd Hn. assert (Hown : oget d (c_name c) = None) by (destruct Hnm as [->| ->]; auto).
  destruct Hs; cbn [leaf_load]; unfold lbind, llift, lret, lraise.
  - rewrite H. pose proof (read_int_finishes n sg e s).
    destruct (read_int n sg e s) as [s1 [z|x|]]; cbn in *; congruence.
  - pose proof (vli_finishes fmt s). destruct (vli_decode fmt s) as [s1 [z|x|]]; cbn in *; congruence.
  - unfold get_expected_size_with. rewrite H. pose proof (read_exact_finishes c (ff_bytes fmt) s).
    destruct (read_exact_size c (Ok (ff_bytes fmt)) s) as [s1 [b|x|]]; cbn in *; try congruence.
    destruct (zlen b =? ff_bytes fmt); discriminate.
  - destruct (known_size_ok ints c (KTime r tz sg e) d dd H Hd) as [n ->].
    pose proof (read_int_finishes n sg e s).
    destruct (read_int n sg e s) as [s1 [z|x|]]; cbn in *; try congruence.
    pose proof (time_finishes r tz z). destruct (time_of_int r tz z) as [us|x|]; cbn; congruence.
  - destruct (known_size_ok ints c KBytes d dd H Hd) as [n ->]. pose proof (read_exact_finishes c n s).
    destruct (read_exact_size c (Ok n) s) as [s1 [b|x|]]; cbn in *; congruence.
  - destruct (known_size_ok ints c (KString cd pad) d dd H Hd) as [n ->]. pose proof (read_exact_finishes c n s).
    destruct (read_exact_size c (Ok n) s) as [s1 [b|x|]]; cbn in *; try congruence.
    pose proof (decode_finishes cd b) as Hf.
    destruct (decode cd b) as [t|x|]; cbn in *; congruence.
  - assert (Hg : (exists n, get_expected_size_with dd c (KStringZ cd pad) d = Ok n)
              \/ exists fld, get_expected_size_with dd c (KStringZ cd pad) d = Raise (EUndefinedSize fld)).
    { destruct H as [H|(Hsz & Hdf & Hfc)]; [left; eapply known_size_ok; eauto|right].
      exists (c_name c). rewrite ges_unsized; auto. }
    destruct Hg as [[n ->]|[fld ->]]; cbn [is_UndefinedSizeError]; apply stringz_finishes; lia.
  - rewrite H. destruct (read s (uuid_size fmt)) as [raw s1].
    destruct (zlen raw <? uuid_size fmt); [discriminate|].
    destruct (match fmt with BINARY_VARIANT_1 | BINARY_VARIANT_2 => _ | _ => _ end); [discriminate|].
    pose proof (uuid_finishes fmt raw). destruct (uuid_parse fmt raw); cbn; congruence.
Qed.

(** ** [from_stream] *)
Lemma from_stream_finishes nr dl eqv c ctx d s :
  (allow_null c = true -> nr <> OOF) ->
  (forall v, run_validators (c_validators c) v <> OOF) ->
  snd (dl s) <> OOF ->
  (allow_null c = true -> forall s1 v, dl s = (s1, Ok v) -> eqv v (c_null c) <> OOF) ->
  (c_const c <> VUndefined -> forall s1 v, dl s = (s1, Ok v) ->
     eqv v (c_const c) <> OOF /\ eqv VNone (c_const c) <> OOF) ->
  snd (from_stream_with nr dl eqv c ctx d s) <> OOF.
Proof.
  intros Hnr Hval Hdl Hen Hec. unfold from_stream_with.
  set (lv := lbind _ _).
  assert (Hlv : snd (lv s) <> OOF).
  { unfold lv, lbind, llift, lret. destruct (dl s) as [s1 [v|e'|]] eqn:Hd; cbn in Hdl |- *; try congruence.
    assert (Hc : forall w, (w = v \/ w = VNone) ->
        snd (match (if negb (is_undefined (c_const c)) then
                 do b <- eqv w (c_const c); if b then Ok tt else Raise (EValidation (c_name c))
               else Ok tt) with
         | Ok _ => match run_validators (c_validators c) w with
                   | Ok _ => (s1, Ok w) | Raise e => (s1, Raise e) | OOF => (s1, OOF) end
         | Raise e => (s1, Raise e) | OOF => (s1, OOF) end) <> OOF).
    { intros w Hw.
      assert (Hv : snd (match run_validators (c_validators c) w with
                   | Ok _ => (s1, Ok w) | Raise e => (s1, Raise e) | OOF => (s1, OOF) end) <> OOF).
      { specialize (Hval w). destruct (run_validators (c_validators c) w) as [[]|e''|]; cbn; congruence. }
      destruct (is_undefined (c_const c)) eqn:Hu; cbn [negb]; auto.
      assert (Hcu : c_const c <> VUndefined) by (intros Hx; rewrite Hx in Hu; discriminate).
      assert (Heq : eqv w (c_const c) <> OOF).
      { destruct (Hec Hcu s1 v eq_refl). destruct Hw as [-> | ->]; auto. }
      destruct (eqv w (c_const c)) as [[|]|e''|]; cbn [bind]; auto; discriminate || congruence. }
    destruct (allow_null c) eqn:Ha.
    - specialize (Hen eq_refl s1 v eq_refl).
      destruct (eqv v (c_null c)) as [b|e''|]; cbn [bind]; try (cbn; congruence).
      apply (Hc (if b then VNone else v)). destruct b; auto.
    - apply (Hc v). auto. }
  pose proof (run_dict_finishes d (c_present c ctx (Some s))) as Hp.
  destruct (run_dict d (c_present c ctx (Some s))) as [[|]|e'|]; cbn; try congruence.
  destruct (allow_null c) eqn:Ha; [|exact Hlv].
  destruct nr as [nb|e'|]; [| |destruct Hnr; auto].
  - match goal with |- context [bytes_eqb ?p nb] => destruct (bytes_eqb p nb) end; [|exact Hlv].
    specialize (Hval VNone). destruct (run_validators (c_validators c) VNone); cbn; congruence.
  - destruct (is_UnserializableValueError e'); [|discriminate].
    destruct (is_default (c_null c)); [discriminate|exact Hlv].
Qed.

Section Finish.
Variable A : exn -> Prop.
Variable E : env.
Hypothesis Hschema : robust_schema A E.

Definition core_finishes (f : field) (ctx : value) (d : dict) (s : stream) : Prop :=
  exists n, snd (do_load E n f ctx d s) <> OOF.

Lemma core_mono n m f ctx d s : (n <= m)%nat -> snd (do_load E n f ctx d s) <> OOF ->
  do_load E m f ctx d s = do_load E n f ctx d s.
Proof. intros Hle H. destruct (do_load_mono E n m Hle f ctx d s); congruence. Qed.

Lemma field_finishes ints nm f ctx d s : robust A ints nm f -> callables_return (conf f) ->
  have_ints ints d -> oget d nm = None ->
  core_finishes f ctx d s -> load_finishes E f ctx d s.
Proof.
  intros Hf Hcall Hd Hn [n Hc].
  assert (Hval : forall v, run_validators (c_validators (conf f)) v <> OOF).
  { intros v. apply validators_finish. intros check Hi. apply Hcall; auto. }
  exists (S n). unfold field_from_stream, field_from_stream_with.
  assert (Heq : do_load E (S n) f ctx d s = do_load E n f ctx d s) by (apply core_mono; auto; lia).
  destruct Hf as [c k _ Hnm Hs Hnk Hcs _| ? ? ? _ Hnull Hcu| ? ? _ Hnull Hcu|? ? ? ? _ Hnull Hcu];
    cbn [conf] in *.
  2,3,4: apply from_stream_finishes; auto; try (unfold allow_null; rewrite Hnull; discriminate);
    try contradiction; rewrite Heq; auto.
  apply from_stream_finishes; auto.
  - intros Ha. destruct (leaf_null_repr E (S n) ints c k d Hs Hnk Ha Hd) as [[nb ->]|(e & -> & _)]; discriminate.
  - rewrite Heq. auto.
  - intros _ s1 v Hl. rewrite do_load_leaf in Hl by (destruct Hs; auto). apply leaf_load_scalar in Hl.
    apply py_eq_scalar; auto.
    destruct Hnk as [? Hx|? ? Hx|? [Hx|Hx] _|? ? ? Hx|? ? ? Hx]; rewrite Hx; exact I.
  - intros _ s1 v Hl. rewrite do_load_leaf in Hl by (destruct Hs; auto). apply leaf_load_scalar in Hl.
    split; apply py_eq_scalar; auto. exact I.
Qed.

Definition struct_finishes (cid : nat) (ctx : value) : Prop :=
  forall s, exists n, snd (struct_from_stream E n cid ctx [] s) <> OOF.

Lemma struct_finish_mono n m cid ctx s : (n <= m)%nat ->
  snd (struct_from_stream E n cid ctx [] s) <> OOF ->
  struct_from_stream E m cid ctx [] s = struct_from_stream E n cid ctx [] s.
Proof. intros Hle H. destruct (struct_from_stream_mono E n m cid ctx [] Hle s); congruence. Qed.

Lemma leaf_not_absent c k g g0 s s' v : leaf_load c k g g0 s = (s', Ok v) -> v <> VNotPresent.
Proof.
  assert (Hz : forall fuel nm cd mx nr buf acc s s' v,
      stringz_loop fuel nm cd mx nr buf acc s = (s', Ok v) -> v <> VNotPresent).
  { clear. induction fuel as [|fuel IH]; intros nm cd mx nr buf acc s s' v H; [discriminate|].
    cbn [stringz_loop] in H. destruct (iter_next mx nr s) as [[b s1]|].
    - destruct (dec_step cd (buf ++ [b])) as [cp| | |cd'|]; try discriminate; eauto.
      destruct (cp =? 0); eauto. injection H as _ <-. discriminate.
    - destruct (forgiven cd buf); discriminate. }
  destruct k; cbn [leaf_load]; unfold lbind, lret, llift, lraise; intros H.
  - destruct (c_size c); try discriminate. destruct (read_int _ _ _ s) as [s1 [z|?|]]; try discriminate.
    injection H as _ <-. discriminate.
  - destruct (vli_decode fmt s) as [s1 [z|?|]]; try discriminate. injection H as _ <-. discriminate.
  - destruct (read_exact_size c g0 s) as [s1 [b|?|]]; try discriminate.
    destruct (zlen b =? ff_bytes fmt); try discriminate. injection H as _ <-. discriminate.
  - destruct g as [m|?|]; try discriminate. destruct (read_int _ _ _ s) as [s1 [z|?|]]; try discriminate.
    destruct (time_of_int _ _ z); try discriminate. injection H as _ <-. discriminate.
  - destruct (read_exact_size c g s) as [s1 [b|?|]]; try discriminate. injection H as _ <-. discriminate.
  - destruct (read_exact_size c g s) as [s1 [b|?|]]; try discriminate.
    destruct (decode c0 b); try discriminate. injection H as _ <-. discriminate.
  - destruct g as [m|x|]; try discriminate; eauto.
    destruct (is_UndefinedSizeError x); try discriminate; eauto.
  - destruct (c_size c); try discriminate. destruct (read s n) as [raw s1].
    destruct (zlen raw <? n); try discriminate.
    destruct (match fmt with BINARY_VARIANT_1 | BINARY_VARIANT_2 => _ | _ => _ end); try discriminate.
    destruct (uuid_parse fmt raw); try discriminate. injection H as _ <-. discriminate.
  - discriminate.
  - discriminate.
  - discriminate.
Qed.

Lemma array_load_list halt load1 fuel : forall values s s' v,
  array_load fuel halt load1 values s = (s', Ok v) -> exists l, v = VList l.
Proof.
  induction fuel as [|fuel IH]; intros values s s' v H; [discriminate|]. cbn [array_load] in H.
  destruct (halt s values) as [[[|] vs]|e|]; try discriminate.
  - injection H as _ <-. eauto.
  - destruct (load1 s) as [s1 [w|e|]]; try discriminate. eauto.
Qed.

Lemma core_not_absent n : forall f ctx d s s' v, do_load E n f ctx d s = (s', Ok v) -> v <> VNotPresent.
Proof.
  induction n as [|n IH]; intros f ctx d s s' v H; destruct f as [c k].
  - destruct k; try (rewrite do_load_leaf in H by auto; eapply leaf_not_absent; eauto); discriminate.
  - destruct k; try (rewrite do_load_leaf in H by auto; eapply leaf_not_absent; eauto);
      cbn [do_load kind] in H; unfold lbind, lret in H.
    + apply array_load_list in H. destruct H as [l ->]. discriminate.
    + destruct (struct_from_stream_with E (do_load E n) n cid ctx [] s) as [s1 [w|e|]]; try discriminate.
      injection H as _ <-. discriminate.
    + destruct (load_decider s ctx d) as [i|e|]; try discriminate.
      destruct (nth_error choices i) as [[g|cid]|]; try discriminate; eauto.
      destruct (struct_from_stream_with E (do_load E n) n cid ctx [] s) as [s1 [w|e|]]; try discriminate.
      injection H as _ <-. discriminate.
Qed.

Lemma loaded_not_absent ints nm f ctx d s s' v : robust A ints nm f ->
  always_present (conf f) \/ c_npv (conf f) <> VNotPresent ->
  loads_to E f ctx d s s' v -> v <> VNotPresent.
Proof.
  intros _ Hp [n H]. unfold field_from_stream, field_from_stream_with, from_stream_with in H.
  destruct (run_dict d (c_present (conf f) ctx (Some s))) as [[|]|e|] eqn:Hpr; try discriminate.
  - set (lv := lbind _ _) in H.
    assert (Hlv : forall s s', lv s = (s', Ok v) -> v <> VNotPresent).
    { clear H. intros s0 s0'. unfold lv, lbind, llift, lret.
      destruct (do_load E n f ctx d s0) as [s1 [w|e|]] eqn:Hd; try discriminate.
      apply core_not_absent in Hd.
      destruct (if allow_null (conf f) then _ else _) as [u|e|] eqn:Hu; try discriminate.
      destruct (if negb (is_undefined (c_const (conf f))) then _ else _) as [[]|e|]; try discriminate.
      destruct (run_validators (c_validators (conf f)) u); try discriminate.
      intros [= _ <-]. destruct (allow_null (conf f)).
      - destruct (py_eq E n w (c_null (conf f))) as [[|]|e|]; cbn [bind] in Hu; congruence.
      - congruence. }
    destruct (allow_null (conf f)) eqn:Ha; [|eauto].
    destruct (null_repr (do_dump E n) f d) as [nb|e|]; try discriminate.
    + destruct (peek_bytes (zlen nb) true s) as [s1 [p|e|]]; try discriminate.
      destruct (bytes_eqb p nb); [|eauto].
      destruct (run_validators (c_validators (conf f)) VNone); try discriminate.
      injection H as _ <-. discriminate.
    + destruct (is_UnserializableValueError e); try discriminate.
      destruct (is_default (c_null (conf f))); try discriminate. eauto.
  - injection H as _ <-. destruct Hp as [Hp|Hp]; auto. rewrite Hp in Hpr. discriminate.
Qed.

Lemma core_terminates rank r f : bounded E rank r f -> forall ctx,
  (forall cid, (rank cid < r)%nat -> struct_finishes cid ctx) ->
  forall ints nm d s, robust A ints nm f -> have_ints ints d -> oget d nm = None ->
  core_finishes f ctx d s.
Proof.
  intros Hb ctx Hcls.
  induction Hb as [c k Hcall Hk|c comp cnt Hcall Hcnt Hpres Hb IH|c comp Hcall Hcons Hb IH
    |c cid Hcall Hlt|c choices ld dd Hcall Hld Hb IH Hst]; intros ints nm d s Hr Hd Hn.
  - exists 0%nat. inversion Hr; subst; try contradiction.
    rewrite do_load_leaf by (destruct k; auto). eapply leaf_load_finishes; eauto.
  - inversion Hr as [? ? ? ? Hs|? ? ? ? ? ? Hc Hcomp| |]; subst; [inversion Hs|].
    destruct Hc as [->|Hc]; [congruence|]. destruct (known_count_ok _ _ _ Hc Hd) as [m Hm].
    assert (Hf : forall s, load_finishes E comp ctx d s).
    { intros s0. eapply field_finishes; eauto. inversion Hb; auto. }
    destruct (array_terminates E comp ctx d (array_halt cnt None (c_name c) ctx d)
      (fun s values => Z.to_nat (m - zlen values)) Hf) with (k := Z.to_nat m) (s := s) (values := @nil value)
      as [n Hn'].
    + intros s0 values. rewrite (halt_counted _ _ _ _ _ _ _ Hm). destruct (m <=? zlen values); auto.
    + intros s0 s1 v values Hh Hl. rewrite (halt_counted _ _ _ _ _ _ _ Hm) in Hh.
      assert (Hlt : zlen values < m) by (destruct (m <=? zlen values) eqn:Hx; [discriminate|lia]).
      pose proof (loaded_not_absent _ _ _ _ _ _ _ _ Hcomp Hpres Hl) as Hv.
      replace (is_not_present v) with false by (destruct v; auto; congruence).
      rewrite zlen_app. change (zlen [v]) with 1. lia.
    + change (zlen (@nil value)) with 0. lia.
    + exists (S n). cbn [do_load kind].
      change (name_of (Field c (KArray comp cnt None))) with (c_name c).
      apply (Hn' n n); auto.
  - inversion Hr as [? ? ? ? Hs|? ? ? ? ? ? Hc Hcomp| |]; subst; [inversion Hs|].
    assert (Hf : forall s, load_finishes E comp ctx d s).
    { intros s0. eapply field_finishes; eauto. inversion Hb; auto. }
    destruct (array_terminates E comp ctx d (array_halt CntNone None (c_name c) ctx d)
      (fun s _ => length (rest s)) Hf) with (k := length (rest s)) (s := s) (values := @nil value)
      as [n Hn']; auto.
    + intros s0 values. rewrite halt_uncounted. destruct (rest s0); auto.
    + intros s0 s1 v values Hh Hl. rewrite halt_uncounted in Hh.
      destruct (rest s0) as [|b r0] eqn:Hrs; [discriminate|].
      assert (Hne : rest s0 <> []) by congruence.
      pose proof (Hcons _ _ _ _ _ Hl Hne) as Hp.
      pose proof (loads_to_forward _ _ _ _ _ _ _ Hl) as (Hdat & _ & Hmax).
      rewrite <- Hrs. unfold rest in *. rewrite !skipn_length, Hdat.
      pose proof (f_equal (@length Z) Hrs) as Hl'. rewrite skipn_length in Hl'. cbn [length] in Hl'. lia.
    + exists (S n). cbn [do_load kind].
      change (name_of (Field c (KArray comp CntNone None))) with (c_name c).
      apply (Hn' n n); auto.
  - destruct (Hcls cid Hlt s) as [n Hfin]. exists (S n). cbn [do_load kind]. unfold lbind, lret.
    change (struct_from_stream_with E (do_load E n) n cid ctx [] s)
      with (struct_from_stream E n cid ctx [] s).
    destruct (struct_from_stream E n cid ctx [] s) as [s1 [w|e|]]; cbn in *; congruence.
  - inversion Hr as [? ? ? ? Hs| | |? ? ? ? ? ? ? Hle Hlen Hch]; subst; [inversion Hs|].
    destruct (ld s ctx d) as [i|e|] eqn:Hl.
    + pose proof (Hlen _ _ _ _ Hl) as Hi.
      destruct (nth_error choices i) as [[g|cid]|] eqn:Hnth.
      * pose proof (nth_error_In _ _ Hnth) as Hin.
        destruct (IH g Hin ints nm d s) as [n Hfin]; auto.
        exists (S n). cbn [do_load kind]. rewrite Hl, Hnth. exact Hfin.
      * destruct (Hcls cid (Hst _ (nth_error_In _ _ Hnth)) s) as [n Hfin].
        exists (S n). cbn [do_load kind]. rewrite Hl, Hnth. unfold lbind, lret.
        change (struct_from_stream_with E (do_load E n) n cid ctx [] s)
          with (struct_from_stream E n cid ctx [] s).
        destruct (struct_from_stream E n cid ctx [] s) as [s1 [w|e|]]; cbn in *; congruence.
      * apply nth_error_None in Hnth. lia.
    + exists 1%nat. cbn [do_load kind]. rewrite Hl. discriminate.
    + destruct (Hld s ctx d Hl).
Qed.

Lemma fields_terminate ctx fs ints : robust_fields A ints fs ->
  (forall name f, In (name, f) fs -> callables_return (conf f)
     /\ forall ints nm d s, robust A ints nm f -> have_ints ints d -> oget d nm = None ->
          core_finishes f ctx d s) ->
  forall d s, have_ints ints d -> NoDup (map fst fs) ->
  (forall name, In name (map fst fs) -> dget d name = None) ->
  exists n, forall m, (n <= m)%nat -> snd (load_fields E (do_load E m) m fs ctx d s) <> OOF.
Proof.
  intros Hfs. induction Hfs as [ints|ints name f fs Hf Hint Hfs IH|ints name f fs Hf Hfs IH];
    intros Hcore d s Hd Hnd Hnone.
  - exists 0%nat. intros m _. discriminate.
  - assert (Hown : dget d name = None) by (apply Hnone; left; auto).
    destruct (Hcore name f (or_introl eq_refl)) as [Hcall Hc].
    destruct (field_finishes ints (Some name) f ctx d s Hf Hcall Hd Hown) as [n Hn]; [eauto|].
    destruct (field_from_stream E n f ctx d s) as [s1 [v|e|]] eqn:Hl; cbn in Hn; try congruence.
    + destruct (IH ltac:(intros; apply Hcore with name0; right; auto) (d ++ [(name, v)]) s1) as [n2 Hn2].
      * intros x [<-|Hx].
        -- destruct (integer_loads A E _ _ _ _ _ _ _ _ _ Hf Hint Hl) as [z ->].
           exists z. rewrite dget_app, Hown. cbn. rewrite String.eqb_refl. auto.
        -- apply (have_ints_app ints d [(name, v)]); auto.
      * inversion Hnd; auto.
      * intros x Hx. rewrite dget_app, Hnone by (right; auto).
        cbn. destruct (String.eqb_spec name x) as [->|]; auto. inversion Hnd; contradiction.
      * exists (Nat.max n n2). intros m Hm. cbn [load_fields]. unfold lbind.
        change (field_from_stream_with E (do_load E m) m f ctx d s) with (field_from_stream E m f ctx d s).
        rewrite (finished_mono E n m) by (try lia; rewrite Hl; discriminate). rewrite Hl.
        unfold dmem. rewrite Hown. apply Hn2. lia.
    + exists n. intros m Hm. cbn [load_fields]. unfold lbind.
      change (field_from_stream_with E (do_load E m) m f ctx d s) with (field_from_stream E m f ctx d s).
      rewrite (finished_mono E n m) by (try lia; rewrite Hl; discriminate). rewrite Hl. discriminate.
  - assert (Hown : dget d name = None) by (apply Hnone; left; auto).
    destruct (Hcore name f (or_introl eq_refl)) as [Hcall Hc].
    destruct (field_finishes ints (Some name) f ctx d s Hf Hcall Hd Hown) as [n Hn]; [eauto|].
    destruct (field_from_stream E n f ctx d s) as [s1 [v|e|]] eqn:Hl; cbn in Hn; try congruence.
    + destruct (IH ltac:(intros; apply Hcore with name0; right; auto) (d ++ [(name, v)]) s1) as [n2 Hn2].
      * apply have_ints_app; auto.
      * inversion Hnd; auto.
      * intros x Hx. rewrite dget_app, Hnone by (right; auto).
        cbn. destruct (String.eqb_spec name x) as [->|]; auto. inversion Hnd; contradiction.
      * exists (Nat.max n n2). intros m Hm. cbn [load_fields]. unfold lbind.
        change (field_from_stream_with E (do_load E m) m f ctx d s) with (field_from_stream E m f ctx d s).
        rewrite (finished_mono E n m) by (try lia; rewrite Hl; discriminate). rewrite Hl.
        unfold dmem. rewrite Hown. apply Hn2. lia.
    + exists n. intros m Hm. cbn [load_fields]. unfold lbind.
      change (field_from_stream_with E (do_load E m) m f ctx d s) with (field_from_stream E m f ctx d s).
      rewrite (finished_mono E n m) by (try lia; rewrite Hl; discriminate). rewrite Hl. discriminate.
Qed.

(** Validation of a freshly loaded instance: every field is stored, so nothing is computed. *)
Lemma stored_get n cid vals name :
  Forall (fun nf => c_name (conf (snd nf)) = Some (fst nf)) (k_comps (cls E cid)) ->
  (forall name, In name (map fst (k_comps (cls E cid))) -> exists v, dget vals name = Some v) ->
  struct_get E n cid vals name <> OOF.
Proof.
  intros Hnm Hall. destruct (assoc (comps E cid) name) as [f|] eqn:Hass.
  - assert (Hinf : In (name, f) (k_comps (cls E cid))) by (apply assoc_in; auto).
    pose proof (proj1 (Forall_forall _ _) Hnm _ Hinf) as Hname. cbn in Hname.
    destruct (Hall name) as [v Hv]. { apply in_map_iff. exists (name, f). auto. }
    destruct n; cbn [struct_get]; rewrite Hass; unfold name_of; rewrite Hname; cbn [oget]; rewrite Hv; discriminate.
  - destruct n; cbn [struct_get]; rewrite Hass; discriminate.
Qed.

Lemma validate_finishes n cid vals :
  (forall name f, In (name, f) (k_comps (cls E cid)) -> callables_return (conf f)) ->
  (forall name, In name (map fst (k_comps (cls E cid))) -> exists v, dget vals name = Some v) ->
  validate_contents E n cid vals <> OOF.
Proof.
  intros Hcall Hall. destruct (Hschema cid) as ((Hnd & Hnm & Hin) & _).
  assert (Hrun : forall (q : query unit), run_struct E n cid vals q <> OOF).
  { intros q. apply run_q_finishes. intros x. apply stored_get; auto. }
  assert (Hs : forall qs, run_struct_validators E n cid vals qs <> OOF).
  { induction qs as [|q qs IH]; cbn [run_struct_validators]; [discriminate|].
    specialize (Hrun q). destruct (run_struct E n cid vals q); cbn [bind]; congruence. }
  assert (Hm : forall qs v, run_method_validators E n cid vals qs v <> OOF).
  { induction qs as [|q qs IH]; intros v; cbn [run_method_validators]; [discriminate|].
    specialize (Hrun (q v)). specialize (IH v).
    destruct (run_struct E n cid vals (q v)); cbn [bind]; congruence. }
  assert (Hf : forall fvs, validate_fields E n cid vals fvs <> OOF).
  { induction fvs as [|[nm methods] fvs IH]; cbn [validate_fields]; [discriminate|].
    destruct (assoc (comps E cid) nm) as [f|] eqn:Hass; [|discriminate].
    assert (Hinf : In (nm, f) (k_comps (cls E cid))) by (apply assoc_in; auto).
    pose proof (stored_get n cid vals nm Hnm Hall) as Hg.
    destruct (struct_get E n cid vals nm) as [v|e|]; cbn [bind]; try congruence.
    assert (Hv : run_validators (c_validators (conf f)) v <> OOF).
    { apply validators_finish. intros check Hi. eapply Hcall; eauto. }
    destruct (run_validators (c_validators (conf f)) v); cbn [bind]; try congruence.
    specialize (Hm methods v). destruct (run_method_validators E n cid vals methods v); cbn [bind]; congruence. }
  unfold validate_contents. specialize (Hf (k_fvals (cls E cid))).
  destruct (validate_fields E n cid vals (k_fvals (cls E cid))); cbn [bind]; congruence.
Qed.

Lemma struct_terminates rank (Hb : bounded_schema E rank) ctx :
  forall r cid, (rank cid < r)%nat -> struct_finishes cid ctx.
Proof.
  induction r as [|r IH]; intros cid Hr s; [lia|].
  destruct (Hschema cid) as ((Hnd & Hnm & Hin) & Hfs & _).
  assert (Hret : forall name f, In (name, f) (k_comps (cls E cid)) -> callables_return (conf f)).
  { intros name f Hi. pose proof (Hb cid name f Hi) as Hbf. inversion Hbf; auto. }
  destruct (fields_terminate ctx (k_comps (cls E cid)) [] Hfs) with (d := @nil (string * value)) (s := s)
    as [n Hn]; auto.
  - intros name f Hi. split; [eauto|]. intros ints nm d s0 Hrob Hd Ho.
    eapply core_terminates; eauto. intros cid' Hlt. apply IH. lia.
  - intros name [].
  - exists n. unfold struct_from_stream, struct_from_stream_with, lbind, llift, lret.
    specialize (Hn n (le_n _)). unfold comps.
    destruct (load_fields E (do_load E n) n (k_comps (cls E cid)) ctx [] s) as [s1 [d|e|]] eqn:Hl;
      cbn in Hn; try congruence; try discriminate.
    apply load_fields_iff in Hl. destruct (loads_keys _ _ _ _ _ _ _ _ Hl) as (new & _ & _ & Hk & _).
    assert (Hinit : struct_init E cid d = Ok d).
    { apply init_ok_iff. split; auto. intros x Hx. apply Hk in Hx. destruct Hx as [[]|Hx]; auto. }
    rewrite Hinit.
    assert (Hv : validate_contents E n cid d <> OOF).
    { apply validate_finishes; auto. intros name Hname. destruct (dget d name) as [v|] eqn:Hg; eauto.
      apply dget_none in Hg. destruct Hg. apply Hk. auto. }
    destruct (validate_contents E n cid d); cbn; congruence.
Qed.

Lemma struct_load_finishes rank : bounded_schema E rank -> forall cid ctx s,
  exists n, snd (struct_from_stream E n cid ctx [] s) <> OOF.
Proof. intros Hb cid ctx s. apply (struct_terminates rank Hb ctx (S (rank cid))). lia. Qed.

(** ** Totality: every byte string is either loaded or reported. *)
Lemma struct_load_total rank : bounded_schema E rank -> forall cid ctx s,
  exists n s' r, (forall m, (n <= m)%nat -> struct_from_stream E m cid ctx [] s = (s', r))
    /\ forward s s' /\ ((exists vals, r = Ok vals) \/ exists e, r = Raise e /\ (malformed e \/ A e)).
Proof.
  intros Hb cid ctx s. destruct (struct_load_finishes rank Hb cid ctx s) as [n Hn].
  destruct (struct_from_stream E n cid ctx [] s) as [s' r] eqn:Hl.
  exists n, s', r. split; [|split].
  - intros m Hm. rewrite (struct_finish_mono n m) by (auto; rewrite Hl; auto). exact Hl.
  - eapply struct_load_forward; eauto.
  - destruct r as [vals|e|]; [eauto| |cbn in Hn; congruence].
    right. exists e. split; auto. eapply struct_load_reported; eauto.
Qed.
End Finish.
