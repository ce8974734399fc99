(** Truncated data is reported as such. *)
From Verif Require Import Tac PyIntProofs StreamProofs VarintsProofs VarintsMore LeafProofs LeafMore.
From Verif Require Import FieldProofs FieldMore StructProofs ForwardProofs FuelProofs ArrayProofs LoadProofs.
From Verif Require Export SpecCut LocalProofs.

Definition cut_reported {A} (l : loader A) : Prop := forall s s1 a s' more,
  bytes_ok (rest s) -> l s = (s1, Ok a) -> rest s = rest s' ++ more ->
  (s_pos s + length (rest s') < s_pos s1)%nat -> ends_early (l s').

Lemma early {A} s e : is_UnexpectedEOFError e = true -> @ends_early A (s, Raise e).
Proof. intros H. exists s, e. auto. Qed.

Lemma early_bind {A B} (m : loader A) (k : A -> loader B) s :
  ends_early (m s) -> ends_early (lbind m k s).
Proof. intros (s2 & e & H & He). unfold lbind. rewrite H. apply early; auto. Qed.

Lemma cr_ret {A} (a : A) : cut_reported (lret a).
Proof. intros s s1 x s' more _ [= <- <-] _ H. lia. Qed.

Lemma cr_lift {A} (r : res A) : cut_reported (llift r).
Proof. destruct r as [a|e|]; [apply cr_ret|intros ? ? ? ? ? ? H; discriminate..]. Qed.

Lemma cr_raise {A} e : cut_reported (@lraise A e).
Proof. intros ? ? ? ? ? ? H; discriminate. Qed.

Lemma cr_bind {A B} (m : loader A) (k : A -> loader B) : self_delimiting m -> cut_reported m ->
  (forall s s1 a, bytes_ok (rest s) -> m s = (s1, Ok a) -> cut_reported (k a)) ->
  cut_reported (lbind m k).
Proof.
  intros Hd Hm Hk s s2 b s' more Hb H Hr Hlt. unfold lbind in H.
  destruct (m s) as [s1 [a|e|]] eqn:Hs; try discriminate.
  destruct (le_lt_dec (s_pos s1) (s_pos s + length (rest s'))) as [Hle|Hgt].
  - destruct (Hd _ _ _ Hb Hs) as (bs & suf & Hr1 & -> & H1). cbn [advance s_pos] in Hle.
    assert (Hc : exists c, rest s' = bs ++ c /\ suf = c ++ more).
    { rewrite Hr in Hr1. exists (skipn (length bs) (rest s')).
      assert (Hf : firstn (length bs) (rest s' ++ more) = bs)
        by (rewrite Hr1, firstn_app, Nat.sub_diag, firstn_all, app_nil_r; auto).
      rewrite firstn_app in Hf. replace (length bs - length (rest s'))%nat with 0%nat in Hf by lia.
      cbn [firstn] in Hf. rewrite app_nil_r in Hf.
      split; [rewrite <- Hf at 1; symmetry; apply firstn_skipn|].
      apply (app_inv_head bs). rewrite <- Hr1. rewrite app_assoc. f_equal.
      rewrite <- Hf at 1. symmetry; apply firstn_skipn. }
    destruct Hc as (c & Hc & Hsuf). unfold lbind. rewrite (H1 _ _ Hc).
    assert (Hrest : rest (advance s (length bs)) = suf) by (apply rest_advance_app; auto).
    assert (Hrest' : rest (advance s' (length bs)) = c) by (apply rest_advance_app; auto).
    apply (Hk _ _ _ Hb Hs (advance s (length bs)) s2 b _ more).
    + rewrite Hrest. rewrite Hr1 in Hb. apply bytes_ok_app in Hb. tauto.
    + exact H.
    + rewrite Hrest, Hrest'. auto.
    + rewrite Hrest'. cbn [advance s_pos]. rewrite Hc, app_length in Hlt. lia.
  - apply early_bind. eapply Hm; eauto.
Qed.

Lemma cr_ext {A} (l l' : loader A) : (forall s, l s = l' s) -> cut_reported l -> cut_reported l'.
Proof. intros He H s s1 a s' more Hb Hl. rewrite <- He in *. eapply H; eauto. Qed.

(** ** Fixed sizes *)
Definition short {A} (m : nat) (l : loader A) : Prop := forall s,
  (length (rest s) < m)%nat -> ends_early (l s).

Lemma short_cr {A} m (l : loader A) : exactly m l -> short m l -> cut_reported l.
Proof.
  intros He Hs s s1 a s' more Hb Hl Hr Hlt. apply Hs.
  destruct (He _ _ _ Hl) as (bs & suf & _ & _ & -> & _). cbn [advance s_pos] in Hlt. lia.
Qed.

Lemma short_bind {A B} m (l : loader A) (k : A -> loader B) : short m l -> short m (lbind l k).
Proof. intros H s Hs. apply early_bind; auto. Qed.

Lemma short_read s n data s1 : 0 <= n -> (length (rest s) < Z.to_nat n)%nat -> read s n = (data, s1) ->
  (zlen data <? n) = true.
Proof.
  intros Hn Hs Hr. apply read_spec in Hr. destruct Hr as (suf & Hr & _).
  rewrite Hr, app_length in Hs. unfold zlen. lia.
Qed.

Lemma short_int n sg e : 0 <= n -> short (Z.to_nat n) (read_int n sg e).
Proof.
  intros Hn s Hs. unfold read_int. destruct (read s n) as [data s1] eqn:Hr.
  rewrite (short_read _ _ _ _ Hn Hs Hr). apply early; auto.
Qed.

Lemma short_exact c n : 0 <= n -> short (Z.to_nat n) (read_exact_size c (Ok n)).
Proof.
  intros Hn s Hs. unfold read_exact_size. destruct (read s n) as [data s1] eqn:Hr.
  rewrite (short_read _ _ _ _ Hn Hs Hr). apply early; auto.
Qed.

Lemma leaf_short nats c k d dd dd0 : exact_kind k -> natural_size nats c -> have_nats nats d ->
  noticing c k ->
  forall n, get_expected_size_with dd c k d = Ok n -> 0 <= n ->
  short (Z.to_nat n) (leaf_load c k (get_expected_size_with dd c k d)
                        (get_expected_size_with dd0 c k [])).
Proof.
  intros Hk Hs Hd Hno n Hg Hn.
  assert (Hint : forall m, c_size c = SInt m -> n = m).
  { intros m Hm. unfold get_expected_size_with in Hg. rewrite Hm in Hg. congruence. }
  destruct k as [sg e|fmt mx|fmt e|r tz sg e| |cd pad|cd pad|fmt|comp cnt halt|cid|choices ld dmp];
    try contradiction; cbn [leaf_load noticing] in *.
  - destruct Hno as [m Hm]. pose proof (Hint _ Hm) as ->. rewrite Hm.
    apply short_bind, short_int; auto.
  - destruct Hno as [m Hm]. pose proof (Hint _ Hm) as ->.
    unfold get_expected_size_with at 1. rewrite Hm. apply short_bind, short_exact; auto.
  - rewrite Hg. intros s Hl. unfold lbind at 1, llift at 1, lret at 1.
    apply early_bind, short_int; auto.
  - rewrite Hg. apply short_bind, short_exact; auto.
  - rewrite Hg. apply short_bind, short_exact; auto.
  - destruct Hno as [m Hm]. pose proof (Hint _ Hm) as ->. rewrite Hm.
    intros s Hl. destruct (read s m) as [raw s1] eqn:Hr.
    rewrite (short_read _ _ _ _ Hn Hl Hr). apply early; auto.
Qed.

(** ** Variable-length integers *)
Lemma read_none s : rest s = [] -> @ends_early Z (read_uint8 s).
Proof. intros H. rewrite read_uint8_nil by auto. apply early; auto. Qed.

Lemma one_shorter s b suf s' more c : rest s = b :: suf -> rest s = rest s' ++ more ->
  rest s' = c -> c <> [] -> exists c', rest s' = b :: c' /\ rest (advance s' 1) = c'
    /\ rest (advance s 1) = rest (advance s' 1) ++ more.
Proof.
  intros Hs Hr <- Hne. destruct (rest s') as [|x c'] eqn:Hs'; [congruence|].
  rewrite Hs in Hr. injection Hr as -> ->. exists c'.
  rewrite (rest_one s' x c' Hs'), (rest_one s x (c' ++ more) Hs). auto.
Qed.

Lemma uleb_cut fuel : forall v b s s1 z, decode_uleb_loop fuel v b s = (s1, Ok z) ->
  forall fuel' s' more, rest s = rest s' ++ more -> (s_pos s + length (rest s') < s_pos s1)%nat ->
  (length (rest s') < fuel')%nat -> ends_early (decode_uleb_loop fuel' v b s').
Proof.
  induction fuel as [|fuel IH]; intros v b s s1 z; cbn [decode_uleb_loop]; [discriminate|].
  unfold lbind at 1, lret at 1. destruct (read_uint8 s) as [s2 [x|y|]] eqn:Hr; try discriminate.
  destruct (read_uint8_ok _ _ _ Hr) as (b1 & suf & Hs & -> & H1).
  intros H [|fuel'] s' more Hrest Hlt Hf; [lia|]. cbn [decode_uleb_loop].
  destruct (rest s') as [|y c] eqn:Hs'; [apply early_bind, read_none; auto|].
  destruct (one_shorter s b1 suf s' more (y :: c) Hs ltac:(rewrite Hs'; auto) Hs' ltac:(discriminate))
    as (c' & Hc & Hc1 & Hc2).
  unfold lbind. rewrite (H1 _ _ Hc). rewrite Hs' in Hc. injection Hc as -> ->. cbn [length] in *.
  destruct (Z.land x 128 =? 0).
  - injection H as <- <-. cbn [advance s_pos] in Hlt. lia.
  - eapply IH; eauto; rewrite Hc1; [cbn [advance s_pos]; lia|lia].
Qed.

Lemma vlq_cut fuel : forall v s s1 z, decode_vlq_loop fuel v s = (s1, Ok z) ->
  forall fuel' s' more, rest s = rest s' ++ more -> (s_pos s + length (rest s') < s_pos s1)%nat ->
  (length (rest s') < fuel')%nat -> ends_early (decode_vlq_loop fuel' v s').
Proof.
  induction fuel as [|fuel IH]; intros v s s1 z; cbn [decode_vlq_loop]; [discriminate|].
  unfold lbind at 1, lret at 1. destruct (read_uint8 s) as [s2 [x|y|]] eqn:Hr; try discriminate.
  destruct (read_uint8_ok _ _ _ Hr) as (b1 & suf & Hs & -> & H1).
  intros H [|fuel'] s' more Hrest Hlt Hf; [lia|]. cbn [decode_vlq_loop].
  destruct (rest s') as [|y c] eqn:Hs'; [apply early_bind, read_none; auto|].
  destruct (one_shorter s b1 suf s' more (y :: c) Hs ltac:(rewrite Hs'; auto) Hs' ltac:(discriminate))
    as (c' & Hc & Hc1 & Hc2).
  unfold lbind. rewrite (H1 _ _ Hc). rewrite Hs' in Hc. injection Hc as -> ->. cbn [length] in *.
  destruct (Z.land x 128 =? 0).
  - injection H as <- <-. cbn [advance s_pos] in Hlt. lia.
  - eapply IH; eauto; rewrite Hc1; [cbn [advance s_pos]; lia|lia].
Qed.

Lemma compact_cut fuel : forall sg v s s1 z, decode_compact_loop fuel sg v s = (s1, Ok z) ->
  forall fuel' s' more, rest s = rest s' ++ more -> (s_pos s + length (rest s') < s_pos s1)%nat ->
  (length (rest s') < fuel')%nat -> ends_early (decode_compact_loop fuel' sg v s').
Proof.
  induction fuel as [|fuel IH]; intros sg v s s1 z; cbn [decode_compact_loop]; [discriminate|].
  unfold lbind at 1, lret at 1. destruct (read_uint8 s) as [s2 [x|y|]] eqn:Hr; try discriminate.
  destruct (read_uint8_ok _ _ _ Hr) as (b1 & suf & Hs & -> & H1).
  intros H [|fuel'] s' more Hrest Hlt Hf; [lia|]. cbn [decode_compact_loop].
  destruct (rest s') as [|y c] eqn:Hs'; [apply early_bind, read_none; auto|].
  destruct (one_shorter s b1 suf s' more (y :: c) Hs ltac:(rewrite Hs'; auto) Hs' ltac:(discriminate))
    as (c' & Hc & Hc1 & Hc2).
  unfold lbind. rewrite (H1 _ _ Hc). rewrite Hs' in Hc. injection Hc as -> ->. cbn [length] in *.
  destruct (match sg with None => _ | Some _ => _ end) as [v' sg'].
  destruct (Z.land x 128 =? 0).
  - injection H as <- <-. cbn [advance s_pos] in Hlt. lia.
  - eapply IH; eauto; rewrite Hc1; [cbn [advance s_pos]; lia|lia].
Qed.

Lemma vli_cr fmt : cut_reported (vli_decode fmt).
Proof.
  intros s s1 z s' more _ H Hr Hlt. destruct fmt; cbn [vli_decode] in *.
  - eapply compact_cut; eauto.
  - unfold decode_integer_leb128 in *. destruct (decode_integer_uleb128 s) as [s2 [v|e|]] eqn:Hu; try discriminate.
    assert (Hx : s1 = s2).
    { destruct (v =? 0); [congruence|]. destruct (_ <? _); congruence. }
    subst s2. unfold decode_integer_uleb128 in *.
    destruct (uleb_cut _ _ _ _ _ _ Hu (S (length (rest s'))) s' more Hr Hlt ltac:(lia)) as (s2 & e & He & Hee).
    rewrite He. apply early; auto.
  - eapply uleb_cut; eauto.
  - eapply vlq_cut; eauto.
Qed.

Lemma leaf_cr nats c k d dd dd0 : delimited_leaf nats c k -> have_nats nats d -> noticing c k ->
  cut_reported (leaf_load c k (get_expected_size_with dd c k d) (get_expected_size_with dd0 c k [])).
Proof.
  intros Hk Hd Hno.
  assert (Hex : exact_kind k /\ natural_size nats c -> cut_reported
    (leaf_load c k (get_expected_size_with dd c k d) (get_expected_size_with dd0 c k []))).
  { intros [He Hs]. destruct (leaf_exactly nats c k d dd dd0 He Hs Hd) as (n & Hg & Hn & H).
    eapply short_cr; eauto. apply (leaf_short nats); auto. }
  destruct k; cbn [delimited_leaf] in Hk; try (apply Hex; exact Hk).
  - cbn [leaf_load]. apply cr_bind; [apply vli_sd|apply vli_cr|]. intros. apply cr_ret.
  - contradiction.
Qed.

(** ** [from_stream] *)
Lemma from_stream_cr nr dl eqv c ctx d : blind c -> self_delimiting dl -> cut_reported dl ->
  (allow_null c = true -> forall nb, nr = Ok nb ->
     exists m, (length nb <= m)%nat /\ exactly m dl /\ short m dl) ->
  cut_reported (from_stream_with nr dl eqv c ctx d).
Proof.
  intros Hblind Hsd Hdl Hnull. unfold from_stream_with.
  set (lv := lbind _ _).
  assert (Hearly : forall s, ends_early (dl s) -> ends_early (lv s)).
  { intros s (s2 & e & H & He). subst lv. apply early_bind. rewrite H. apply early.
    destruct e; try discriminate. reflexivity. }
  assert (Hlv : forall s s1 w, lv s = (s1, Ok w) -> exists v, dl s = (s1, Ok v)).
  { intros s s1 w H. subst lv. unfold lbind, llift, lret in H.
    destruct (dl s) as [s2 [v|e|]]; try discriminate. exists v.
    destruct (if allow_null c then _ else _) as [v'|e|]; try discriminate.
    destruct (if negb (is_undefined (c_const c)) then _ else _) as [[]|e|]; try discriminate.
    destruct (run_validators (c_validators c) v'); try discriminate. congruence. }
  intros s s1 w s' more Hb H Hr Hlt.
  assert (Hload : lv s = (s1, Ok w) -> ends_early (lv s')).
  { intros Hl. destruct (Hlv _ _ _ Hl) as [v Hv]. apply Hearly. eapply Hdl; eauto. }
  rewrite (Hblind ctx s' s d).
  destruct (run_dict d (c_present c ctx (Some s))) as [[|]|e|] eqn:Hp; try discriminate.
  - destruct (allow_null c) eqn:Ha; auto.
    destruct nr as [nb|e|] eqn:Hnr; try discriminate.
    + destruct (Hnull eq_refl nb eq_refl) as (m & Hm & Hex & Hsh).
      unfold peek_bytes in *. destruct (read s (zlen nb)) as [data sx] eqn:Hrd. cbn [negb andb] in *.
      destruct (read s' (zlen nb)) as [data' sx'] eqn:Hrd'.
      assert (Hdata' : bytes_eqb data' nb = true -> (length nb <= length (rest s'))%nat
                       /\ firstn (length nb) (rest s') = nb).
      { intros Hbe. apply bytes_eqb_iff in Hbe. subst data'. apply read_spec in Hrd'.
        destruct Hrd' as (suf & -> & _). rewrite app_length. split; [lia|].
        rewrite firstn_app, Nat.sub_diag, firstn_all, app_nil_r. auto. }
      destruct (bytes_eqb data nb) eqn:Hbe.
      * destruct (run_validators (c_validators c) VNone) as [[]|e|] eqn:Hv; try discriminate.
        injection H as <- <-. cbn [advance s_pos] in Hlt.
        destruct (bytes_eqb data' nb) eqn:Hbe'; [destruct (Hdata' eq_refl); lia|].
        apply Hearly, Hsh. lia.
      * destruct (Hlv _ _ _ H) as [v Hv].
        destruct (bytes_eqb data' nb) eqn:Hbe'; auto. exfalso.
        destruct (Hdata' eq_refl) as [Hlen Hfirst].
        rewrite read_enough in Hrd by (rewrite Hr; unfold zlen; rewrite app_length; lia).
        injection Hrd as Hd _. unfold zlen in Hd. rewrite Nat2Z.id, Hr, firstn_app in Hd.
        replace (length nb - length (rest s'))%nat with 0%nat in Hd by lia.
        cbn [firstn] in Hd. rewrite app_nil_r, Hfirst in Hd. subst data.
        rewrite bytes_eqb_refl in Hbe. discriminate.
    + destruct (is_UnserializableValueError e) eqn:Hu; [|discriminate].
      destruct (is_default (c_null c)) eqn:Hdf; [discriminate|]. auto.
  - injection H as <- <-. lia.
Qed.

Section Cut.
Variable E : env.
Hypothesis Hschema : delimited_schema E.
Hypothesis Hnotice : noticing_schema E.

Lemma field_cr n nats f ctx d : delimited nats f -> have_nats nats d -> notices_end f ->
  cut_reported (do_load E n f ctx d) -> cut_reported (field_from_stream E n f ctx d).
Proof.
  intros Hf Hd Hno Hdl. unfold field_from_stream, field_from_stream_with.
  apply from_stream_cr; auto; [destruct Hf; auto|eapply load_sd; eauto|].
  destruct Hf as [c k _ Hk Hnull| ? ? ? _ Hnull| ? ? _ Hnull|? ? ? ? _ Hnull]; cbn [conf];
    intros Ha nb Hnb; try (unfold allow_null in Ha; rewrite Hnull in Ha; discriminate).
  assert (Hkind : exact_kind k -> exists m, ges (do_dump E n) (Field c k) d = Ok m /\ 0 <= m
    /\ exactly (Z.to_nat m) (do_load E n (Field c k) ctx d)
    /\ short (Z.to_nat m) (do_load E n (Field c k) ctx d)).
  { intros He. assert (Hs : natural_size nats c) by (destruct k; try contradiction; apply Hk).
    rewrite do_load_leaf by (destruct k; try contradiction; auto).
    destruct (leaf_exactly nats c k d (fun v => do_dump E n (Field c k) v VNone d)
      (fun v => do_dump E n (Field c k) v VNone []) He Hs Hd) as (m & Hg & Hm & Hx).
    exists m. repeat (split; auto). apply (leaf_short nats); auto.
    inversion Hno; subst; auto; contradiction. }
  unfold null_repr, null_repr_with in Hnb. cbn [conf] in Hnb.
  destruct Hnull as [k Hn|k bs m Hn Hsz Hle He|k Hn He|sg e z Hn].
  - unfold allow_null in Ha. rewrite Hn in Ha. discriminate.
  - rewrite Hn in Hnb. injection Hnb as <-. destruct (Hkind He) as (m' & Hg & Hm & Hx).
    unfold ges, get_expected_size_with in Hg. cbn [conf] in Hg. rewrite Hsz in Hg. injection Hg as <-.
    exists (Z.to_nat m). split; auto. unfold zlen in Hle. lia.
  - destruct (Hkind He) as (m & Hg & Hm & Hx). exists (Z.to_nat m). split; auto.
    rewrite Hg in Hnb. destruct Hn as [Hn|Hn]; rewrite Hn in Hnb; injection Hnb as <-; rewrite repeat_length; auto.
  - rewrite Hn in Hnb. destruct (Hkind I) as (m & Hg & Hm & Hx). exists (Z.to_nat m). split; auto.
    rewrite do_dump_leaf in Hnb by auto. cbn [leaf_dump] in Hnb.
    unfold ges, get_expected_size_with in Hg. cbn [conf] in Hg.
    destruct (c_size c) as [|q|] eqn:Hsz; try discriminate. injection Hg as ->.
    destruct (catch_value_error (c_name c) (write_int z m sg e)) as [out [[]|x|]] eqn:Hw; try discriminate.
    injection Hnb as <-. unfold write_int, dlift in Hw.
    destruct (py_to_bytes z m e sg) as [bs|x|] eqn:Hp; cbn [dbind dwrite catch_value_error] in Hw.
    + rewrite app_nil_l in Hw. injection Hw as <-. destruct (py_to_bytes_ok _ _ _ _ _ Hp) as (_ & _ & Hl & _). unfold zlen in Hl. lia.
    + destruct (is_ValueError_or_OverflowError x); discriminate.
    + discriminate.
Qed.

Lemma fields_cr n ctx (Hdl : forall nats f d, delimited nats f -> have_nats nats d -> notices_end f ->
    cut_reported (do_load E n f ctx d)) fs nats :
  delimited_fields nats fs -> forall d, have_nats nats d -> NoDup (map fst fs) ->
  (forall name, In name (map fst fs) -> dget d name = None) ->
  (forall name f, In (name, f) fs -> notices_end f) ->
  cut_reported (load_fields E (do_load E n) n fs ctx d).
Proof.
  intros Hfs. induction Hfs as [nats|nats name f fs Hf Hnat Hfs IH|nats name f fs Hf Hfs IH];
    intros d Hd Hnd Hnone Hno; cbn [load_fields]; [apply cr_ret|..].
  all: change (field_from_stream_with E (do_load E n) n f ctx d) with (field_from_stream E n f ctx d).
  all: assert (Hown : dget d name = None) by (apply Hnone; left; auto).
  all: assert (Hnf : notices_end f) by (eapply Hno; left; eauto).
  all: apply cr_bind; [eapply field_sd; eauto; eapply load_sd; eauto|eapply field_cr; eauto|];
    intros s s1 v Hb Hl; apply IH.
  - unfold dmem. rewrite Hown. intros x [<-|Hx].
    + destruct (natural_loads E _ _ _ _ _ _ _ Hnat Hb Hl) as (z & -> & Hz).
      exists z. rewrite dget_app, Hown. cbn. rewrite String.eqb_refl. auto.
    + apply (have_nats_app nats d [(name, v)]); auto.
  - inversion Hnd; auto.
  - intros x Hx. unfold dmem. rewrite Hown, dget_app, Hnone by (right; auto).
    cbn. destruct (String.eqb_spec name x) as [->|]; auto.
    inversion Hnd; contradiction.
  - intros x g Hx. apply (Hno x). right; auto.
  - unfold dmem. rewrite Hown. apply have_nats_app; auto.
  - inversion Hnd; auto.
  - intros x Hx. unfold dmem. rewrite Hown, dget_app, Hnone by (right; auto).
    cbn. destruct (String.eqb_spec name x) as [->|]; auto.
    inversion Hnd; contradiction.
  - intros x g Hx. apply (Hno x). right; auto.
Qed.

Lemma struct_cr n cid ctx (Hdl : forall nats f d, delimited nats f -> have_nats nats d -> notices_end f ->
    cut_reported (do_load E n f ctx d)) : cut_reported (struct_from_stream E n cid ctx []).
Proof.
  destruct (Hschema cid) as [Hnd Hfs].
  unfold struct_from_stream, struct_from_stream_with.
  apply cr_bind.
  - apply (fields_sd E n ctx (fun nats f d Hf Hd => load_sd E Hschema n nats f ctx d Hf Hd) _ _ Hfs); auto; intros name [].
  - apply (fields_cr n ctx Hdl _ _ Hfs); auto; [intros name []|intros name f; apply Hnotice].
  - intros _ _ d _ _. apply cr_bind; [apply sd_lift|apply cr_lift|].
    intros _ _ vals _ _. apply cr_bind; [apply sd_lift|apply cr_lift|]. intros. apply cr_ret.
Qed.

Lemma array_cr load1 halt : self_delimiting load1 -> cut_reported load1 ->
  (forall s s' values, halt s values = halt s' values) ->
  forall fuel values, cut_reported (array_load fuel halt load1 values).
Proof.
  intros Hs Hl Hh. induction fuel as [|fuel IH]; intros values.
  - intros s s1 a s' more _ H. discriminate.
  - apply (cr_ext (ldo hv <- llift (halt (mkStream [] 0) values);
             match hv with
             | (true, vs) => lret (VList vs)
             | (false, vs) => ldo v <- load1;
                 array_load fuel halt load1 (if is_not_present v then vs else vs ++ [v])
             end)).
    + intros s. unfold lbind at 1, llift. rewrite (Hh (mkStream [] 0) s values). cbn [array_load].
      destruct (halt s values) as [[[|] vs]|e|]; reflexivity.
    + apply cr_bind; [apply sd_lift|apply cr_lift|]. intros _ _ [[|] vs] _ _; [apply cr_ret|].
      apply cr_bind; auto.
Qed.

Lemma load_cr n : forall nats f ctx d, delimited nats f -> have_nats nats d -> notices_end f ->
  cut_reported (do_load E n f ctx d).
Proof.
  induction n as [|n IH]; intros nats f ctx d Hf Hd Hno.
  - destruct Hf as [c k Hbl Hk Hnull| | |]; try (intros ? ? ? ? ? ? Hx; discriminate).
    rewrite do_load_leaf by (destruct k; auto; destruct Hk; contradiction).
    apply (leaf_cr nats); auto. inversion Hno; subst; auto; destruct Hk; contradiction.
  - assert (Hst : forall cid, cut_reported (ldo vals <- struct_from_stream E n cid ctx []; lret (VStruct cid vals))).
    { intros cid. apply cr_bind; [apply struct_load_sd; auto| |intros; apply cr_ret].
      apply struct_cr. intros; eapply IH; eauto. }
    destruct Hf as [c k Hbl Hk Hnull|c comp cnt Hbl Hnull Hcnt Hcomp|c cid Hbl Hnull
      |c choices ld dd Hbl Hnull Hld Hch].
    + rewrite do_load_leaf by (destruct k; auto; destruct Hk; contradiction).
      apply (leaf_cr nats); auto. inversion Hno; subst; auto; destruct Hk; contradiction.
    + assert (Hno' : notices_end comp) by (inversion Hno; subst; auto; contradiction).
      cbn [do_load kind]. apply array_cr.
      * eapply (field_sd E n); eauto. eapply load_sd; eauto.
      * eapply (field_cr n); eauto.
      * intros s s' values. unfold array_halt, should_halt. destruct cnt; try contradiction; reflexivity.
    + cbn [do_load kind]. apply Hst.
    + cbn [do_load kind].
      assert (Hno' : forall g, In (CField g) choices -> notices_end g) by (inversion Hno; subst; auto; contradiction).
      apply (cr_ext (ldo i <- llift (ld (mkStream [] 0) ctx d);
               match nth_error choices i with
               | Some (CField g) => do_load E n g ctx d
               | Some (CStruct cid) => ldo vals <- struct_from_stream E n cid ctx []; lret (VStruct cid vals)
               | None => lraise ETypeErr
               end)).
      * intros s. unfold lbind at 1, llift. rewrite (Hld (mkStream [] 0) s ctx d).
        destruct (ld s ctx d) as [i|e|]; auto. destruct (nth_error choices i) as [[g|cid]|]; reflexivity.
      * apply cr_bind; [apply sd_lift|apply cr_lift|]. intros _ _ i _ _.
        destruct (nth_error choices i) as [[g|cid]|] eqn:Hi; [|apply Hst|apply cr_raise].
        apply nth_error_In in Hi. eapply IH; eauto.
Qed.

Lemma struct_load_cr n cid ctx : cut_reported (struct_from_stream E n cid ctx []).
Proof. apply struct_cr. intros; eapply load_cr; eauto. Qed.

Lemma field_cut n nats f ctx d : delimited nats f -> have_nats nats d -> notices_end f ->
  self_delimiting (field_from_stream E n f ctx d) /\ cut_reported (field_from_stream E n f ctx d).
Proof.
  intros Hf Hd Hno. split; [eapply field_sd; eauto; eapply load_sd; eauto|].
  eapply field_cr; eauto. eapply load_cr; eauto.
Qed.

Lemma field_cut_alone n f ctx s s1 v s' more : delimited [] f -> notices_end f -> bytes_ok (rest s) ->
  field_from_stream E n f ctx [] s = (s1, Ok v) ->
  rest s = rest s' ++ more -> (s_pos s + length (rest s') < s_pos s1)%nat ->
  ends_early (field_from_stream E n f ctx [] s').
Proof.
  intros Hf Hno Hb H Hr Hlt. destruct (field_cut n [] f ctx [] Hf ltac:(intros ? []) Hno) as [_ Hc].
  eapply Hc; eauto.
Qed.

Lemma prefix_of {A} (a b c e : list A) : a ++ b = c ++ e -> (length a <= length c)%nat ->
  exists x, c = a ++ x /\ b = x ++ e.
Proof.
  revert c. induction a as [|y a IH]; intros c H Hl; [exists c; auto|].
  destruct c as [|z c]; cbn [length] in Hl; [lia|]. injection H as -> H.
  destruct (IH c H ltac:(lia)) as (x & -> & ->). exists x. auto.
Qed.

Lemma fields_cut n ctx fs nats : delimited_fields nats fs ->
  forall d, have_nats nats d -> NoDup (map fst fs) ->
  (forall name, In name (map fst fs) -> dget d name = None) ->
  (forall name f, In (name, f) fs -> notices_end f /\ c_discard (conf f) = false) ->
  forall s s1 d1 s' more, bytes_ok (rest s) -> loads E n ctx fs d s d1 s1 -> rest s = rest s' ++ more ->
  exists pre post d2 m, fs = pre ++ post
    /\ loads E n ctx pre d s d2 (advance s m) /\ prefix_loads E n ctx pre d s' d2 (advance s' m)
    /\ (m <= length (rest s'))%nat
    /\ match post with
       | [] => True
       | (_, f) :: _ => (exists s2 v, field_from_stream E n f ctx d2 (advance s m) = (s2, Ok v)
           /\ (s_pos s + length (rest s') < s_pos s2)%nat)
         /\ ends_early (field_from_stream E n f ctx d2 (advance s' m))
       end.
Proof.
  intros Hfs. induction Hfs as [nats|nats name f fs Hf Hnat Hfs IH|nats name f fs Hf Hfs IH];
    intros d Hd Hnd Hnone Hno s s1 d1 s' more Hb Hl Hr.
  { exists [], [], d, 0%nat. rewrite !advance_0. inversion Hl; subst.
    split; auto. split; [constructor|]. split; [constructor|]. split; [lia|auto]. }
  all: inversion Hl as [|? ? ? ? ? v s2 ? ? Hv Hrest]; subst.
  all: assert (Hown : dget d name = None) by (apply Hnone; left; auto).
  all: destruct (Hno name f (or_introl eq_refl)) as [Hnf Hdis].
  all: destruct (field_cut n nats f ctx d Hf Hd Hnf) as [Hsd Hcr].
  all: destruct (le_lt_dec (s_pos s2) (s_pos s + length (rest s'))) as [Hle|Hgt];
    [|exists [], ((name, f) :: fs), d, 0%nat; rewrite !advance_0; split; auto;
      split; [constructor|]; split; [constructor|]; split; [lia|];
      split; [exists s2, v; auto|eapply Hcr; eauto]].
  all: destruct (Hsd _ _ _ Hb Hv) as (bs & suf & Hr1 & -> & H1); cbn [advance s_pos] in Hle.
  all: rewrite Hr in Hr1; symmetry in Hr1;
    destruct (prefix_of _ _ _ _ Hr1 ltac:(lia)) as (x & Hx & Hsuf).
  all: assert (Hra : rest (advance s (length bs)) = suf)
    by (apply rest_advance_app; rewrite Hr, Hx, Hsuf, app_assoc; auto).
  all: assert (Hra' : rest (advance s' (length bs)) = x) by (apply rest_advance_app; auto).
  all: unfold dmem in Hrest; rewrite Hown in Hrest.
  all: edestruct IH as (pre & post & d2 & m & Hpp & Hl1 & Hl2 & Hm & Hpost);
    [| | | | |exact Hrest|rewrite Hra, Hra'; exact Hsuf|].
  5: rewrite Hra; rewrite Hr, Hx, <- app_assoc in Hb; apply bytes_ok_app in Hb; rewrite Hsuf; tauto.
  10: rewrite Hra; rewrite Hr, Hx, <- app_assoc in Hb; apply bytes_ok_app in Hb; rewrite Hsuf; tauto.
  - intros y [<-|Hy].
    + destruct (natural_loads E _ _ _ _ _ _ _ Hnat Hb Hv) as (z & -> & Hz).
      exists z. rewrite dget_app, Hown. cbn. rewrite String.eqb_refl. auto.
    + apply (have_nats_app nats d [(name, v)]); auto.
  - inversion Hnd; auto.
  - intros y Hy. rewrite dget_app, Hnone by (right; auto).
    cbn. destruct (String.eqb_spec name y) as [->|]; auto.
    inversion Hnd; contradiction.
  - intros y g Hy. apply (Hno y). right; auto.
  - exists ((name, f) :: pre), post, d2, (length bs + m)%nat. rewrite !advance_advance in *.
    rewrite Hpp. split; auto.
    split; [econstructor; [exact Hv|]; unfold dmem; rewrite Hown; exact Hl1|].
    split; [econstructor; [exact (H1 _ _ Hx)|]; rewrite Hdis; exact Hl2|].
    rewrite Hra' in Hm, Hpost. rewrite Hx, app_length. split; [lia|].
    destruct post as [|[q g] post]; auto. destruct Hpost as [(s3 & w & Hw & Hlt) Hearly].
    split; auto. exists s3, w. split; auto. cbn [advance s_pos] in Hlt. lia.
  - apply have_nats_app; auto.
  - inversion Hnd; auto.
  - intros y Hy. rewrite dget_app, Hnone by (right; auto).
    cbn. destruct (String.eqb_spec name y) as [->|]; auto.
    inversion Hnd; contradiction.
  - intros y g Hy. apply (Hno y). right; auto.
  - exists ((name, f) :: pre), post, d2, (length bs + m)%nat. rewrite !advance_advance in *.
    rewrite Hpp. split; auto.
    split; [econstructor; [exact Hv|]; unfold dmem; rewrite Hown; exact Hl1|].
    split; [econstructor; [exact (H1 _ _ Hx)|]; rewrite Hdis; exact Hl2|].
    rewrite Hra' in Hm, Hpost. rewrite Hx, app_length. split; [lia|].
    destruct post as [|[q g] post]; auto. destruct Hpost as [(s3 & w & Hw & Hlt) Hearly].
    split; auto. exists s3, w. split; auto. cbn [advance s_pos] in Hlt. lia.
Qed.

Lemma load_cut n cid ctx data s1 vals k : bytes_ok data ->
  struct_from_stream E n cid ctx [] (mkStream data 0) = (s1, Ok vals) -> (k < s_pos s1)%nat ->
  ends_early (struct_from_stream E n cid ctx [] (mkStream (firstn k data) 0)).
Proof.
  intros Hb H Hk. apply (struct_load_cr n cid ctx (mkStream data 0) s1 vals _ (skipn k data)); auto.
  - unfold rest. cbn [s_data s_pos skipn]. symmetry. apply firstn_skipn.
  - unfold rest. cbn [s_data s_pos skipn]. rewrite firstn_length. lia.
Qed.

Lemma partial_load_cut n cid ctx data s1 vals k : well_formed (cls E cid) ->
  Forall (fun nf => c_discard (conf (snd nf)) = false) (k_comps (cls E cid)) -> bytes_ok data ->
  loads E n ctx (k_comps (cls E cid)) [] (mkStream data 0) vals s1 ->
  exists pre post d p, cut_after E n ctx (k_comps (cls E cid)) data k pre post d p
    /\ partial_load E n cid None ctx (mkStream (firstn k data) 0) = (mkStream (firstn k data) p, Ok d).
Proof.
  intros Hwf Hdis Hb Hl. destruct (Hschema cid) as [Hnd Hfs].
  destruct (fields_cut n ctx _ _ Hfs [] ltac:(intros ? []) Hnd ltac:(auto)
    ltac:(intros name f Hi; split; [eapply Hnotice; eauto|rewrite Forall_forall in Hdis; apply (Hdis _ Hi)])
    (mkStream data 0) s1 vals (mkStream (firstn k data) 0) (skipn k data)) as
    (pre & post & d & m & Hpp & Hl1 & Hl2 & Hm & Hpost); auto.
  { unfold rest. cbn [s_data s_pos skipn]. symmetry. apply firstn_skipn. }
  unfold rest in Hm, Hpost. cbn [s_data s_pos skipn] in Hm, Hpost. rewrite firstn_length in Hm, Hpost.
  exists pre, post, d, m. split.
  - split; auto. split; auto. split; [lia|].
    destruct post as [|[q g] post]; auto. destruct Hpost as [(s3 & w & Hw & Hlt) _].
    exists s3, w. split; [exact Hw|].
    destruct (field_load_forward E n g ctx d (advance (mkStream data 0) m) s3 (Ok w) Hw) as (_ & _ & Hmax).
    cbn [advance s_pos s_data] in Hmax. lia.
  - apply partial_load_none; auto. exists pre, post. split; auto. split; auto.
    destruct post as [|[q g] post]; auto. destruct Hpost as [_ He]. exact He.
Qed.

End Cut.
