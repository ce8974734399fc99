(** What a DeserializationError raised while a struct is loaded says: the field it names, and
    the size and offset in an UnexpectedEOFError. *)
From Verif Require Import Tac StreamProofs VarintsProofs VarintsMore LeafProofs LeafMore.
From Verif Require Import FieldProofs FieldMore StructProofs ForwardProofs FuelProofs ArrayProofs.
From Verif Require Export LoadProofs.

(** The end of the data really was hit: [size] bytes are not there at [offset], the offset
    lies in what was read, and nothing is left. *)
Definition eof_true (s s' : stream) (e : exn) : Prop := forall fld size offset,
  e = EUnexpectedEOF fld size offset ->
  tell s <= offset /\ zlen (s_data s) < offset + size /\ rest s' = [].

Definition no_eof (e : exn) : Prop := is_UnexpectedEOFError e = false.

Lemma eof_other s s' e : no_eof e -> eof_true s s' e.
Proof. intros H fld size off ->. discriminate. Qed.

Lemma eof_set s s' fld e : eof_true s s' e -> eof_true s s' (set_field fld e).
Proof. intros H f size off He. destruct e; try discriminate. injection He as _ <- <-. eauto. Qed.

Lemma eof_forward s s1 s' e : forward s s1 -> eof_true s1 s' e -> eof_true s s' e.
Proof.
  intros (Hd & Hp & _) H fld size off He. destruct (H _ _ _ He) as (H1 & H2 & H3).
  rewrite Hd in H2. unfold tell in *. split; [lia|auto].
Qed.

Lemma short_read s n data s1 : read s n = (data, s1) -> zlen data < n ->
  zlen (s_data s) < tell s + n /\ rest s1 = [] /\ tell s1 = Z.max (tell s) (zlen (s_data s)).
Proof.
  unfold read. intros [= <- <-] Hl.
  unfold rest in *. set (p := s_pos s) in *. unfold zlen, tell in *. cbn [s_pos advance s_data].
  destruct (n <? 0) eqn:Hn.
  - rewrite firstn_length, skipn_length in Hl. lia.
  - rewrite firstn_length, skipn_length in Hl.
    fold p. rewrite skipn_length.
    split; [lia|]. split; [|lia].
    apply skipn_all2. lia.
Qed.

Lemma read_int_eof n sg e s s' x : read_int n sg e s = (s', Raise x) -> eof_true s s' x.
Proof.
  unfold read_int. destruct (read s n) as [data s1] eqn:Hr. destruct (zlen data <? n) eqn:Hl; [|discriminate].
  intros [= <- <-] fld size off [= _ <- <-]. destruct (short_read _ _ _ _ Hr ltac:(lia)) as (H1 & H2 & _).
  split; [lia|auto].
Qed.

Lemma read_exact_eof c n s s' x : read_exact_size c (Ok n) s = (s', Raise x) -> eof_true s s' x.
Proof.
  unfold read_exact_size. destruct (read s n) as [data s1] eqn:Hr. destruct (zlen data <? n) eqn:Hl; [|discriminate].
  intros [= <- <-] fld size off [= _ <- <-]. destruct (short_read _ _ _ _ Hr ltac:(lia)) as (H1 & H2 & _).
  split; [lia|auto].
Qed.

Lemma uleb_eof fuel : forall v b s s' x, decode_uleb_loop fuel v b s = (s', Raise x) -> eof_true s s' x.
Proof.
  induction fuel as [|fuel IH]; intros v b s s' x; cbn [decode_uleb_loop]; [discriminate|].
  unfold lbind, lret. destruct (read_uint8 s) as [s1 [z|y|]] eqn:Hr; try discriminate.
  - destruct (Z.land z 128 =? 0); [discriminate|]. intros H. eapply eof_forward; [|eapply IH; eauto].
    eapply fwd_read_int; eauto.
  - intros [= <- <-]. eapply read_int_eof; eauto.
Qed.

Lemma vlq_eof fuel : forall v s s' x, decode_vlq_loop fuel v s = (s', Raise x) -> eof_true s s' x.
Proof.
  induction fuel as [|fuel IH]; intros v s s' x; cbn [decode_vlq_loop]; [discriminate|].
  unfold lbind, lret. destruct (read_uint8 s) as [s1 [z|y|]] eqn:Hr; try discriminate.
  - destruct (Z.land z 128 =? 0); [discriminate|]. intros H. eapply eof_forward; [|eapply IH; eauto].
    eapply fwd_read_int; eauto.
  - intros [= <- <-]. eapply read_int_eof; eauto.
Qed.

Lemma compact_eof fuel : forall sg v s s' x, decode_compact_loop fuel sg v s = (s', Raise x) -> eof_true s s' x.
Proof.
  induction fuel as [|fuel IH]; intros sg v s s' x; cbn [decode_compact_loop]; [discriminate|].
  unfold lbind, lret. destruct (read_uint8 s) as [s1 [z|y|]] eqn:Hr; try discriminate.
  - intros H. assert (Hf : forward s s1) by (eapply fwd_read_int; eauto).
    destruct sg; destruct (Z.land z 128 =? 0); try discriminate; eapply eof_forward; eauto.
  - intros [= <- <-]. eapply read_int_eof; eauto.
Qed.

Lemma vli_eof fmt s s' x : vli_decode fmt s = (s', Raise x) -> eof_true s s' x.
Proof.
  destruct fmt; cbn [vli_decode].
  - apply compact_eof.
  - unfold decode_integer_leb128, decode_integer_uleb128.
    destruct (decode_uleb_loop _ _ _ s) as [s1 [v|e|]] eqn:Hd; try discriminate.
    + destruct (v =? 0); [discriminate|]. destruct (_ <? _); discriminate.
    + intros [= <- <-]. eapply uleb_eof; eauto.
  - apply uleb_eof.
  - apply vlq_eof.
Qed.

Lemma stringz_no_eof fuel : forall nm cd mx nr buf acc s s' x,
  stringz_loop fuel nm cd mx nr buf acc s = (s', Raise x) -> no_eof x.
Proof.
  induction fuel as [|fuel IH]; intros nm cd mx nr buf acc s s' x H; [discriminate|].
  cbn [stringz_loop] in H. destruct (iter_next mx nr s) as [[b s1]|].
  - destruct (dec_step cd (buf ++ [b])) as [cp| | |cd'|]; eauto.
    + destruct (cp =? 0); [discriminate|eauto].
    + injection H as _ <-. reflexivity.
    + injection H as _ <-. reflexivity.
  - destruct (forgiven cd buf); injection H as _ <-; reflexivity.
Qed.

Lemma escapes_no_eof k e : escapes k e -> no_eof e.
Proof.
  destruct k as [sg ed|f mx|f ed|r tz sg ed| |cd pad|cd pad|fmt|comp cnt halt|cid|choices ld dmp];
    cbn; try contradiction; try (intros ->; reflexivity).
  - intros [->|[->| ->]]; reflexivity.
  - destruct cd; try (intros ->; reflexivity); intros [-> | ->]; reflexivity.
  - destruct fmt; try contradiction; intros [-> | ->]; reflexivity.
Qed.

Lemma leaf_eof ints nm c k d dd dd0 s s' e : c_name c = None \/ c_name c = nm ->
  sized_leaf ints c k -> have_ints ints d -> oget d nm = None ->
  leaf_load c k (get_expected_size_with dd c k d) (get_expected_size_with dd0 c k []) s
    = (s', Raise e) -> eof_true s s' e.
Proof.
  intros Hnm Hs Hd Hn. assert (Hown : oget d (c_name c) = None) by (destruct Hnm as [->| ->]; auto).
  destruct Hs; cbn [leaf_load]; unfold lbind, llift, lret, lraise.
  - rewrite H. destruct (read_int n sg e0 s) as [s1 [z|x|]] eqn:Hr; try discriminate.
    intros [= <- <-]. eapply read_int_eof; eauto.
  - destruct (vli_decode fmt s) as [s1 [z|x|]] eqn:Hr; try discriminate.
    intros [= <- <-]. eapply vli_eof; eauto.
  - unfold get_expected_size_with. rewrite H.
    destruct (read_exact_size c (Ok (ff_bytes fmt)) s) as [s1 [b|x|]] eqn:Hr; try discriminate.
    + destruct (zlen b =? ff_bytes fmt); [discriminate|]. intros [= _ <-]. apply eof_other. reflexivity.
    + intros [= <- <-]. eapply read_exact_eof; eauto.
  - destruct (known_size_ok ints c (KTime r tz sg e0) d dd H Hd) as [n ->].
    destruct (read_int n sg e0 s) as [s1 [z|x|]] eqn:Hr; try discriminate.
    + destruct (time_of_int r tz z) as [us|x|] eqn:Ht; try discriminate.
      intros [= _ <-]. apply eof_other, (escapes_no_eof (KTime r tz sg e0)). cbn. eapply time_raise; eauto.
    + intros [= <- <-]. eapply read_int_eof; eauto.
  - destruct (known_size_ok ints c KBytes d dd H Hd) as [n ->].
    destruct (read_exact_size c (Ok n) s) as [s1 [b|x|]] eqn:Hr; try discriminate.
    intros [= <- <-]. eapply read_exact_eof; eauto.
  - destruct (known_size_ok ints c (KString cd pad) d dd H Hd) as [n ->].
    destruct (read_exact_size c (Ok n) s) as [s1 [b|x|]] eqn:Hr; try discriminate.
    + destruct (decode cd b) as [t|x|] eqn:Hc; try discriminate.
      intros [= _ <-]. apply eof_other. apply decode_raise in Hc. subst. reflexivity.
    + intros [= <- <-]. eapply read_exact_eof; eauto.
  - assert (Hg : (exists n, get_expected_size_with dd c (KStringZ cd pad) d = Ok n)
              \/ exists fld, get_expected_size_with dd c (KStringZ cd pad) d = Raise (EUndefinedSize fld)).
    { destruct H as [H|(Hsz & Hdf & Hfc)]; [left; eapply known_size_ok; eauto|right].
      exists (c_name c). rewrite ges_unsized; auto. }
    destruct Hg as [[n ->]|[fld ->]]; cbn [is_UndefinedSizeError];
      intros H'; apply stringz_no_eof in H'; apply eof_other; auto.
  - rewrite H. destruct (read s (uuid_size fmt)) as [raw s1] eqn:Hr.
    destruct (zlen raw <? uuid_size fmt) eqn:Hl.
    { intros [= <- <-] fld size off [= _ <- <-].
      destruct (short_read _ _ _ _ Hr ltac:(lia)) as (H1 & H2 & H3).
      assert (0 < uuid_size fmt) by (destruct fmt; reflexivity). split; [lia|]. split; [lia|auto]. }
    pose proof (read_length _ _ _ _ Hr ltac:(destruct fmt; cbn; lia)) as Hle.
    assert (Hlen : zlen raw = uuid_size fmt) by lia. rewrite Hlen.
    replace (match fmt with BINARY_VARIANT_1 | BINARY_VARIANT_2 => negb (uuid_size fmt =? 16) | _ => false end)
      with false by (destruct fmt; reflexivity).
    destruct (uuid_parse fmt raw) as [u|x|] eqn:Hu; try discriminate.
    intros [= _ <-]. apply eof_other, (escapes_no_eof (KUuid fmt)). eapply uuid_raise; eauto.
Qed.

Section Eof.
Variable A : exn -> Prop.
Variable E : env.
Hypothesis Hschema : robust_schema A E.
Hypothesis Hquiet : forall e, A e -> no_eof e.

(** An exception of [from_stream] comes from a callable, or is that of [_do_load] with this
    field as its [field], or is the ValidationError of a constant. *)
Lemma field_source n ints nm f ctx d s s' e : robust A ints nm f -> have_ints ints d ->
  oget d nm = None -> field_from_stream E n f ctx d s = (s', Raise e) ->
  A e \/ (exists fld, e = EValidation fld)
  \/ exists e', do_load E n f ctx d s = (s', Raise e') /\ e = set_field (c_name (conf f)) e'.
Proof.
  intros Hf Hd Hn H. unfold field_from_stream, field_from_stream_with in H.
  assert (Hcall : callables_raise A (conf f)) by (destruct Hf; auto).
  destruct Hcall as [Hval Hpres].
  apply from_stream_raise in H.
  destruct H as [H|[(Ha & H & Hu)|[(Hdf & e' & H)|[(v & H)|[(e' & H & ->)|[(s1 & v & H & Ha & He)|[(s1 & v & w & H & Hw & Hc & He)|(Hc & ->)]]]]]]].
  - left. eauto.
  - destruct Hf as [c k _ Hnm Hs Hnk _ _| ? ? ? _ Hnull| ? ? _ Hnull|? ? ? ? _ Hnull];
      cbn [conf] in *; try (unfold allow_null in Ha; rewrite Hnull in Ha; discriminate).
    destruct (leaf_null_repr E n ints c k d Hs Hnk Ha Hd) as [[nb Hx]|(e' & Hx & Hux & _)]; congruence.
  - destruct Hf as [c k _ Hnm Hs Hnk _ _| ? ? ? _ Hnull| ? ? _ Hnull|? ? ? ? _ Hnull];
      cbn [conf] in *; try congruence.
    assert (Ha : allow_null c = true) by (unfold allow_null; rewrite Hdf; auto).
    destruct (leaf_null_repr E n ints c k d Hs Hnk Ha Hd) as [[nb Hx]|(e2 & Hx & Hux & Hnd)]; congruence.
  - left. apply run_validators_raise in H. destruct H as (check & Hi & H). eauto.
  - right. right. eauto.
  - destruct Hf as [c k _ Hnm Hs Hnk _ _| ? ? ? _ Hnull| ? ? _ Hnull|? ? ? ? _ Hnull];
      cbn [conf] in *; try (unfold allow_null in Ha; rewrite Hnull in Ha; discriminate).
    exfalso. refine (proj2 (py_eq_scalar E 0 v (c_null c) _ _) n e He).
    + rewrite do_load_leaf in H by (destruct Hs; auto). eapply leaf_load_scalar; eauto.
    + destruct Hnk as [? Hx|? ? Hx|? [Hx|Hx] _|? ? ? Hx|? ? ? Hx]; rewrite Hx; exact I.
  - destruct Hf as [c k _ Hnm Hs Hnk Hcs _| ? ? ? _ _ Hcu| ? ? _ _ Hcu|? ? ? ? _ _ Hcu];
      cbn [conf] in *; try congruence.
    exfalso. refine (proj2 (py_eq_scalar E 0 w (c_const c) _ _) n e He).
    + destruct Hw as [-> | ->]; [|exact I]. rewrite do_load_leaf in H by (destruct Hs; auto).
      eapply leaf_load_scalar; eauto.
    + exact Hcs.
  - right. left. eauto.
Qed.

Lemma field_eof n ints nm f ctx d s s' e : robust A ints nm f -> have_ints ints d ->
  oget d nm = None ->
  (forall s s' e, do_load E n f ctx d s = (s', Raise e) -> eof_true s s' e) ->
  field_from_stream E n f ctx d s = (s', Raise e) -> eof_true s s' e.
Proof.
  intros Hf Hd Hn Hdl H. destruct (field_source n ints nm f ctx d s s' e) as [H1|[[fld ->]|(e' & H1 & ->)]]; auto.
  - apply eof_other; auto.
  - apply eof_other. reflexivity.
  - apply eof_set. eauto.
Qed.

(** The first field that fails. *)
Lemma fields_split n ctx fs ints : robust_fields A ints fs -> forall d s s' e,
  have_ints ints d -> NoDup (map fst fs) -> (forall name, In name (map fst fs) -> dget d name = None) ->
  load_fields E (do_load E n) n fs ctx d s = (s', Raise e) ->
  exists pre name f post d1 s1 ints1, fs = pre ++ (name, f) :: post
    /\ loads E n ctx pre d s d1 s1 /\ field_from_stream E n f ctx d1 s1 = (s', Raise e)
    /\ robust A ints1 (Some name) f /\ have_ints ints1 d1 /\ dget d1 name = None.
Proof.
  intros Hfs. induction Hfs as [ints|ints name f fs Hf Hint Hfs IH|ints name f fs Hf Hfs IH];
    intros d s s' e Hd Hnd Hnone; cbn [load_fields]; unfold lbind; [discriminate|..].
  all: change (field_from_stream_with E (do_load E n) n f ctx d s) with (field_from_stream E n f ctx d s).
  all: assert (Hown : dget d name = None) by (apply Hnone; left; auto).
  all: destruct (field_from_stream E n f ctx d s) as [s1 [v|e'|]] eqn:Hl; intros H; try discriminate.
  - apply IH in H.
    + destruct H as (pre & nm & g & post & d1 & s2 & ints1 & -> & Hpre & Hrest).
      exists ((name, f) :: pre), nm, g, post, d1, s2, ints1. split; [reflexivity|]. split; auto.
      eapply loads_cons; eauto.
    + unfold dmem. rewrite Hown. intros x [<-|Hx].
      * destruct (integer_loads A E _ _ _ _ _ _ _ _ _ Hf Hint Hl) as [z ->].
        exists z. rewrite dget_app, Hown. cbn. rewrite String.eqb_refl. auto.
      * apply (have_ints_app ints d [(name, v)]); auto.
    + inversion Hnd; auto.
    + intros x Hx. unfold dmem. rewrite Hown, dget_app, Hnone by (right; auto).
      cbn. destruct (String.eqb_spec name x) as [->|]; auto.
      inversion Hnd; contradiction.
  - injection H as <- <-. exists [], name, f, fs, d, s, ints. repeat (split; auto). constructor.
  - apply IH in H.
    + destruct H as (pre & nm & g & post & d1 & s2 & ints1 & -> & Hpre & Hrest).
      exists ((name, f) :: pre), nm, g, post, d1, s2, ints1. split; [reflexivity|]. split; auto.
      eapply loads_cons; eauto.
    + unfold dmem. rewrite Hown. apply have_ints_app; auto.
    + inversion Hnd; auto.
    + intros x Hx. unfold dmem. rewrite Hown, dget_app, Hnone by (right; auto).
      cbn. destruct (String.eqb_spec name x) as [->|]; auto.
      inversion Hnd; contradiction.
  - injection H as <- <-. exists [], name, f, fs, d, s, ints. repeat (split; auto). constructor.
Qed.

Lemma loads_forward n ctx fs d s d' s' : loads E n ctx fs d s d' s' -> forward s s'.
Proof.
  induction 1 as [|name f fs d s v s1 d' s' H _ IH]; [apply forward_refl|].
  eapply forward_trans; [|exact IH]. eapply field_load_forward; eauto.
Qed.

(** An exception of a struct is that of its first failing field, or of a validator. *)
Lemma struct_split n cid ctx s s' e : struct_from_stream E n cid ctx [] s = (s', Raise e) ->
  A e \/ exists pre name f post d1 s1 ints1, k_comps (cls E cid) = pre ++ (name, f) :: post
    /\ loads E n ctx pre [] s d1 s1 /\ field_from_stream E n f ctx d1 s1 = (s', Raise e)
    /\ robust A ints1 (Some name) f /\ have_ints ints1 d1 /\ dget d1 name = None.
Proof.
  destruct (Hschema cid) as ((Hnd & Hnm & Hin) & Hfs & Hm & Hs).
  unfold struct_from_stream, struct_from_stream_with, lbind, llift, lret.
  destruct (load_fields E (do_load E n) n (comps E cid) ctx [] s) as [s1 [d|e'|]] eqn:Hl; intros H; try discriminate.
  - apply load_fields_iff in Hl. destruct (loads_keys _ _ _ _ _ _ _ _ Hl) as (new & _ & _ & Hk & _).
    assert (Hinit : struct_init E cid d = Ok d).
    { apply init_ok_iff. split; auto. intros x Hx. apply Hk in Hx. destruct Hx as [[]|Hx]; auto. }
    rewrite Hinit in H.
    destruct (validate_contents E n cid d) as [[]|e'|] eqn:Hv; try discriminate.
    injection H as _ <-. left. apply (validate_raise A E Hschema n cid d e'); auto.
    intros name Hname. destruct (dget d name) as [v|] eqn:Hg; eauto.
    apply dget_none in Hg. destruct Hg. apply Hk. auto.
  - injection H as <- <-. right. eapply fields_split; eauto. intros name [].
Qed.

Lemma struct_eof n cid ctx (Hdl : forall ints nm f d s s' e, robust A ints nm f -> have_ints ints d ->
    oget d nm = None -> do_load E n f ctx d s = (s', Raise e) -> eof_true s s' e) s s' e :
  struct_from_stream E n cid ctx [] s = (s', Raise e) -> eof_true s s' e.
Proof.
  intros H. destruct (struct_split _ _ _ _ _ _ H) as [Ha|H']; [apply eof_other; auto|].
  destruct H' as (pre & name & f & post & d1 & s1 & ints1 & _ & Hpre & Hf & Hr & Hi & Hn).
  eapply eof_forward; [eapply loads_forward; eauto|].
  eapply (field_eof n ints1 (Some name)); eauto.
Qed.

Lemma array_eof load1 halt fuel : (forall s s' e, load1 s = (s', Raise e) -> eof_true s s' e) ->
  fwd load1 -> (forall s values e, halt s values = Raise e -> no_eof e) ->
  forall values s s' e, array_load fuel halt load1 values s = (s', Raise e) -> eof_true s s' e.
Proof.
  intros Hl Hfwd Hh. induction fuel as [|fuel IH]; intros values s s' e H; [discriminate|].
  cbn [array_load] in H. destruct (halt s values) as [[[|] vs]|e'|] eqn:He; try discriminate.
  - destruct (load1 s) as [s1 [v|e'|]] eqn:Hl1; try discriminate.
    + destruct v; try (eapply eof_forward; [eapply Hfwd; eauto|]; eapply IH; eauto).
    + injection H as <- <-. eauto.
  - injection H as <- <-. apply eof_other. eauto.
Qed.

Lemma load_eof n : forall ints nm f ctx d s s' e, robust A ints nm f -> have_ints ints d ->
  oget d nm = None -> do_load E n f ctx d s = (s', Raise e) -> eof_true s s' e.
Proof.
  induction n as [|n IH]; intros ints nm f ctx d s s' e Hf Hd Hn H.
  - destruct Hf as [c k Hcall Hnm Hs Hnk Hcs Hesc| | |]; try discriminate.
    rewrite do_load_leaf in H by (destruct Hs; auto).
    eapply leaf_eof in H; eauto.
  - destruct Hf as [c k Hcall Hnm Hs Hnk Hcs Hesc|c comp cnt Hcall Hnull Hcu Hcnt Hcomp
      |c cid Hcall Hnull Hcu|c choices ld dd Hcall Hnull Hcu Hld Hlt Hch].
    + rewrite do_load_leaf in H by (destruct Hs; auto).
      eapply leaf_eof in H; eauto.
    + cbn [do_load kind] in H. eapply array_eof in H; eauto.
      * intros s0 s1 e0 H0. eapply (field_eof n); eauto.
      * apply field_load_forward.
      * intros s0 values e0. unfold array_halt, should_halt.
        destruct Hcnt as [->|Hcnt]; [discriminate|].
        destruct (known_count_ok ints cnt d Hcnt Hd) as [m Hm].
        rewrite (counted_get _ _ _ Hm). destruct cnt; cbn [bind]; discriminate.
    + cbn [do_load kind] in H. unfold lbind, lret in H.
      change (struct_from_stream_with E (do_load E n) n cid ctx [] s)
        with (struct_from_stream E n cid ctx [] s) in H.
      destruct (struct_from_stream E n cid ctx [] s) as [s1 [vals|e'|]] eqn:Hst; try discriminate.
      injection H as <- <-. eapply struct_eof; eauto.
    + cbn [do_load kind] in H. destruct (ld s ctx d) as [i|e'|] eqn:Hl; try discriminate.
      * pose proof (Hlt _ _ _ _ Hl) as Hi. destruct (nth_error choices i) as [[g|cid]|] eqn:Hnth.
        -- eapply IH; eauto. apply Hch. eapply nth_error_In; eauto.
        -- unfold lbind, lret in H.
           change (struct_from_stream_with E (do_load E n) n cid ctx [] s)
             with (struct_from_stream E n cid ctx [] s) in H.
           destruct (struct_from_stream E n cid ctx [] s) as [s1 [vals|e'|]] eqn:Hst; try discriminate.
           injection H as <- <-. eapply struct_eof; eauto.
        -- apply nth_error_None in Hnth. lia.
      * injection H as _ <-. apply eof_other. eauto.
Qed.

Lemma struct_load_eof n cid ctx s s' fld size offset :
  struct_from_stream E n cid ctx [] s = (s', Raise (EUnexpectedEOF fld size offset)) ->
  tell s <= offset /\ zlen (s_data s) < offset + size /\ rest s' = [].
Proof.
  intros H. refine (struct_eof n cid ctx _ s s' _ H _ _ _ eq_refl). intros. eapply load_eof; eauto.
Qed.

End Eof.

(** The exception names the first field of the struct that cannot be loaded. *)
Lemma struct_load_named A E n cid ctx s s' e fld : robust_schema A E ->
  (forall e, A e -> is_DeserializationError e = false) ->
  struct_from_stream E n cid ctx [] s = (s', Raise e) -> named_field e = Some fld ->
  exists pre name f post d s1, k_comps (cls E cid) = pre ++ (name, f) :: post
    /\ fld = Some name /\ loads E n ctx pre [] s d s1
    /\ field_from_stream E n f ctx d s1 = (s', Raise e).
Proof.
  intros Hschema Hquiet H Hn.
  assert (Hd : is_DeserializationError e = true) by (destruct e; try discriminate; reflexivity).
  destruct (struct_split A E Hschema _ _ _ _ _ _ H) as [Ha|H'].
  { apply Hquiet in Ha. congruence. }
  destruct H' as (pre & name & f & post & d1 & s1 & ints1 & Hc & Hpre & Hf & Hr & Hi & Hnone).
  exists pre, name, f, post, d1, s1. repeat (split; auto).
  destruct (field_source A E n ints1 (Some name) f ctx d1 s1 s' e) as [Ha|[[x ->]|(e' & Hl & ->)]]; auto.
  - apply Hquiet in Ha. congruence.
  - discriminate.
  - destruct (Hschema cid) as ((_ & Hnm & _) & _).
    pose proof (proj1 (Forall_forall _ _) Hnm (name, f)) as Hname. cbn in Hname.
    rewrite Hname in Hn; [|rewrite Hc; apply in_or_app; right; left; auto].
    destruct e'; cbn in Hn; congruence.
Qed.
