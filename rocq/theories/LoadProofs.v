(** Loading arbitrary data: which exceptions can come out, and termination. *)
From Verif Require Import Tac StreamProofs VarintsProofs VarintsMore LeafProofs LeafMore.
From Verif Require Import FieldProofs FieldMore StructProofs ForwardProofs FuelProofs ArrayProofs.
From Verif Require Export SpecLoad.

(** ** Queries on a dictionary always answer *)
Lemma run_q_finishes {A} mem get keys (q : query A) : (forall x, get x <> OOF) ->
  run_q mem get keys q <> OOF.
Proof.
  intros Hg. induction q as [a|e|nm f IH|nm f IH|f IH]; cbn [run_q]; try discriminate; auto.
  specialize (Hg nm). destruct (get nm); auto.
Qed.

Lemma run_dict_finishes {A} d (q : query A) : run_dict d q <> OOF.
Proof.
  apply run_q_finishes. intros x. unfold dget_res. destruct (dget d x); discriminate.
Qed.

Lemma run_validators_raise c v e : run_validators (c_validators c) v = Raise e ->
  exists check, In check (c_validators c) /\ check v = Raise e.
Proof.
  generalize (c_validators c) as vs. induction vs as [|f vs IH]; cbn [run_validators]; [discriminate|].
  destruct (f v) as [[]|e'|] eqn:Hf; cbn [bind]; intros H; try discriminate.
  - destruct (IH H) as (check & Hi & Hc). exists check. split; [right|]; auto.
  - injection H as <-. exists f. split; [left|]; auto.
Qed.

(** ** Where an exception of [from_stream] comes from *)
Lemma from_stream_raise nr dl eqv c ctx d s s' e :
  from_stream_with nr dl eqv c ctx d s = (s', Raise e) ->
  run_dict d (c_present c ctx (Some s)) = Raise e
  \/ (allow_null c = true /\ nr = Raise e /\ is_UnserializableValueError e = false)
  \/ (c_null c = VDefault /\ exists e', nr = Raise e')
  \/ (exists v, run_validators (c_validators c) v = Raise e)
  \/ (exists e', dl s = (s', Raise e') /\ e = set_field (c_name c) e')
  \/ (exists s1 v, dl s = (s1, Ok v) /\ allow_null c = true /\ eqv v (c_null c) = Raise e)
  \/ (exists s1 v w, dl s = (s1, Ok v) /\ (w = v \/ w = VNone) /\ c_const c <> VUndefined
        /\ eqv w (c_const c) = Raise e)
  \/ (c_const c <> VUndefined /\ e = EValidation (c_name c)).
Proof.
  unfold from_stream_with.
  set (lv := lbind _ _).
  assert (Hlv : lv s = (s', Raise e) ->
    (exists v, run_validators (c_validators c) v = Raise e)
    \/ (exists e', dl s = (s', Raise e') /\ e = set_field (c_name c) e')
    \/ (exists s1 v, dl s = (s1, Ok v) /\ allow_null c = true /\ eqv v (c_null c) = Raise e)
    \/ (exists s1 v w, dl s = (s1, Ok v) /\ (w = v \/ w = VNone) /\ c_const c <> VUndefined
        /\ eqv w (c_const c) = Raise e)
    \/ (c_const c <> VUndefined /\ e = EValidation (c_name c))).
  { unfold lv, lbind, llift, lret. destruct (dl s) as [s1 [v|e'|]] eqn:Hd; intros H.
    - assert (Hc : forall w s1', (w = v \/ w = VNone) ->
        (match (if negb (is_undefined (c_const c)) then
                 do b <- eqv w (c_const c); if b then Ok tt else Raise (EValidation (c_name c))
               else Ok tt) with
         | Ok _ => match run_validators (c_validators c) w with
                   | Ok _ => (s1', Ok w) | Raise e => (s1', Raise e) | OOF => (s1', OOF) end
         | Raise e => (s1', Raise e) | OOF => (s1', OOF) end) = (s', Raise e) ->
        (exists v, run_validators (c_validators c) v = Raise e)
        \/ (exists w, (w = v \/ w = VNone) /\ c_const c <> VUndefined /\ eqv w (c_const c) = Raise e)
        \/ (c_const c <> VUndefined /\ e = EValidation (c_name c))).
      { intros w s1' Hw Hq. destruct (is_undefined (c_const c)) eqn:Hu; cbn [negb] in Hq.
        - left. exists w. destruct (run_validators (c_validators c) w) as [[]|e''|]; congruence.
        - assert (Hcu : c_const c <> VUndefined) by (intros Hx; rewrite Hx in Hu; discriminate).
          destruct (eqv w (c_const c)) as [[|]|e''|] eqn:He; cbn [bind] in Hq; try congruence.
          + left. exists w. destruct (run_validators (c_validators c) w) as [[]|e''|]; congruence.
          + injection Hq as _ <-. right. right. auto.
          + injection Hq as _ <-. right. left. exists w. auto. }
      destruct (allow_null c) eqn:Ha.
      + destruct (eqv v (c_null c)) as [b|e''|] eqn:He; cbn [bind] in H; try congruence.
        * destruct (Hc (if b then VNone else v) s1 ltac:(destruct b; auto) H) as [?|[(w & ? & ? & ?)|?]]; auto.
          right. right. right. left. exists s1, v, w. auto.
        * injection H as _ <-. right. right. left. exists s1, v. auto.
      + destruct (Hc v s1 ltac:(auto) H) as [?|[(w & ? & ? & ?)|?]]; auto.
        right. right. right. left. exists s1, v, w. auto.
    - right. left. exists e'. injection H as <- <-. auto.
    - discriminate. }
  destruct (run_dict d (c_present c ctx (Some s))) as [[|]|e'|] eqn:Hp; intros H; try congruence.
  - destruct (allow_null c) eqn:Ha; [|right; right; right; auto].
    destruct nr as [nb|e'|] eqn:Hnr; try congruence.
    + unfold peek_bytes in H. destruct (read s (zlen nb)) as [data sx]. cbn [negb andb] in H.
      destruct (bytes_eqb data nb); [|right; right; right; auto].
      destruct (run_validators (c_validators c) VNone) eqn:Hv; try congruence.
      injection H as _ <-. right. right. right. left. eauto.
    + destruct (is_UnserializableValueError e') eqn:Hu.
      * destruct (is_default (c_null c)) eqn:Hdf; [|right; right; right; auto].
        right. right. left. split; [destruct (c_null c); try discriminate; auto|eauto].
      * injection H as _ <-. right. left. auto.
  - injection H as _ <-. auto.
Qed.

(** ** Leaves *)
Definition scalar_value (v : value) : Prop :=
  match v with VList _ | VDict _ | VStruct _ _ | VGen _ => False | _ => True end.

Lemma py_eq_scalar E n v w : scalar_value v -> scalar_value w ->
  py_eq E (S n) v w <> OOF /\ forall m e, py_eq E m v w <> Raise e.
Proof.
  intros Hv Hw. split; [|intros [|m] e; [discriminate|]];
    destruct v; try contradiction; destruct w; try contradiction; discriminate.
Qed.

Lemma leaf_load_scalar c k g g0 s s' v : leaf_load c k g g0 s = (s', Ok v) -> scalar_value v.
Proof.
  destruct k; cbn [leaf_load]; unfold lbind, lret, llift, lraise; intros H.
  - destruct (c_size c); try discriminate. destruct (read_int _ _ _ s) as [s1 [z|?|]]; try discriminate.
    injection H as _ <-. exact I.
  - destruct (vli_decode fmt s) as [s1 [z|?|]]; try discriminate. injection H as _ <-. exact I.
  - destruct (read_exact_size c g0 s) as [s1 [b|?|]]; try discriminate.
    destruct (zlen b =? ff_bytes fmt); try discriminate. injection H as _ <-. exact I.
  - destruct g as [m|?|]; try discriminate. destruct (read_int _ _ _ s) as [s1 [z|?|]]; try discriminate.
    destruct (time_of_int _ _ z); try discriminate. injection H as _ <-. exact I.
  - destruct (read_exact_size c g s) as [s1 [b|?|]]; try discriminate. injection H as _ <-. exact I.
  - destruct (read_exact_size c g s) as [s1 [b|?|]]; try discriminate.
    destruct (decode c0 b); try discriminate. injection H as _ <-. exact I.
  - assert (Hz : forall fuel nm cd mx nr buf acc s s',
      stringz_loop fuel nm cd mx nr buf acc s = (s', Ok v) -> scalar_value v).
    { clear. induction fuel as [|fuel IH]; intros nm cd mx nr buf acc s s' H; [discriminate|].
      cbn [stringz_loop] in H. destruct (iter_next mx nr s) as [[b s1]|].
      - destruct (dec_step cd (buf ++ [b])) as [cp| | |cd'|]; try discriminate; eauto.
        destruct (cp =? 0); eauto. injection H as _ <-. exact I.
      - destruct (forgiven cd buf); discriminate. }
    destruct g as [m|x|]; try discriminate; eauto.
    destruct (is_UndefinedSizeError x); try discriminate; eauto.
  - destruct (c_size c); try discriminate. destruct (read s n) as [raw s1].
    destruct (zlen raw <? n); try discriminate.
    destruct (match fmt with BINARY_VARIANT_1 | BINARY_VARIANT_2 => _ | _ => _ end); try discriminate.
    destruct (uuid_parse fmt raw); try discriminate. injection H as _ <-. exact I.
  - discriminate.
  - discriminate.
  - discriminate.
Qed.

Lemma int_leaf_value c k g g0 s s' v : match k with KInt _ _ | KVli _ _ => True | _ => False end ->
  leaf_load c k g g0 s = (s', Ok v) -> exists z, v = VInt z.
Proof.
  intros Hk H. destruct k; try contradiction; cbn [leaf_load] in H; unfold lbind, lret, lraise in H.
  - destruct (c_size c); try discriminate. destruct (read_int _ _ _ s) as [s1 [z|?|]]; try discriminate.
    injection H as _ <-. eauto.
  - destruct (vli_decode fmt s) as [s1 [z|?|]]; try discriminate. injection H as _ <-. eauto.
Qed.

(** Values of the integer fields read so far. *)
Definition have_ints (ints : list string) (d : dict) : Prop :=
  forall name, In name ints -> exists z, dget d name = Some (VInt z).

Lemma known_size_ok ints c k d dd : known_size ints c -> have_ints ints d ->
  exists n, get_expected_size_with dd c k d = Ok n.
Proof.
  intros [[n Hn]|(name & Hn & Hi)] Hd; unfold get_expected_size_with; rewrite Hn; eauto.
  destruct (Hd _ Hi) as [z ->]. eauto.
Qed.

Lemma known_count_ok ints cnt d : known_count ints cnt -> have_ints ints d ->
  exists n, counted cnt d n.
Proof.
  intros [[n Hn]|(name & Hn & Hi)] Hd; [exists n; left; auto|].
  destruct (Hd _ Hi) as [z Hz]. exists z. right. eauto.
Qed.

Lemma read_int_raise n sg e s s' x : read_int n sg e s = (s', Raise x) -> malformed x.
Proof.
  unfold read_int. destruct (read s n) as [data s1]. destruct (zlen data <? n); [|discriminate].
  intros [= _ <-]. left. auto.
Qed.

Lemma read_exact_raise c n s s' x : read_exact_size c (Ok n) s = (s', Raise x) -> malformed x.
Proof.
  unfold read_exact_size. destruct (read s n) as [data s1]. destruct (zlen data <? n); [|discriminate].
  intros [= _ <-]. left. auto.
Qed.

Lemma uleb_raise fuel : forall v b s s' x, decode_uleb_loop fuel v b s = (s', Raise x) -> malformed x.
Proof.
  induction fuel as [|fuel IH]; intros v b s s' x; cbn [decode_uleb_loop]; [discriminate|].
  unfold lbind, lret. destruct (read_uint8 s) as [s1 [z|y|]] eqn:Hr; try discriminate.
  - destruct (Z.land z 128 =? 0); [discriminate|apply IH].
  - intros [= _ <-]. eapply read_int_raise; eauto.
Qed.

Lemma vlq_raise fuel : forall v s s' x, decode_vlq_loop fuel v s = (s', Raise x) -> malformed x.
Proof.
  induction fuel as [|fuel IH]; intros v s s' x; cbn [decode_vlq_loop]; [discriminate|].
  unfold lbind, lret. destruct (read_uint8 s) as [s1 [z|y|]] eqn:Hr; try discriminate.
  - destruct (Z.land z 128 =? 0); [discriminate|apply IH].
  - intros [= _ <-]. eapply read_int_raise; eauto.
Qed.

Lemma compact_raise fuel : forall sg v s s' x, decode_compact_loop fuel sg v s = (s', Raise x) -> malformed x.
Proof.
  induction fuel as [|fuel IH]; intros sg v s s' x; cbn [decode_compact_loop]; [discriminate|].
  unfold lbind, lret. destruct (read_uint8 s) as [s1 [z|y|]] eqn:Hr; try discriminate.
  - destruct sg; destruct (Z.land z 128 =? 0); discriminate || apply IH.
  - intros [= _ <-]. eapply read_int_raise; eauto.
Qed.

Lemma vli_raise fmt s s' x : vli_decode fmt s = (s', Raise x) -> malformed x.
Proof.
  destruct fmt; cbn [vli_decode].
  - apply compact_raise.
  - unfold decode_integer_leb128, decode_integer_uleb128.
    destruct (decode_uleb_loop _ _ _ s) as [s1 [v|e|]] eqn:Hd; try discriminate.
    + destruct (v =? 0); [discriminate|]. destruct (_ <? _); discriminate.
    + intros [= _ <-]. eapply uleb_raise; eauto.
  - apply uleb_raise.
  - apply vlq_raise.
Qed.

Definition needs_mark (cd : codec) : Prop := match cd with Utf16Bom _ | Utf32Bom _ => True | _ => False end.

Lemma dec_utf8_marks buf : match dec_utf8 buf with DBom _ | DNoBom => False | _ => True end.
Proof.
  destruct buf as [|b0 [|b1 [|b2 [|b3 [|b4 r]]]]]; cbn [dec_utf8]; auto;
    repeat match goal with |- context [if ?c then _ else _] => destruct c end; auto.
Qed.
Lemma dec_utf16_marks e buf : match dec_utf16 e buf with DBom _ | DNoBom => False | _ => True end.
Proof.
  destruct buf as [|b0 [|b1 [|b2 [|b3 [|b4 r]]]]]; cbn [dec_utf16]; auto;
    repeat match goal with |- context [if ?c then _ else _] => destruct c end; auto.
Qed.
Lemma dec_utf32_marks e buf : match dec_utf32 e buf with DBom _ | DNoBom => False | _ => True end.
Proof.
  destruct buf as [|b0 [|b1 [|b2 [|b3 [|b4 r]]]]]; cbn [dec_utf32]; auto;
    repeat match goal with |- context [if ?c then _ else _] => destruct c end; auto.
Qed.

Lemma no_mark_needed cd buf : dec_step cd buf = DNoBom -> needs_mark cd.
Proof.
  destruct cd as [| | |e|e|t| |e|e]; cbn [dec_step needs_mark]; auto.
  - destruct buf as [|b [|]]; try discriminate. destruct (b <? 128); discriminate.
  - destruct buf as [|b [|]]; discriminate.
  - pose proof (dec_utf8_marks buf). intros Hd. rewrite Hd in *. auto.
  - pose proof (dec_utf16_marks e buf). intros Hd. rewrite Hd in *. auto.
  - pose proof (dec_utf32_marks e buf). intros Hd. rewrite Hd in *. auto.
  - destruct buf as [|b [|]]; try discriminate. destruct (page_char t b); discriminate.
  - destruct (bytes_eqb _ _); [discriminate|]. pose proof (dec_utf8_marks buf). intros Hd. rewrite Hd in *. auto.
Qed.

Lemma mark_settles cd buf cd' : dec_step cd buf = DBom cd' -> ~ needs_mark cd'.
Proof.
  destruct cd as [| | |e|e|t| |e|e]; cbn [dec_step].
  - destruct buf as [|b [|]]; try discriminate. destruct (b <? 128); discriminate.
  - destruct buf as [|b [|]]; discriminate.
  - pose proof (dec_utf8_marks buf). intros Hd. rewrite Hd in *. contradiction.
  - pose proof (dec_utf16_marks e buf). intros Hd. rewrite Hd in *. contradiction.
  - pose proof (dec_utf32_marks e buf). intros Hd. rewrite Hd in *. contradiction.
  - destruct buf as [|b [|]]; try discriminate. destruct (page_char t b); discriminate.
  - destruct (bytes_eqb _ _); [intros [= <-] []|]. pose proof (dec_utf8_marks buf). intros Hd. rewrite Hd in *. contradiction.
  - destruct (bytes_eqb _ _); [intros [= <-] []|]. destruct (bytes_eqb _ _); [intros [= <-] []|].
    pose proof (dec_utf16_marks e buf). destruct (dec_utf16 e buf); cbn [need_bom]; try discriminate. contradiction.
  - destruct (bytes_eqb _ _); [intros [= <-] []|]. destruct (bytes_eqb _ _); [intros [= <-] []|].
    pose proof (dec_utf32_marks e buf). destruct (dec_utf32 e buf); cbn [need_bom]; try discriminate. contradiction.
Qed.

Lemma stringz_raise fuel : forall nm cd mx nr buf acc s s' x,
  stringz_loop fuel nm cd mx nr buf acc s = (s', Raise x) ->
  malformed x \/ x = EUnicodeDecode \/ (x = EUnicodeErr /\ needs_mark cd).
Proof.
  induction fuel as [|fuel IH]; intros nm cd mx nr buf acc s s' x H; [discriminate|].
  cbn [stringz_loop] in H. destruct (iter_next mx nr s) as [[b s1]|].
  - destruct (dec_step cd (buf ++ [b])) as [cp| | |cd'|] eqn:Hd; eauto.
    + destruct (cp =? 0); [discriminate|]. destruct (IH _ _ _ _ _ _ _ _ _ H) as [?|[?|[? Hn]]]; auto.
      right; right. split; auto. destruct cd; auto.
    + injection H as _ <-. auto.
    + destruct (IH _ _ _ _ _ _ _ _ _ H) as [?|[?|[? Hn]]]; auto. destruct (mark_settles _ _ _ Hd Hn).
    + injection H as _ <-. right; right. split; auto. eapply no_mark_needed; eauto.
  - destruct (forgiven cd buf); injection H as _ <-; [left; left|]; auto.
Qed.

Lemma chars_decode_raise cd buf bs e : decode_from cd buf bs = Raise e -> e = EUnicodeDecode.
Proof.
  revert buf. induction bs as [|b bs IH]; intros buf; cbn [decode_from].
  - destruct buf; congruence.
  - destruct (dec_step cd (buf ++ [b])) as [cp| | |cd'|]; try congruence; eauto.
    destruct (decode_from cd [] bs) eqn:Hd; cbn [bind]; try discriminate.
    intros [= <-]. eauto.
Qed.

Lemma chars_decode_finishes cd buf bs : decode_from cd buf bs <> OOF.
Proof.
  revert buf. induction bs as [|b bs IH]; intros buf; cbn [decode_from].
  - destruct buf; discriminate.
  - destruct (dec_step cd (buf ++ [b])) as [cp| | |cd'|]; try discriminate; auto.
    specialize (IH []). destruct (decode_from cd [] bs); cbn [bind]; congruence.
Qed.

Lemma decode_raise cd bs e : decode cd bs = Raise e -> e = EUnicodeDecode.
Proof. unfold decode. destruct (strip_bom cd bs). apply chars_decode_raise. Qed.

Lemma decode_finishes cd bs : decode cd bs <> OOF.
Proof. unfold decode. destruct (strip_bom cd bs). apply chars_decode_finishes. Qed.

Lemma time_raise r tz z e : time_of_int r tz z = Raise e -> e = EValueErr \/ e = EOverflow \/ e = EOSErr.
Proof.
  unfold time_of_int, py_fromtimestamp, year_error, opt_res.
  destruct r; repeat first
    [ progress cbn [bind]
    | match goal with |- context [match rnd64 ?q with _ => _ end] => destruct (rnd64 q) end
    | match goal with |- context [let '(_, _) := ?p in _] => destruct p end
    | match goal with |- context [if ?b then _ else _] => destruct b end ];
    intros H; try discriminate; injection H as <-; auto.
Qed.

Lemma time_finishes r tz z : time_of_int r tz z <> OOF.
Proof.
  unfold time_of_int, py_fromtimestamp, year_error, opt_res.
  destruct r; repeat first
    [ progress cbn [bind]
    | match goal with |- context [match rnd64 ?q with _ => _ end] => destruct (rnd64 q) end
    | match goal with |- context [let '(_, _) := ?p in _] => destruct p end
    | match goal with |- context [if ?b then _ else _] => destruct b end ]; discriminate.
Qed.

Lemma uuid_hex_raise s e : uuid_of_hex s = Raise e -> e = EValueErr.
Proof.
  unfold uuid_of_hex. destruct (negb _); [congruence|]. destruct (int_base16 _); [|congruence].
  destruct (_ && _); congruence.
Qed.

Lemma uuid_hex_finishes s : uuid_of_hex s <> OOF.
Proof.
  unfold uuid_of_hex. destruct (negb _); [discriminate|]. destruct (int_base16 _); [|discriminate].
  destruct (_ && _); discriminate.
Qed.

Lemma uuid_raise fmt raw e : uuid_parse fmt raw = Raise e -> escapes (KUuid fmt) e.
Proof.
  destruct fmt; cbn [uuid_parse escapes]; try discriminate;
    destruct (decode Ascii raw) as [t|x|] eqn:Hd; cbn [bind]; intros H; try discriminate.
  all: try (right; eapply uuid_hex_raise; eassumption).
  all: injection H as <-; left; eapply decode_raise; eauto.
Qed.

Lemma uuid_finishes fmt raw : uuid_parse fmt raw <> OOF.
Proof.
  destruct fmt; cbn [uuid_parse]; try discriminate;
    pose proof (decode_finishes Ascii raw); destruct (decode Ascii raw); cbn [bind];
    try discriminate; try contradiction; apply uuid_hex_finishes.
Qed.

Lemma read_length s n data s' : read s n = (data, s') -> 0 <= n -> zlen data <= n.
Proof.
  unfold read. intros [= <- _] Hn. replace (n <? 0) with false by lia. unfold zlen.
  rewrite firstn_length. lia.
Qed.

(** Every exception of a leaf's [_do_load]. *)
Lemma leaf_load_raise ints nm c k d dd dd0 s s' e : c_name c = None \/ c_name c = nm ->
  sized_leaf ints c k -> have_ints ints d -> oget d nm = None ->
  leaf_load c k (get_expected_size_with dd c k d) (get_expected_size_with dd0 c k []) s
    = (s', Raise e) ->
  malformed e \/ escapes k e.
Proof.
  intros Hnm Hs Hd Hn. assert (Hown : oget d (c_name c) = None) by (destruct Hnm as [->| ->]; auto).
  destruct Hs; cbn [leaf_load]; unfold lbind, llift, lret, lraise.
  - rewrite H. destruct (read_int n sg e0 s) as [s1 [z|x|]] eqn:Hr; try discriminate.
    intros [= _ <-]. left. eapply read_int_raise; eauto.
  - destruct (vli_decode fmt s) as [s1 [z|x|]] eqn:Hr; try discriminate.
    intros [= _ <-]. left. eapply vli_raise; eauto.
  - unfold get_expected_size_with. rewrite H.
    destruct (read_exact_size c (Ok (ff_bytes fmt)) s) as [s1 [b|x|]] eqn:Hr; try discriminate.
    + destruct (zlen b =? ff_bytes fmt); [discriminate|]. intros [= _ <-]. left. left. auto.
    + intros [= _ <-]. left. eapply read_exact_raise; eauto.
  - destruct (known_size_ok ints c (KTime r tz sg e0) d dd H Hd) as [n ->].
    destruct (read_int n sg e0 s) as [s1 [z|x|]] eqn:Hr; try discriminate.
    + destruct (time_of_int r tz z) as [us|x|] eqn:Ht; try discriminate.
      intros [= _ <-]. right. cbn. eapply time_raise; eauto.
    + intros [= _ <-]. left. eapply read_int_raise; eauto.
  - destruct (known_size_ok ints c KBytes d dd H Hd) as [n ->].
    destruct (read_exact_size c (Ok n) s) as [s1 [b|x|]] eqn:Hr; try discriminate.
    intros [= _ <-]. left. eapply read_exact_raise; eauto.
  - destruct (known_size_ok ints c (KString cd pad) d dd H Hd) as [n ->].
    destruct (read_exact_size c (Ok n) s) as [s1 [b|x|]] eqn:Hr; try discriminate.
    + destruct (decode cd b) as [t|x|] eqn:Hc; try discriminate.
      intros [= _ <-]. right. cbn. eapply decode_raise; eauto.
    + intros [= _ <-]. left. eapply read_exact_raise; eauto.
  - assert (Hg : (exists n, get_expected_size_with dd c (KStringZ cd pad) d = Ok n)
              \/ exists fld, get_expected_size_with dd c (KStringZ cd pad) d = Raise (EUndefinedSize fld)).
    { destruct H as [H|(Hsz & Hdf & Hfc)]; [left; eapply known_size_ok; eauto|right].
      exists (c_name c). rewrite ges_unsized; auto. }
    destruct Hg as [[n ->]|[fld ->]]; cbn [is_UndefinedSizeError];
      intros H'; apply stringz_raise in H'; destruct H' as [?|[->|[-> ?]]]; auto; right;
      destruct cd; cbn in *; auto; contradiction.
  - rewrite H. destruct (read s (uuid_size fmt)) as [raw s1] eqn:Hr.
    destruct (zlen raw <? uuid_size fmt) eqn:Hl; [intros [= _ <-]; left; left; auto|].
    pose proof (read_length _ _ _ _ Hr ltac:(destruct fmt; cbn; lia)) as Hle.
    assert (Hlen : zlen raw = uuid_size fmt) by lia. rewrite Hlen.
    replace (match fmt with BINARY_VARIANT_1 | BINARY_VARIANT_2 => negb (uuid_size fmt =? 16) | _ => false end)
      with false by (destruct fmt; reflexivity).
    destruct (uuid_parse fmt raw) as [u|x|] eqn:Hu; try discriminate.
    intros [= _ <-]. right. eapply uuid_raise; eauto.
Qed.

(** The null representation of a leaf never gets in the way. *)
Lemma leaf_null_repr E n ints c k d : sized_leaf ints c k -> null_known ints c k ->
  allow_null c = true -> have_ints ints d ->
  (exists nb, null_repr (do_dump E n) (Field c k) d = Ok nb)
  \/ exists e, null_repr (do_dump E n) (Field c k) d = Raise e
       /\ is_UnserializableValueError e = true /\ c_null c <> VDefault.
Proof.
  intros Hs Hnk Ha Hd. unfold null_repr, null_repr_with. cbn [conf].
  destruct Hnk as [k Hn|k bs Hn|k Hn Hsz|sg e z Hn|fmt mx z Hn].
  - unfold allow_null in Ha. rewrite Hn in Ha. discriminate.
  - rewrite Hn. eauto.
  - assert (Hg : exists m, ges (do_dump E n) (Field c k) d = Ok m)
      by (unfold ges; eapply known_size_ok; eauto).
    destruct Hg as [m Hg]. rewrite Hg. destruct Hn as [-> | ->]; eauto.
  - rewrite Hn. inversion Hs as [? ? m Hm| | | | | | |]; subst.
    rewrite do_dump_leaf by auto. cbn [leaf_dump]. rewrite Hm. unfold write_int, py_to_bytes.
    destruct (m <? 0); [|destruct (fits sg m z)].
    + right. exists (EUnserializable (c_name c)). cbn. repeat split; auto. discriminate.
    + left. cbn. eauto.
    + right. exists (EUnserializable (c_name c)). cbn. repeat split; auto. discriminate.
  - rewrite Hn. rewrite do_dump_leaf by auto.
    cbn [leaf_dump vli_encode_value]. unfold dlift, catch_value_error.
    destruct (vli_encode_cases fmt z) as [[bs ->]| ->]; cbn [dbind dwrite draise].
    + destruct (match mx with Some _ => _ | None => _ end).
      * right. exists (EValueSize (c_name c)). cbn. repeat split; auto. discriminate.
      * left. cbn. eauto.
    + right. exists (EUnserializable (c_name c)). cbn. repeat split; auto. discriminate.
Qed.

Lemma set_field_malformed fld e : malformed e -> malformed (set_field fld e).
Proof.
  intros [H|[x ->]]; [|right; exists x; reflexivity]. left. destruct e; try discriminate; reflexivity.
Qed.

Lemma set_field_cases fld e : set_field fld e = e \/ malformed (set_field fld e).
Proof. destruct e; auto; right; left; reflexivity. Qed.

Section Errors.
Variable A : exn -> Prop.
Variable E : env.
Hypothesis Hschema : robust_schema A E.

Definition reported (e : exn) : Prop := malformed e \/ A e.

Lemma reported_set fld e : reported e -> reported (set_field fld e).
Proof.
  intros [H|H]; [left; apply set_field_malformed; auto|].
  destruct (set_field_cases fld e) as [->|Hm]; [right|left]; auto.
Qed.

(** Exceptions of [from_stream], given those of [_do_load]. *)
Lemma field_raise n ints nm f ctx d s s' e : robust A ints nm f -> have_ints ints d ->
  oget d nm = None ->
  (forall s s' e, do_load E n f ctx d s = (s', Raise e) -> reported e) ->
  field_from_stream E n f ctx d s = (s', Raise e) -> reported e.
Proof.
  intros Hf Hd Hn Hdl H. unfold field_from_stream, field_from_stream_with in H.
  assert (Hcall : callables_raise A (conf f)) by (destruct Hf; auto).
  destruct Hcall as [Hval Hpres].
  apply from_stream_raise in H.
  destruct H as [H|[(Ha & H & Hu)|[(Hdf & e' & H)|[(v & H)|[(e' & H & ->)|[(s1 & v & H & Ha & He)|[(s1 & v & w & H & Hw & Hc & He)|(Hc & ->)]]]]]]].
  - right. eauto.
  - destruct Hf as [c k _ Hnm Hs Hnk _ _| ? ? ? _ Hnull| ? ? _ Hnull|? ? ? ? _ Hnull];
      cbn [conf] in *; try (unfold allow_null in Ha; rewrite Hnull in Ha; discriminate).
    destruct (leaf_null_repr E n ints c k d Hs Hnk Ha Hd) as [[nb Hx]|(e' & Hx & Hux & _)]; congruence.
  - destruct Hf as [c k _ Hnm Hs Hnk _ _| ? ? ? _ Hnull| ? ? _ Hnull|? ? ? ? _ Hnull];
      cbn [conf] in *; try congruence.
    assert (Ha : allow_null c = true) by (unfold allow_null; rewrite Hdf; auto).
    destruct (leaf_null_repr E n ints c k d Hs Hnk Ha Hd) as [[nb Hx]|(e2 & Hx & Hux & Hnd)]; congruence.
  - right. apply run_validators_raise in H. destruct H as (check & Hi & H). eauto.
  - apply reported_set. eauto.
  - destruct Hf as [c k _ Hnm Hs Hnk _ _| ? ? ? _ Hnull| ? ? _ Hnull|? ? ? ? _ Hnull];
      cbn [conf] in *; try (unfold allow_null in Ha; rewrite Hnull in Ha; discriminate).
    exfalso. refine (proj2 (py_eq_scalar E 0 v (c_null c) _ _) n e He).
    + rewrite do_load_leaf in H by (destruct Hs; auto). eapply leaf_load_scalar; eauto.
    + destruct Hnk as [? Hx|? ? Hx|? [Hx|Hx] _|? ? ? Hx|? ? ? Hx]; rewrite Hx; exact I.
  - destruct Hf as [c k _ Hnm Hs Hnk Hcs _| ? ? ? _ _ Hcu| ? ? _ _ Hcu|? ? ? ? _ _ Hcu];
      cbn [conf] in *; try congruence.
    exfalso. refine (proj2 (py_eq_scalar E 0 w (c_const c) _ _) n e He).
    + destruct Hw as [-> | ->]; [|exact I]. rewrite do_load_leaf in H by (destruct Hs; auto).
      eapply leaf_load_scalar; eauto.
    + exact Hcs.
  - left. right. eauto.
Qed.

Lemma have_ints_app ints d x : have_ints ints d -> have_ints ints (d ++ x).
Proof.
  intros H name Hi. destruct (H _ Hi) as [z Hz]. exists z. rewrite dget_app, Hz. reflexivity.
Qed.

Lemma integer_loads n ints nm f ctx d s s' v : robust A ints nm f -> integer_field f ->
  field_from_stream E n f ctx d s = (s', Ok v) -> exists z, v = VInt z.
Proof.
  intros Hr (Hk & Hn & Hp) H. unfold field_from_stream, field_from_stream_with, from_stream_with in H.
  destruct (run_dict d (c_present (conf f) ctx (Some s))) as [[|]|e|] eqn:Hpr; try discriminate.
  - unfold allow_null in H. rewrite Hn in H. cbn [is_undefined negb] in H.
    unfold lbind, llift, lret in H.
    destruct (do_load E n f ctx d s) as [s1 [w|e|]] eqn:Hd; try discriminate.
    assert (Hw : exists z, w = VInt z).
    { destruct f as [c k]. cbn [kind] in Hk. rewrite do_load_leaf in Hd by (destruct k; auto).
      eapply int_leaf_value; eauto. }
    destruct (if negb (is_undefined (c_const (conf f))) then _ else _) as [[]|e|]; try discriminate.
    destruct (run_validators (c_validators (conf f)) w); try discriminate.
    injection H as _ <-. exact Hw.
  - destruct Hp as [Hp|[z Hz]]; [rewrite Hp in Hpr; discriminate|].
    injection H as _ <-. eauto.
Qed.

Lemma fields_raise n ctx (Hdl : forall ints nm f d s s' e, robust A ints nm f -> have_ints ints d ->
    oget d nm = None -> do_load E n f ctx d s = (s', Raise e) -> reported e) fs ints :
  robust_fields A ints fs -> forall d s s' e, have_ints ints d -> NoDup (map fst fs) ->
  (forall name, In name (map fst fs) -> dget d name = None) ->
  load_fields E (do_load E n) n fs ctx d s = (s', Raise e) -> reported e.
Proof.
  intros Hfs. induction Hfs as [ints|ints name f fs Hf Hint Hfs IH|ints name f fs Hf Hfs IH];
    intros d s s' e Hd Hnd Hnone; cbn [load_fields]; unfold lbind; [discriminate|..].
  all: change (field_from_stream_with E (do_load E n) n f ctx d s) with (field_from_stream E n f ctx d s).
  all: assert (Hown : dget d name = None) by (apply Hnone; left; auto).
  all: destruct (field_from_stream E n f ctx d s) as [s1 [v|e'|]] eqn:Hl; intros H; try discriminate.
  - apply IH in H; auto.
    + unfold dmem. rewrite Hown. intros x [<-|Hx].
      * destruct (integer_loads _ _ _ _ _ _ _ _ _ Hf Hint Hl) as [z ->].
        exists z. rewrite dget_app, Hown. cbn. rewrite String.eqb_refl. auto.
      * apply (have_ints_app ints d [(name, v)]); auto.
    + inversion Hnd; auto.
    + intros x Hx. unfold dmem. rewrite Hown, dget_app, Hnone by (right; auto).
      cbn. destruct (String.eqb_spec name x) as [->|]; auto.
      inversion Hnd; contradiction.
  - injection H as _ <-. eapply field_raise; eauto. 
  - apply IH in H; auto.
    + unfold dmem. rewrite Hown. apply have_ints_app; auto.
    + inversion Hnd; auto.
    + intros x Hx. unfold dmem. rewrite Hown, dget_app, Hnone by (right; auto).
      cbn. destruct (String.eqb_spec name x) as [->|]; auto.
      inversion Hnd; contradiction.
  - injection H as _ <-. eapply field_raise; eauto.
Qed.

Lemma methods_raise n cid vals methods v e :
  run_method_validators E n cid vals methods v = Raise e ->
  exists q, In q methods /\ run_struct E n cid vals (q v) = Raise e.
Proof.
  induction methods as [|q qs IH]; cbn [run_method_validators]; [discriminate|].
  destruct (run_struct E n cid vals (q v)) as [[]|e'|] eqn:Hq; cbn [bind]; intros H; try discriminate.
  - destruct (IH H) as (q' & Hi & Hr). exists q'. split; [right|]; auto.
  - injection H as <-. exists q. split; [left|]; auto.
Qed.

Lemma structs_raise n cid vals qs e : run_struct_validators E n cid vals qs = Raise e ->
  exists q, In q qs /\ run_struct E n cid vals q = Raise e.
Proof.
  induction qs as [|q qs IH]; cbn [run_struct_validators]; [discriminate|].
  destruct (run_struct E n cid vals q) as [[]|e'|] eqn:Hq; cbn [bind]; intros H; try discriminate.
  - destruct (IH H) as (q' & Hi & Hr). exists q'. split; [right|]; auto.
  - injection H as <-. exists q. split; [left|]; auto.
Qed.

Lemma robust_callables ints fs : robust_fields A ints fs -> forall name f, In (name, f) fs ->
  callables_raise A (conf f).
Proof.
  induction 1 as [| ints nm f fs Hf _ _ IH| ints nm f fs Hf _ IH]; intros name g Hi; [destruct Hi|..];
    (destruct Hi as [[= <- <-]|Hi]; [destruct Hf; auto|eauto]).
Qed.

Lemma validate_raise n cid vals e :
  (forall name, In name (map fst (k_comps (cls E cid))) -> exists v, dget vals name = Some v) ->
  validate_contents E n cid vals = Raise e -> A e.
Proof.
  intros Hall. destruct (Hschema cid) as ((Hnd & Hnm & Hin) & Hfs & Hm & Hs).
  unfold validate_contents.
  assert (Hv : forall fvs, incl fvs (k_fvals (cls E cid)) ->
            validate_fields E n cid vals fvs = Raise e -> A e).
  { induction fvs as [|[nm methods] fvs IH]; intros Hi; cbn [validate_fields]; [discriminate|].
    assert (Hnc : In nm (map fst (k_comps (cls E cid)))).
    { apply Hin, in_map_iff. exists (nm, methods). split; auto. apply Hi. left. auto. }
    destruct (assoc (comps E cid) nm) as [f|] eqn:Hass.
    2:{ apply assoc_none in Hass. contradiction. }
    assert (Hinf : In (nm, f) (k_comps (cls E cid))) by (apply assoc_in; auto).
    pose proof (proj1 (Forall_forall _ _) Hnm _ Hinf) as Hname. cbn in Hname.
    destruct (Hall nm Hnc) as [v Hg].
    assert (Hget : struct_get E n cid vals nm = Ok v).
    { destruct n; cbn [struct_get]; rewrite Hass; unfold name_of; rewrite Hname; cbn [oget]; rewrite Hg; auto. }
    rewrite Hget. cbn [bind].
    destruct (run_validators (c_validators (conf f)) v) as [[]|e'|] eqn:Hrv; cbn [bind]; intros H; try discriminate.
    - destruct (run_method_validators E n cid vals methods v) as [[]|e'|] eqn:Hrm; cbn [bind] in H; try discriminate.
      + apply IH; auto. intros x Hx. apply Hi. right. auto.
      + injection H as <-. apply methods_raise in Hrm. destruct Hrm as (q & Hq & Hr).
        eapply Hm; eauto. apply Hi. left. auto.
    - injection H as <-. apply run_validators_raise in Hrv. destruct Hrv as (check & Hc & Hr).
      destruct (robust_callables _ _ Hfs _ _ Hinf) as [Hx _]. eauto. }
  destruct (validate_fields E n cid vals (k_fvals (cls E cid))) as [[]|e'|] eqn:Hvf; cbn [bind]; intros H; try discriminate.
  - apply structs_raise in H. destruct H as (q & Hq & Hr). eauto.
  - injection H as <-. apply (Hv (k_fvals (cls E cid))); auto. apply incl_refl.
Qed.

Lemma struct_raise n cid ctx (Hdl : forall ints nm f d s s' e, robust A ints nm f -> have_ints ints d ->
    oget d nm = None -> do_load E n f ctx d s = (s', Raise e) -> reported e) s s' e :
  struct_from_stream E n cid ctx [] s = (s', Raise e) -> reported e.
Proof.
  destruct (Hschema cid) as ((Hnd & Hnm & Hin) & Hfs & Hm & Hs).
  unfold struct_from_stream, struct_from_stream_with, lbind, llift, lret.
  destruct (load_fields E (do_load E n) n (comps E cid) ctx [] s) as [s1 [d|e'|]] eqn:Hl; intros H; try discriminate.
  - apply load_fields_iff in Hl. destruct (loads_keys _ _ _ _ _ _ _ _ Hl) as (new & _ & _ & Hk & _).
    assert (Hinit : struct_init E cid d = Ok d).
    { apply init_ok_iff. split; auto. intros x Hx. apply Hk in Hx. destruct Hx as [[]|Hx]; auto. }
    rewrite Hinit in H.
    destruct (validate_contents E n cid d) as [[]|e'|] eqn:Hv; try discriminate.
    injection H as _ <-. right. apply (validate_raise n cid d e'); auto.
    intros name Hname. destruct (dget d name) as [v|] eqn:Hg; eauto.
    apply dget_none in Hg. destruct Hg. apply Hk. auto.
  - injection H as _ <-. refine (fields_raise n ctx Hdl (k_comps (cls E cid)) [] Hfs [] s s1 e' _ Hnd _ Hl); [intros name []|auto].
Qed.

Lemma array_raise load1 halt fuel : (forall s s' e, load1 s = (s', Raise e) -> reported e) ->
  (forall s values e, halt s values = Raise e -> reported e) ->
  forall values s s' e, array_load fuel halt load1 values s = (s', Raise e) -> reported e.
Proof.
  intros Hl Hh. induction fuel as [|fuel IH]; intros values s s' e H; [discriminate|].
  cbn [array_load] in H. destruct (halt s values) as [[[|] vs]|e'|] eqn:He; try discriminate.
  - destruct (load1 s) as [s1 [v|e'|]] eqn:Hl1; try discriminate; eauto.
    injection H as _ <-. eauto.
  - injection H as _ <-. eauto.
Qed.

Lemma load_raise n : forall ints nm f ctx d s s' e, robust A ints nm f -> have_ints ints d ->
  oget d nm = None -> do_load E n f ctx d s = (s', Raise e) -> reported e.
Proof.
  induction n as [|n IH]; intros ints nm f ctx d s s' e Hf Hd Hn H.
  - destruct Hf as [c k Hcall Hnm Hs Hnk Hcs Hesc| | |]; try discriminate.
    rewrite do_load_leaf in H by (destruct Hs; auto).
    eapply leaf_load_raise in H; eauto. destruct H; [left|right]; auto.
  - destruct Hf as [c k Hcall Hnm Hs Hnk Hcs Hesc|c comp cnt Hcall Hnull Hcu Hcnt Hcomp
      |c cid Hcall Hnull Hcu|c choices ld dd Hcall Hnull Hcu Hld Hlt Hch].
    + rewrite do_load_leaf in H by (destruct Hs; auto).
      eapply leaf_load_raise in H; eauto. destruct H; [left|right]; auto.
    + cbn [do_load kind] in H. eapply array_raise in H; eauto.
      * intros s0 s1 e0 H0. eapply (field_raise n); eauto.
      * intros s0 values e0. unfold array_halt, should_halt.
        destruct Hcnt as [->|Hcnt]; [discriminate|].
        destruct (known_count_ok ints cnt d Hcnt Hd) as [m Hm].
        rewrite (counted_get _ _ _ Hm). destruct cnt; cbn [bind]; discriminate.
    + cbn [do_load kind] in H. unfold lbind, lret in H.
      change (struct_from_stream_with E (do_load E n) n cid ctx [] s)
        with (struct_from_stream E n cid ctx [] s) in H.
      destruct (struct_from_stream E n cid ctx [] s) as [s1 [vals|e'|]] eqn:Hst; try discriminate.
      injection H as _ <-. eapply struct_raise; eauto.
    + cbn [do_load kind] in H. destruct (ld s ctx d) as [i|e'|] eqn:Hl; try discriminate.
      * pose proof (Hlt _ _ _ _ Hl) as Hi. destruct (nth_error choices i) as [[g|cid]|] eqn:Hnth.
        -- eapply IH; eauto. apply Hch. eapply nth_error_In; eauto.
        -- unfold lbind, lret in H.
           change (struct_from_stream_with E (do_load E n) n cid ctx [] s)
             with (struct_from_stream E n cid ctx [] s) in H.
           destruct (struct_from_stream E n cid ctx [] s) as [s1 [vals|e'|]] eqn:Hst; try discriminate.
           injection H as _ <-. eapply struct_raise; eauto.
        -- apply nth_error_None in Hnth. lia.
      * injection H as _ <-. right. eauto.
Qed.

Lemma struct_load_reported n cid ctx s s' e :
  struct_from_stream E n cid ctx [] s = (s', Raise e) -> malformed e \/ A e.
Proof. apply struct_raise. intros. eapply load_raise; eauto. Qed.

End Errors.
