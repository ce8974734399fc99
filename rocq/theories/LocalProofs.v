(** A load depends on nothing but the bytes it consumes. *)
From Verif Require Import Tac PyIntProofs StreamProofs VarintsProofs VarintsMore LeafProofs LeafMore.
From Verif Require Import FieldProofs FieldMore StructProofs ForwardProofs FuelProofs ArrayProofs LoadProofs.
From Verif Require Export SpecLocal.

Lemma bytes_ok_app a b : bytes_ok (a ++ b) <-> bytes_ok a /\ bytes_ok b.
Proof. apply Forall_app. Qed.

Lemma sd_ret {A} (a : A) : self_delimiting (lret a).
Proof.
  intros s s1 x _ [= <- <-]. exists [], (rest s). rewrite advance_0. split; [|split]; auto.
  intros s' suf' _. cbn [length]. rewrite advance_0. reflexivity.
Qed.

Lemma sd_lift {A} (r : res A) : self_delimiting (llift r).
Proof. destruct r as [a|e|]; [apply sd_ret|intros ? ? ? ? H; discriminate|intros ? ? ? ? H; discriminate]. Qed.

Lemma sd_raise {A} e : self_delimiting (@lraise A e).
Proof. intros ? ? ? ? H; discriminate. Qed.

Lemma sd_bind {A B} (m : loader A) (k : A -> loader B) : self_delimiting m ->
  (forall s s1 a, bytes_ok (rest s) -> m s = (s1, Ok a) -> self_delimiting (k a)) ->
  self_delimiting (lbind m k).
Proof.
  intros Hm Hk s s2 b Hb H. unfold lbind in H.
  destruct (m s) as [s1 [a|e|]] eqn:Hs; try discriminate.
  destruct (Hm _ _ _ Hb Hs) as (bs1 & suf1 & Hr1 & -> & H1).
  assert (Hr : rest (advance s (length bs1)) = suf1) by (apply rest_advance_app; auto).
  assert (Hb1 : bytes_ok suf1) by (rewrite Hr1 in Hb; apply bytes_ok_app in Hb; tauto).
  destruct (Hk _ _ _ Hb Hs _ _ _ ltac:(rewrite Hr; auto) H) as (bs2 & suf2 & Hr2 & -> & H2).
  exists (bs1 ++ bs2), suf2. rewrite Hr in Hr2. rewrite Hr1, Hr2, <- app_assoc.
  rewrite advance_advance, app_length. split; [auto|split; auto].
  intros s' suf' Hr'. unfold lbind. rewrite <- app_assoc in Hr'. rewrite (H1 _ _ Hr').
  rewrite (H2 _ suf'), advance_advance; auto. apply rest_advance_app; auto.
Qed.

Lemma sd_ext {A} (l l' : loader A) : (forall s, l s = l' s) -> self_delimiting l -> self_delimiting l'.
Proof.
  intros He H s s1 a Hb Hl. rewrite <- He in Hl. destruct (H _ _ _ Hb Hl) as (bs & suf & H1 & H2 & H3).
  exists bs, suf. split; [|split]; auto. intros s' suf' Hr. rewrite <- He. eauto.
Qed.

(** ** Reading *)
Lemma read_full s n data s1 : 0 <= n -> read s n = (data, s1) -> (zlen data <? n) = false ->
  zlen data = n /\ exists suf, rest s = data ++ suf /\ s1 = advance s (length data).
Proof.
  intros Hn Hr Hl. pose proof (read_length _ _ _ _ Hr Hn). apply read_spec in Hr. split; [lia|auto].
Qed.

Lemma read_int_sd n sg e : 0 <= n -> self_delimiting (read_int n sg e).
Proof.
  intros Hn s s1 z _ H. unfold read_int in H. destruct (read s n) as [data s2] eqn:Hr.
  destruct (zlen data <? n) eqn:Hl; try discriminate. injection H as <- <-.
  destruct (read_full _ _ _ _ Hn Hr Hl) as (Hz & suf & Hs & ->).
  exists data, suf. split; [|split]; auto. intros s' suf' Hr'. rewrite <- Hz. eapply read_int_ok; eauto.
Qed.

Lemma read_exact_sd c g : (forall n, g = Ok n -> 0 <= n) -> self_delimiting (read_exact_size c g).
Proof.
  intros Hg s s1 z _ H. unfold read_exact_size in H. destruct g as [n|e|]; try discriminate.
  destruct (read s n) as [data s2] eqn:Hr.
  destruct (zlen data <? n) eqn:Hl; try discriminate. injection H as <- <-.
  destruct (read_full _ _ _ _ (Hg _ eq_refl) Hr Hl) as (Hz & suf & Hs & ->).
  exists data, suf. split; [|split]; auto. intros s' suf' Hr'. unfold read_exact_size. rewrite <- Hz.
  rewrite (read_app _ _ _ Hr'). replace (zlen data <? zlen data) with false by lia. auto.
Qed.

Lemma rest_one s b suf : rest s = b :: suf -> rest (advance s 1) = suf.
Proof. exact (rest_advance_app s [b] suf). Qed.

(** ** Variable-length integers *)
Lemma read_uint8_ok s s1 z : read_uint8 s = (s1, Ok z) -> exists b suf, rest s = b :: suf
  /\ s1 = advance s 1 /\ forall s' suf', rest s' = b :: suf' -> read_uint8 s' = (advance s' 1, Ok z).
Proof.
  intros H. unfold read_uint8 in H.
  unfold read_int in H. destruct (read s 1) as [data s2] eqn:Hr.
  destruct (zlen data <? 1) eqn:Hl; try discriminate. injection H as <- <-.
  destruct (read_full s 1 data s2 ltac:(lia) Hr Hl) as (Hz & suf & Hs & ->).
  destruct data as [|b [|]]; unfold zlen in Hz; cbn [length] in Hz; try lia.
  exists b, suf. split; [|split]; auto. intros s' suf' Hr'.
  apply (read_int_ok s' [b] suf'); auto.
Qed.

Lemma uleb_sd fuel : forall v b s s1 z, decode_uleb_loop fuel v b s = (s1, Ok z) ->
  exists bs suf, rest s = bs ++ suf /\ s1 = advance s (length bs)
    /\ forall fuel' s' suf', rest s' = bs ++ suf' -> (length bs <= fuel')%nat ->
       decode_uleb_loop fuel' v b s' = (advance s' (length bs), Ok z).
Proof.
  induction fuel as [|fuel IH]; intros v b s s1 z; cbn [decode_uleb_loop]; [discriminate|].
  unfold lbind at 1, lret at 1. destruct (read_uint8 s) as [s2 [x|y|]] eqn:Hr; try discriminate.
  destruct (read_uint8_ok _ _ _ Hr) as (b1 & suf & Hs & -> & H1). destruct (Z.land x 128 =? 0) eqn:Hx.
  - intros [= <- <-]. exists [b1], suf. split; [|split]; auto.
    intros [|fuel'] s' suf' Hr' Hl; [cbn in Hl; lia|]. cbn [decode_uleb_loop]. unfold lbind, lret.
    rewrite (H1 _ _ Hr'), Hx. reflexivity.
  - intros H. apply IH in H. destruct H as (bs & suf2 & Hs2 & -> & H2).
    exists (b1 :: bs), suf2. rewrite (rest_one s b1 suf Hs) in Hs2.
    rewrite Hs, Hs2. split; [|split]; auto; [rewrite advance_advance; auto|].
    intros [|fuel'] s' suf' Hr' Hl; [cbn in Hl; lia|]. cbn [decode_uleb_loop]. unfold lbind at 1.
    rewrite (H1 _ _ Hr'), Hx. cbn [length] in *.
    rewrite (H2 fuel' _ suf'), advance_advance; auto; [|lia].
    exact (rest_one s' b1 (bs ++ suf') Hr').
Qed.

Lemma vlq_sd fuel : forall v s s1 z, decode_vlq_loop fuel v s = (s1, Ok z) ->
  exists bs suf, rest s = bs ++ suf /\ s1 = advance s (length bs)
    /\ forall fuel' s' suf', rest s' = bs ++ suf' -> (length bs <= fuel')%nat ->
       decode_vlq_loop fuel' v s' = (advance s' (length bs), Ok z).
Proof.
  induction fuel as [|fuel IH]; intros v s s1 z; cbn [decode_vlq_loop]; [discriminate|].
  unfold lbind at 1, lret at 1. destruct (read_uint8 s) as [s2 [x|y|]] eqn:Hr; try discriminate.
  destruct (read_uint8_ok _ _ _ Hr) as (b1 & suf & Hs & -> & H1). destruct (Z.land x 128 =? 0) eqn:Hx.
  - intros [= <- <-]. exists [b1], suf. split; [|split]; auto.
    intros [|fuel'] s' suf' Hr' Hl; [cbn in Hl; lia|]. cbn [decode_vlq_loop]. unfold lbind, lret.
    rewrite (H1 _ _ Hr'), Hx. reflexivity.
  - intros H. apply IH in H. destruct H as (bs & suf2 & Hs2 & -> & H2).
    exists (b1 :: bs), suf2. rewrite (rest_one s b1 suf Hs) in Hs2.
    rewrite Hs, Hs2. split; [|split]; auto; [rewrite advance_advance; auto|].
    intros [|fuel'] s' suf' Hr' Hl; [cbn in Hl; lia|]. cbn [decode_vlq_loop]. unfold lbind at 1.
    rewrite (H1 _ _ Hr'), Hx. cbn [length] in *.
    rewrite (H2 fuel' _ suf'), advance_advance; auto; [|lia].
    exact (rest_one s' b1 (bs ++ suf') Hr').
Qed.

Lemma compact_sd fuel : forall sg v s s1 z, decode_compact_loop fuel sg v s = (s1, Ok z) ->
  exists bs suf, rest s = bs ++ suf /\ s1 = advance s (length bs)
    /\ forall fuel' s' suf', rest s' = bs ++ suf' -> (length bs <= fuel')%nat ->
       decode_compact_loop fuel' sg v s' = (advance s' (length bs), Ok z).
Proof.
  induction fuel as [|fuel IH]; intros sg v s s1 z; cbn [decode_compact_loop]; [discriminate|].
  unfold lbind at 1, lret at 1. destruct (read_uint8 s) as [s2 [x|y|]] eqn:Hr; try discriminate.
  destruct (read_uint8_ok _ _ _ Hr) as (b1 & suf & Hs & -> & H1).
  destruct (match sg with None => _ | Some _ => _ end) as [v' sg'] eqn:Hsv.
  destruct (Z.land x 128 =? 0) eqn:Hx.
  - intros [= <- <-]. exists [b1], suf. split; [|split]; auto.
    intros [|fuel'] s' suf' Hr' Hl; [cbn in Hl; lia|]. cbn [decode_compact_loop]. unfold lbind, lret.
    rewrite (H1 _ _ Hr'), Hsv, Hx. reflexivity.
  - intros H. apply IH in H. destruct H as (bs & suf2 & Hs2 & -> & H2).
    exists (b1 :: bs), suf2. rewrite (rest_one s b1 suf Hs) in Hs2.
    rewrite Hs, Hs2. split; [|split]; auto; [rewrite advance_advance; auto|].
    intros [|fuel'] s' suf' Hr' Hl; [cbn in Hl; lia|]. cbn [decode_compact_loop]. unfold lbind at 1.
    rewrite (H1 _ _ Hr'), Hsv, Hx. cbn [length] in *.
    rewrite (H2 fuel' _ suf'), advance_advance; auto; [|lia].
    exact (rest_one s' b1 (bs ++ suf') Hr').
Qed.

Lemma vli_sd fmt : self_delimiting (vli_decode fmt).
Proof.
  intros s s1 z _ H. destruct fmt; cbn [vli_decode] in *.
  - apply compact_sd in H. destruct H as (bs & suf & Hr & -> & H). exists bs, suf.
    split; [|split]; auto. intros s' suf' Hr'. unfold decode_integer_compact.
    eapply H; eauto. rewrite Hr', app_length. lia.
  - unfold decode_integer_leb128 in H. destruct (decode_integer_uleb128 s) as [s2 [v|e|]] eqn:Hu; try discriminate.
    apply uleb_sd in Hu. destruct Hu as (bs & suf & Hr & -> & Hu). exists bs, suf. split; auto.
    assert (Hx : s1 = advance s (length bs)).
    { destruct (v =? 0); [congruence|]. destruct (_ <? _); congruence. }
    split; auto. intros s' suf' Hr'. unfold decode_integer_leb128, decode_integer_uleb128.
    rewrite (Hu _ _ _ Hr') by (rewrite Hr', app_length; lia).
    rewrite tell_advance in *.
    replace (tell s' + Z.of_nat (length bs) - tell s') with (tell s + Z.of_nat (length bs) - tell s) by lia.
    destruct (v =? 0); [congruence|]. destruct (_ <? _); congruence.
  - apply uleb_sd in H. destruct H as (bs & suf & Hr & -> & H). exists bs, suf.
    split; [|split]; auto. intros s' suf' Hr'. unfold decode_integer_uleb128.
    eapply H; eauto. rewrite Hr', app_length. lia.
  - apply vlq_sd in H. destruct H as (bs & suf & Hr & -> & H). exists bs, suf.
    split; [|split]; auto. intros s' suf' Hr'. unfold decode_integer_vlq.
    eapply H; eauto. rewrite Hr', app_length. lia.
Qed.

(** ** Null-terminated text *)
Lemma iter_next_ok mx nr s b s1 : iter_next mx nr s = Some (b, s1) -> exists suf, rest s = b :: suf
  /\ s1 = advance s 1
  /\ forall s' suf', rest s' = b :: suf' -> iter_next mx nr s' = Some (b, advance s' 1).
Proof.
  unfold iter_next. destruct (match mx with None => true | Some m => nr <? m end); [|discriminate].
  destruct (read s 1) as [data s2] eqn:Hr. pose proof (read_length _ _ _ _ Hr ltac:(lia)) as Hl.
  apply read_spec in Hr. destruct Hr as (suf & Hr & ->).
  destruct data as [|x [|? ?]]; [discriminate|..]; unfold zlen in Hl; cbn [length] in Hl; [|lia].
  intros [= <- <-]. exists suf. split; [|split]; auto. intros s' suf' Hr'.
  rewrite (read_app s' [x] suf' Hr' : read s' 1 = _). reflexivity.
Qed.

Lemma stringz_sd fuel : forall nm cd mx nr buf acc s s1 v,
  stringz_loop fuel nm cd mx nr buf acc s = (s1, Ok v) ->
  exists bs suf, rest s = bs ++ suf /\ s1 = advance s (length bs)
    /\ forall fuel' s' suf', rest s' = bs ++ suf' -> (length bs <= fuel')%nat ->
       stringz_loop fuel' nm cd mx nr buf acc s' = (advance s' (length bs), Ok v).
Proof.
  induction fuel as [|fuel IH]; intros nm cd mx nr buf acc s s1 v; cbn [stringz_loop]; [discriminate|].
  destruct (iter_next mx nr s) as [[b s2]|] eqn:Hi; [|destruct (forgiven cd buf); discriminate].
  destruct (iter_next_ok _ _ _ _ _ Hi) as (suf & Hs & -> & H1).
  assert (Hmore : forall cd' nr' buf' acc',
    (forall fuel' s' suf', rest s' = b :: suf' ->
      stringz_loop (S fuel') nm cd mx nr buf acc s' = stringz_loop fuel' nm cd' mx nr' buf' acc' (advance s' 1)) ->
    stringz_loop fuel nm cd' mx nr' buf' acc' (advance s 1) = (s1, Ok v) ->
    exists bs suf, rest s = bs ++ suf /\ s1 = advance s (length bs)
      /\ forall fuel' s' suf', rest s' = bs ++ suf' -> (length bs <= fuel')%nat ->
       stringz_loop fuel' nm cd mx nr buf acc s' = (advance s' (length bs), Ok v)).
  { intros cd' nr' buf' acc' Hstep H. apply IH in H. destruct H as (bs & suf2 & Hs2 & -> & H2).
    exists (b :: bs), suf2. rewrite (rest_one s b suf Hs) in Hs2.
    rewrite Hs, Hs2. split; [|split]; auto; [rewrite advance_advance; auto|].
    intros [|fuel'] s' suf' Hr' Hl; [cbn in Hl; lia|]. rewrite (Hstep _ _ _ Hr').
    cbn [length] in *. rewrite (H2 fuel' _ suf'), advance_advance; auto; [|lia].
    exact (rest_one s' b (bs ++ suf') Hr'). }
  destruct (dec_step cd (buf ++ [b])) as [cp| | |cd'|] eqn:Hd; try discriminate.
  3: apply Hmore; intros fuel' s' suf' Hr'; cbn [stringz_loop]; rewrite (H1 _ _ Hr'), Hd; reflexivity.
  - destruct (cp =? 0) eqn:Hcp.
    + intros [= <- <-]. exists [b], suf. split; [|split]; auto.
      intros [|fuel'] s' suf' Hr' Hl; [cbn in Hl; lia|]. cbn [stringz_loop].
      rewrite (H1 _ _ Hr'), Hd, Hcp. reflexivity.
    + apply Hmore. intros fuel' s' suf' Hr'. cbn [stringz_loop]. rewrite (H1 _ _ Hr'), Hd, Hcp. reflexivity.
  - apply Hmore. intros fuel' s' suf' Hr'. cbn [stringz_loop]. rewrite (H1 _ _ Hr'), Hd. reflexivity.
Qed.

(** ** Leaves *)
Definition have_nats (nats : list string) (d : dict) : Prop :=
  forall name, In name nats -> exists z, dget d name = Some (VInt z) /\ 0 <= z.

Lemma natural_size_ok nats c k d dd : natural_size nats c -> have_nats nats d ->
  exists n, get_expected_size_with dd c k d = Ok n /\ 0 <= n.
Proof.
  intros [[n [Hn Hp]]|(name & Hn & Hi)] Hd; unfold get_expected_size_with; rewrite Hn; eauto.
  destruct (Hd _ Hi) as (z & -> & Hz). eauto.
Qed.

Lemma natural_size_empty nats c k dd n : natural_size nats c ->
  get_expected_size_with dd c k [] = Ok n -> c_size c = SInt n /\ 0 <= n.
Proof.
  intros [[m [Hm Hp]]|(name & Hm & Hi)]; unfold get_expected_size_with; rewrite Hm.
  - intros [= <-]. auto.
  - discriminate.
Qed.

(** Fixed-size leaves consume exactly their size. *)
Definition exactly {A} (m : nat) (l : loader A) : Prop := forall s s1 a,
  l s = (s1, Ok a) -> exists bs suf, rest s = bs ++ suf /\ length bs = m /\ s1 = advance s m
    /\ forall s' suf', rest s' = bs ++ suf' -> l s' = (advance s' m, Ok a).

Lemma exactly_sd {A} m (l : loader A) : exactly m l -> self_delimiting l.
Proof.
  intros H s s1 a _ Hl. destruct (H _ _ _ Hl) as (bs & suf & Hr & <- & Hs & H').
  exists bs, suf. auto.
Qed.

Lemma exactly_bind {A B} m (l : loader A) (k : A -> res B) : exactly m l ->
  exactly m (lbind l (fun a => llift (k a))).
Proof.
  intros H s s1 b Hl. unfold lbind, llift in Hl. destruct (l s) as [s2 [a|e|]] eqn:Hs; try discriminate.
  destruct (k a) as [x|e|] eqn:Hk; try discriminate. injection Hl as <- <-.
  destruct (H _ _ _ Hs) as (bs & suf & Hr & Hlen & -> & H'). exists bs, suf.
  repeat (split; auto). intros s' suf' Hr'. unfold lbind, llift. rewrite (H' _ _ Hr'), Hk. auto.
Qed.

Lemma exactly_ext {A} m (l l' : loader A) : (forall s, l s = l' s) -> exactly m l -> exactly m l'.
Proof.
  intros He H s s1 a Hl. rewrite <- He in Hl. destruct (H _ _ _ Hl) as (bs & suf & H1 & H2 & H3 & H4).
  exists bs, suf. repeat (split; auto). intros s' suf' Hr. rewrite <- He. eauto.
Qed.

Lemma exactly_none {A} m (l : loader A) : (forall s s1 a, l s <> (s1, Ok a)) -> exactly m l.
Proof. intros H s s1 a Hl. destruct (H _ _ _ Hl). Qed.

Lemma exactly_int n sg e : 0 <= n -> exactly (Z.to_nat n) (read_int n sg e).
Proof.
  intros Hn s s1 z H. unfold read_int in H. destruct (read s n) as [data s2] eqn:Hr.
  destruct (zlen data <? n) eqn:Hl; try discriminate. injection H as <- <-.
  destruct (read_full _ _ _ _ Hn Hr Hl) as (Hz & suf & Hs & ->).
  assert (Hlen : length data = Z.to_nat n) by (unfold zlen in Hz; lia).
  exists data, suf. rewrite <- Hlen. repeat (split; auto). intros s' suf' Hr'. rewrite <- Hz.
  eapply read_int_ok; eauto.
Qed.

Lemma exactly_exact c n : 0 <= n -> exactly (Z.to_nat n) (read_exact_size c (Ok n)).
Proof.
  intros Hn s s1 z H. unfold read_exact_size in H.
  destruct (read s n) as [data s2] eqn:Hr.
  destruct (zlen data <? n) eqn:Hl; try discriminate. injection H as <- <-.
  destruct (read_full _ _ _ _ Hn Hr Hl) as (Hz & suf & Hs & ->).
  assert (Hlen : length data = Z.to_nat n) by (unfold zlen in Hz; lia).
  exists data, suf. rewrite <- Hlen. repeat (split; auto). intros s' suf' Hr'.
  unfold read_exact_size. rewrite <- Hz.
  rewrite (read_app _ _ _ Hr'). replace (zlen data <? zlen data) with false by lia. auto.
Qed.

Lemma exactly_uuid c fmt g g0 n : c_size c = SInt n -> 0 <= n ->
  exactly (Z.to_nat n) (leaf_load c (KUuid fmt) g g0).
Proof.
  intros Hc Hn s s1 v H. cbn [leaf_load] in *. rewrite Hc in *.
  destruct (read s n) as [raw s2] eqn:Hr. destruct (zlen raw <? n) eqn:Hl; [discriminate|].
  destruct (read_full _ _ _ _ Hn Hr Hl) as (Hz & suf & Hs & ->).
  assert (Hlen : length raw = Z.to_nat n) by (unfold zlen in Hz; lia).
  exists raw, suf. rewrite <- Hlen. split; auto. split; auto. 
  destruct (match fmt with BINARY_VARIANT_1 | BINARY_VARIANT_2 => _ | _ => _ end) eqn:Hbad; [discriminate|].
  destruct (uuid_parse fmt raw) as [u|e|] eqn:Hu; try discriminate.
  injection H as <- <-. split; auto. intros s' suf' Hr'. rewrite <- Hz. rewrite (read_app _ _ _ Hr').
  replace (zlen raw <? zlen raw) with false by lia. rewrite Hbad, Hu. reflexivity.
Qed.

Lemma leaf_exactly nats c k d dd dd0 : exact_kind k -> natural_size nats c -> have_nats nats d ->
  exists n, get_expected_size_with dd c k d = Ok n /\ 0 <= n
    /\ exactly (Z.to_nat n) (leaf_load c k (get_expected_size_with dd c k d)
                               (get_expected_size_with dd0 c k [])).
Proof.
  intros Hk Hs Hd. destruct (natural_size_ok nats c k d dd Hs Hd) as (n & Hg & Hn).
  exists n. split; auto. split; auto.
  assert (Hint : forall m, c_size c = SInt m -> n = m).
  { intros m Hm. unfold get_expected_size_with in Hg. rewrite Hm in Hg. congruence. }
  destruct k as [sg e|fmt mx|fmt e|r tz sg e| |cd pad|cd pad|fmt|comp cnt halt|cid|choices ld dmp];
    try contradiction; cbn [leaf_load].
  - destruct (c_size c) as [|m|]; try (apply exactly_none; intros ? ? ?; discriminate).
    rewrite (Hint m) by auto.
    apply (exactly_ext _ (ldo z <- read_int m sg e; llift (Ok (VInt z)))); [reflexivity|].
    apply exactly_bind, exactly_int. rewrite <- (Hint m); auto.
  - destruct (get_expected_size_with dd0 c (KFloat fmt e) []) as [m|x|] eqn:Hg0;
      [|apply exactly_none; intros ? ? ?; discriminate..].
    destruct (natural_size_empty _ _ _ _ _ Hs Hg0) as [Hm Hpos]. rewrite (Hint m Hm).
    apply (exactly_ext _ (ldo data <- read_exact_size c (Ok m);
      llift (if zlen data =? ff_bytes fmt then Ok (VFloat (unpack_float fmt e data))
             else Raise (EDeserialization (c_name c))))).
    + intros s. unfold lbind. destruct (read_exact_size c (Ok m) s) as [s1 [b|x|]]; auto.
      destruct (zlen b =? ff_bytes fmt); reflexivity.
    + apply exactly_bind, exactly_exact. auto.
  - rewrite Hg. apply (exactly_ext _ (ldo z <- read_int n sg e;
      llift (do us <- time_of_int r tz z; Ok (VTime us tz)))).
    + intros s. unfold lbind, llift, lret. destruct (read_int n sg e s) as [s1 [z|x|]]; auto.
      destruct (time_of_int r tz z); reflexivity.
    + apply exactly_bind, exactly_int. auto.
  - rewrite Hg. apply (exactly_ext _ (ldo b <- read_exact_size c (Ok n); llift (Ok (VBytes b)))); [reflexivity|].
    apply exactly_bind, exactly_exact. auto.
  - rewrite Hg. apply (exactly_ext _ (ldo b <- read_exact_size c (Ok n);
      llift (do t <- decode cd b; Ok (VStr t)))).
    + intros s. unfold lbind, llift, lret. destruct (read_exact_size c (Ok n) s) as [s1 [b|x|]]; auto.
      destruct (decode cd b); reflexivity.
    + apply exactly_bind, exactly_exact. auto.
  - destruct (c_size c) as [|m|] eqn:Hc; try (apply exactly_none; intros ? ? ?; discriminate).
    rewrite (Hint m) by auto.
    pose proof (exactly_uuid c fmt (Ok n) (Ok n) m Hc ltac:(rewrite <- (Hint m); auto)) as H.
    cbn [leaf_load] in H. rewrite Hc in H. exact H.
Qed.

Lemma leaf_sd nats c k d dd dd0 : delimited_leaf nats c k -> have_nats nats d ->
  self_delimiting (leaf_load c k (get_expected_size_with dd c k d) (get_expected_size_with dd0 c k [])).
Proof.
  intros Hk Hd.
  assert (Hex : exact_kind k /\ natural_size nats c -> self_delimiting
    (leaf_load c k (get_expected_size_with dd c k d) (get_expected_size_with dd0 c k []))).
  { intros [He Hs]. destruct (leaf_exactly nats c k d dd dd0 He Hs Hd) as (n & _ & _ & H).
    eapply exactly_sd; eauto. }
  destruct k; cbn [delimited_leaf] in Hk; try (apply Hex; exact Hk).
  - cbn [leaf_load]. apply sd_bind; [apply vli_sd|]. intros. apply sd_ret.
  - cbn [leaf_load]. intros s s1 v _ H.
    destruct (match get_expected_size_with dd c _ d with Ok _ => _ | Raise _ => _ | OOF => _ end)
      as [mx|e|]; try discriminate.
    apply stringz_sd in H. destruct H as (bs & suf & Hr & -> & H). exists bs, suf. split; auto. split; auto.
    intros s' suf' Hr'. eapply H; eauto. rewrite Hr', app_length. lia.
Qed.

(** ** [from_stream] *)
Definition after {A B} (l : loader A) (post : A -> res B) (l' : loader B) : Prop :=
  forall s s1 b, l' s = (s1, Ok b) <-> exists a, l s = (s1, Ok a) /\ post a = Ok b.

Lemma after_sd {A B} (l : loader A) (post : A -> res B) l' : after l post l' ->
  self_delimiting l -> self_delimiting l'.
Proof.
  intros Ha H s s1 b Hb Hl. apply Ha in Hl. destruct Hl as (a & Hl & Hp).
  destruct (H _ _ _ Hb Hl) as (bs & suf & Hr & Hs & H'). exists bs, suf. repeat (split; auto).
  intros s' suf' Hr'. apply Ha. eauto.
Qed.

Lemma after_exactly {A B} m (l : loader A) (post : A -> res B) l' : after l post l' ->
  exactly m l -> exactly m l'.
Proof.
  intros Ha H s s1 b Hl. apply Ha in Hl. destruct Hl as (a & Hl & Hp).
  destruct (H _ _ _ Hl) as (bs & suf & Hr & Hlen & Hs & H'). exists bs, suf. repeat (split; auto).
  intros s' suf' Hr'. apply Ha. eauto.
Qed.

Lemma bytes_eqb_iff a b : bytes_eqb a b = true <-> a = b.
Proof.
  split; [|intros ->; apply bytes_eqb_refl].
  revert b. induction a as [|x a IH]; intros [|y b]; cbn; try discriminate; auto.
  intros H. apply andb_true_iff in H. destruct H as [H1 H2]. f_equal; [lia|auto].
Qed.

Lemma from_stream_sd nr dl eqv c ctx d : blind c -> self_delimiting dl ->
  (allow_null c = true -> forall nb, nr = Ok nb -> exists m, (length nb <= m)%nat /\ exactly m dl) ->
  self_delimiting (from_stream_with nr dl eqv c ctx d).
Proof.
  intros Hblind Hdl Hnull. unfold from_stream_with.
  set (lv := lbind _ _).
  assert (Hlv : after dl (fun v =>
    do v <- (if allow_null c then do b <- eqv v (c_null c); Ok (if b then VNone else v) else Ok v);
    do _ <- (if negb (is_undefined (c_const c)) then
               do b <- eqv v (c_const c); if b then Ok tt else Raise (EValidation (c_name c))
             else Ok tt);
    do _ <- run_validators (c_validators c) v; Ok v) lv).
  { intros s s1 w. subst lv. unfold lbind, llift, lret.
    destruct (dl s) as [s2 [v|e|]].
    - destruct (if allow_null c then _ else _) as [v'|e|] eqn:Hv; cbn [bind].
      + destruct (if negb (is_undefined (c_const c)) then _ else _) as [[]|e|] eqn:Hc; cbn [bind].
        * destruct (run_validators (c_validators c) v') as [[]|e|] eqn:Hr; cbn [bind].
          -- split; [intros [= <- <-]; exists v; rewrite Hv; cbn [bind]; rewrite Hc; cbn [bind]; rewrite Hr; auto|].
             intros (a & [= <- <-] & H). rewrite Hv in H. cbn [bind] in H. rewrite Hc in H. cbn [bind] in H.
             rewrite Hr in H. cbn [bind] in H. congruence.
          -- split; [discriminate|]. intros (a & [= <- <-] & H). rewrite Hv in H. cbn [bind] in H.
             rewrite Hc in H. cbn [bind] in H. rewrite Hr in H. discriminate.
          -- split; [discriminate|]. intros (a & [= <- <-] & H). rewrite Hv in H. cbn [bind] in H.
             rewrite Hc in H. cbn [bind] in H. rewrite Hr in H. discriminate.
        * split; [discriminate|]. intros (a & [= <- <-] & H). rewrite Hv in H. cbn [bind] in H.
          rewrite Hc in H. discriminate.
        * split; [discriminate|]. intros (a & [= <- <-] & H). rewrite Hv in H. cbn [bind] in H.
          rewrite Hc in H. discriminate.
      + split; [discriminate|]. intros (a & [= <- <-] & H). rewrite Hv in H. discriminate.
      + split; [discriminate|]. intros (a & [= <- <-] & H). rewrite Hv in H. discriminate.
    - split; [discriminate|]. intros (a & Ha & _). discriminate.
    - split; [discriminate|]. intros (a & Ha & _). discriminate. }
  assert (Hsd : self_delimiting lv) by (eapply after_sd; eauto).
  intros s s1 w Hb H.
  destruct (run_dict d (c_present c ctx (Some s))) as [[|]|e|] eqn:Hp; try discriminate.
  - destruct (allow_null c) eqn:Ha.
    + destruct nr as [nb|e|] eqn:Hnr; try discriminate.
      * destruct (Hnull eq_refl nb eq_refl) as (m & Hm & Hex).
        assert (Hexl : exactly m lv) by (eapply after_exactly; eauto).
        unfold peek_bytes in H. destruct (read s (zlen nb)) as [data sx] eqn:Hrd. cbn [negb andb] in H.
        destruct (bytes_eqb data nb) eqn:Hbe.
        -- apply bytes_eqb_iff in Hbe. subst data.
           destruct (run_validators (c_validators c) VNone) as [[]|e|] eqn:Hv; try discriminate.
           injection H as <- <-. apply read_spec in Hrd. destruct Hrd as (suf & Hr & ->).
           exists nb, suf. repeat (split; auto). intros s' suf' Hr'.
           rewrite (Hblind ctx s' s d), Hp. unfold peek_bytes. rewrite (read_app _ _ _ Hr'). cbn [negb andb].
           rewrite bytes_eqb_refl. try rewrite Hv. reflexivity.
        -- destruct (Hexl _ _ _ H) as (bs & suf & Hr & Hlen & -> & H').
           exists bs, suf. rewrite Hlen. repeat (split; auto). intros s' suf' Hr'.
           rewrite (Hblind ctx s' s d), Hp. unfold peek_bytes.
           assert (Hsame : fst (read s' (zlen nb)) = data).
           { rewrite read_enough by (rewrite Hr'; unfold zlen; rewrite app_length; lia).
             rewrite read_enough in Hrd by (rewrite Hr; unfold zlen; rewrite app_length; lia).
             injection Hrd as <- _. cbn [fst]. rewrite Hr, Hr'. unfold zlen. rewrite Nat2Z.id, !firstn_app.
             replace (length nb - length bs)%nat with 0%nat by lia. reflexivity. }
           destruct (read s' (zlen nb)) as [data' sx']. cbn [fst] in Hsame. subst data'. cbn [negb andb].
           rewrite Hbe. eauto.
      * destruct (is_UnserializableValueError e) eqn:Hu; [|discriminate].
        destruct (is_default (c_null c)) eqn:Hdf; [discriminate|].
        destruct (Hsd _ _ _ Hb H) as (bs & suf & Hr & Hs & H'). exists bs, suf. repeat (split; auto).
        intros s' suf' Hr'. rewrite (Hblind ctx s' s d), Hp. eauto.
    + destruct (Hsd _ _ _ Hb H) as (bs & suf & Hr & Hs & H'). exists bs, suf. repeat (split; auto).
      intros s' suf' Hr'. rewrite (Hblind ctx s' s d), Hp. eauto.
  - injection H as <- <-. exists [], (rest s). rewrite advance_0. repeat (split; auto).
    intros s' suf' _. rewrite (Hblind ctx s' s d), Hp. cbn [length]. rewrite advance_0. auto.
Qed.

Section Local.
Variable E : env.
Hypothesis Hschema : delimited_schema E.

Lemma field_sd n nats f ctx d : delimited nats f -> have_nats nats d ->
  self_delimiting (do_load E n f ctx d) -> self_delimiting (field_from_stream E n f ctx d).
Proof.
  intros Hf Hd Hdl. unfold field_from_stream, field_from_stream_with.
  apply from_stream_sd; auto; [destruct Hf; auto|].
  destruct Hf as [c k _ Hk Hnull| ? ? ? _ Hnull| ? ? _ Hnull|? ? ? ? _ Hnull]; cbn [conf];
    intros Ha nb Hnb; try (unfold allow_null in Ha; rewrite Hnull in Ha; discriminate).
  assert (Hkind : exact_kind k -> exists m, ges (do_dump E n) (Field c k) d = Ok m /\ 0 <= m
    /\ exactly (Z.to_nat m) (do_load E n (Field c k) ctx d)).
  { intros He. assert (Hs : natural_size nats c) by (destruct k; try contradiction; apply Hk).
    rewrite do_load_leaf by (destruct k; try contradiction; auto).
    apply (leaf_exactly nats); auto. }
  unfold null_repr, null_repr_with in Hnb. cbn [conf] in Hnb.
  destruct Hnull as [k Hn|k bs m Hn Hsz Hle He|k Hn He|sg e z Hn].
  - unfold allow_null in Ha. rewrite Hn in Ha. discriminate.
  - rewrite Hn in Hnb. injection Hnb as <-. destruct (Hkind He) as (m' & Hg & Hm & Hx).
    unfold ges, get_expected_size_with in Hg. cbn [conf] in Hg. rewrite Hsz in Hg. injection Hg as <-.
    exists (Z.to_nat m). split; auto. unfold zlen in Hle. lia.
  - destruct (Hkind He) as (m & Hg & Hm & Hx). exists (Z.to_nat m). split; auto.
    rewrite Hg in Hnb. destruct Hn as [Hn|Hn]; rewrite Hn in Hnb; injection Hnb as <-; rewrite repeat_length; auto.
  - rewrite Hn in Hnb. destruct (Hkind I) as (m & Hg & Hm & Hx). exists (Z.to_nat m). split; auto.
    rewrite do_dump_leaf in Hnb by auto. cbn [leaf_dump] in Hnb.
    unfold ges, get_expected_size_with in Hg. cbn [conf] in Hg.
    destruct (c_size c) as [|q|] eqn:Hsz; try discriminate. injection Hg as ->.
    destruct (catch_value_error (c_name c) (write_int z m sg e)) as [out [[]|x|]] eqn:Hw; try discriminate.
    injection Hnb as <-. unfold write_int, dlift in Hw.
    destruct (py_to_bytes z m e sg) as [bs|x|] eqn:Hp; cbn [dbind dwrite catch_value_error] in Hw.
    + rewrite app_nil_l in Hw. injection Hw as <-. destruct (py_to_bytes_ok _ _ _ _ _ Hp) as (_ & _ & Hl & _). unfold zlen in Hl. lia.
    + destruct (is_ValueError_or_OverflowError x); discriminate.
    + discriminate.
Qed.

Lemma read_uint8_nonneg_land x : 0 <= Z.land x 127.
Proof. apply Z.land_nonneg. right. lia. Qed.

Lemma uleb_nonneg fuel : forall v b s s1 z, 0 <= v -> decode_uleb_loop fuel v b s = (s1, Ok z) -> 0 <= z.
Proof.
  induction fuel as [|fuel IH]; intros v b s s1 z Hv; cbn [decode_uleb_loop]; [discriminate|].
  unfold lbind at 1, lret at 1. destruct (read_uint8 s) as [s2 [x|y|]] eqn:Hr; try discriminate.
  assert (Hn : 0 <= Z.lor v (Z.shiftl (Z.land x 127) b)).
  { apply Z.lor_nonneg. split; auto. apply Z.shiftl_nonneg, read_uint8_nonneg_land. }
  destruct (Z.land x 128 =? 0); [intros [= _ <-]; auto|]. intros H. eapply IH; [|exact H]. auto.
Qed.

Lemma vlq_nonneg fuel : forall v s s1 z, 0 <= v -> decode_vlq_loop fuel v s = (s1, Ok z) -> 0 <= z.
Proof.
  induction fuel as [|fuel IH]; intros v s s1 z Hv; cbn [decode_vlq_loop]; [discriminate|].
  unfold lbind at 1, lret at 1. destruct (read_uint8 s) as [s2 [x|y|]] eqn:Hr; try discriminate.
  assert (Hn : 0 <= Z.lor (Z.shiftl v 7) (Z.land x 127)).
  { apply Z.lor_nonneg. split; [apply Z.shiftl_nonneg; auto|apply read_uint8_nonneg_land]. }
  destruct (Z.land x 128 =? 0); [intros [= _ <-]; auto|]. intros H. eapply IH; [|exact H]. auto.
Qed.

Lemma natural_loads n f ctx d s s' v : natural_field f -> bytes_ok (rest s) ->
  field_from_stream E n f ctx d s = (s', Ok v) -> exists z, v = VInt z /\ 0 <= z.
Proof.
  intros (Hk & Hn & Hp) Hb H. unfold field_from_stream, field_from_stream_with, from_stream_with in H.
  destruct (run_dict d (c_present (conf f) ctx (Some s))) as [[|]|e|] eqn:Hpr; try discriminate.
  - unfold allow_null in H. rewrite Hn in H. cbn [is_undefined negb] in H.
    unfold lbind, llift, lret in H.
    destruct (do_load E n f ctx d s) as [s1 [w|e|]] eqn:Hd; try discriminate.
    assert (Hw : exists z, w = VInt z /\ 0 <= z).
    { destruct f as [c k]. cbn [kind] in Hk. rewrite do_load_leaf in Hd by (destruct k; auto).
      destruct k as [[] e|[] mx| | | | | | | | |]; try contradiction; cbn [leaf_load] in Hd; unfold lbind, lret, lraise in Hd.
      - destruct (c_size c); try discriminate.
        destruct (read_int n0 false e s) as [s2 [z|?|]] eqn:Hr; try discriminate.
        injection Hd as _ <-. exists z. split; auto. unfold read_int in Hr.
        destruct (read s n0) as [data s3] eqn:Hrd. destruct (zlen data <? n0); try discriminate.
        injection Hr as _ <-. apply read_spec in Hrd. destruct Hrd as (suf & Hs & _).
        rewrite Hs in Hb. apply bytes_ok_app in Hb. destruct Hb as [Hb _].
        pose proof (py_from_bytes_fits data e false Hb) as Hf. unfold fits in Hf. lia.
      - destruct (vli_decode ULEB128 s) as [s2 [z|?|]] eqn:Hr; try discriminate. injection Hd as _ <-.
        exists z. split; auto. eapply uleb_nonneg; [|exact Hr]. lia.
      - destruct (vli_decode VLQ s) as [s2 [z|?|]] eqn:Hr; try discriminate. injection Hd as _ <-.
        exists z. split; auto. eapply vlq_nonneg; [|exact Hr]. lia. }
    destruct (if negb (is_undefined (c_const (conf f))) then _ else _) as [[]|e|]; try discriminate.
    destruct (run_validators (c_validators (conf f)) w); try discriminate.
    injection H as _ <-. exact Hw.
  - destruct Hp as [Hp|[z Hz]]; [rewrite Hp in Hpr; discriminate|].
    injection H as _ <-. exists z. tauto.
Qed.

Lemma have_nats_app nats d x : have_nats nats d -> have_nats nats (d ++ x).
Proof.
  intros H name Hi. destruct (H _ Hi) as (z & Hz & Hp). exists z. rewrite dget_app, Hz. auto.
Qed.

Lemma fields_sd n ctx (Hdl : forall nats f d, delimited nats f -> have_nats nats d ->
    self_delimiting (do_load E n f ctx d)) fs nats :
  delimited_fields nats fs -> forall d, have_nats nats d -> NoDup (map fst fs) ->
  (forall name, In name (map fst fs) -> dget d name = None) ->
  self_delimiting (load_fields E (do_load E n) n fs ctx d).
Proof.
  intros Hfs. induction Hfs as [nats|nats name f fs Hf Hnat Hfs IH|nats name f fs Hf Hfs IH];
    intros d Hd Hnd Hnone; cbn [load_fields]; [apply sd_ret|..].
  all: change (field_from_stream_with E (do_load E n) n f ctx d) with (field_from_stream E n f ctx d).
  all: assert (Hown : dget d name = None) by (apply Hnone; left; auto).
  all: apply sd_bind; [eapply field_sd; eauto|]; intros s s1 v Hb Hl; apply IH.
  - unfold dmem. rewrite Hown. intros x [<-|Hx].
    + destruct (natural_loads _ _ _ _ _ _ _ Hnat Hb Hl) as (z & -> & Hz).
      exists z. rewrite dget_app, Hown. cbn. rewrite String.eqb_refl. auto.
    + apply (have_nats_app nats d [(name, v)]); auto.
  - inversion Hnd; auto.
  - intros x Hx. unfold dmem. rewrite Hown, dget_app, Hnone by (right; auto).
    cbn. destruct (String.eqb_spec name x) as [->|]; auto.
    inversion Hnd; contradiction.
  - unfold dmem. rewrite Hown. apply have_nats_app; auto.
  - inversion Hnd; auto.
  - intros x Hx. unfold dmem. rewrite Hown, dget_app, Hnone by (right; auto).
    cbn. destruct (String.eqb_spec name x) as [->|]; auto.
    inversion Hnd; contradiction.
Qed.

Lemma struct_sd n cid ctx (Hdl : forall nats f d, delimited nats f -> have_nats nats d ->
    self_delimiting (do_load E n f ctx d)) : self_delimiting (struct_from_stream E n cid ctx []).
Proof.
  destruct (Hschema cid) as [Hnd Hfs].
  unfold struct_from_stream, struct_from_stream_with.
  apply sd_bind; [apply (fields_sd n ctx Hdl _ _ Hfs); auto; intros name []|].
  intros _ _ d _ _. apply sd_bind; [apply sd_lift|].
  intros _ _ vals _ _. apply sd_bind; [apply sd_lift|]. intros. apply sd_ret.
Qed.

Lemma array_sd load1 halt : self_delimiting load1 ->
  (forall s s' values, halt s values = halt s' values) ->
  forall fuel values, self_delimiting (array_load fuel halt load1 values).
Proof.
  intros Hl Hh. induction fuel as [|fuel IH]; intros values.
  - intros s s1 a _ H. discriminate.
  - apply (sd_ext (ldo hv <- llift (halt (mkStream [] 0) values);
             match hv with
             | (true, vs) => lret (VList vs)
             | (false, vs) => ldo v <- load1;
                 array_load fuel halt load1 (if is_not_present v then vs else vs ++ [v])
             end)).
    + intros s. unfold lbind at 1, llift. rewrite (Hh (mkStream [] 0) s values). cbn [array_load].
      destruct (halt s values) as [[[|] vs]|e|]; reflexivity.
    + apply sd_bind; [apply sd_lift|]. intros _ _ [[|] vs] _ _; [apply sd_ret|].
      apply sd_bind; auto.
Qed.

Lemma load_sd n : forall nats f ctx d, delimited nats f -> have_nats nats d ->
  self_delimiting (do_load E n f ctx d).
Proof.
  induction n as [|n IH]; intros nats f ctx d Hf Hd.
  - destruct Hf as [c k Hbl Hk Hnull| | |]; try (intros ? ? ? ? Hx; discriminate).
    rewrite do_load_leaf by (destruct k; auto; destruct Hk; contradiction).
    apply (leaf_sd nats); auto.
  - destruct Hf as [c k Hbl Hk Hnull|c comp cnt Hbl Hnull Hcnt Hcomp|c cid Hbl Hnull
      |c choices ld dd Hbl Hnull Hld Hch].
    + rewrite do_load_leaf by (destruct k; auto; destruct Hk; contradiction).
      apply (leaf_sd nats); auto.
    + cbn [do_load kind]. apply array_sd.
      * eapply (field_sd n); eauto.
      * intros s s' values. unfold array_halt, should_halt. destruct cnt; try contradiction; reflexivity.
    + cbn [do_load kind]. apply sd_bind; [|intros; apply sd_ret].
      apply (struct_sd n cid ctx). intros; eapply IH; eauto.
    + cbn [do_load kind].
      assert (Hst : forall cid, self_delimiting (ldo vals <- struct_from_stream E n cid ctx []; lret (VStruct cid vals))).
      { intros cid. apply sd_bind; [|intros; apply sd_ret]. apply struct_sd. intros; eapply IH; eauto. }
      apply (sd_ext (ldo i <- llift (ld (mkStream [] 0) ctx d);
               match nth_error choices i with
               | Some (CField g) => do_load E n g ctx d
               | Some (CStruct cid) => ldo vals <- struct_from_stream E n cid ctx []; lret (VStruct cid vals)
               | None => lraise ETypeErr
               end)).
      * intros s. unfold lbind at 1, llift. rewrite (Hld (mkStream [] 0) s ctx d).
        destruct (ld s ctx d) as [i|e|]; auto. destruct (nth_error choices i) as [[g|cid]|]; reflexivity.
      * apply sd_bind; [apply sd_lift|]. intros _ _ i _ _.
        destruct (nth_error choices i) as [[g|cid]|] eqn:Hi; [|apply Hst|apply sd_raise].
        eapply IH; eauto. apply Hch. eapply nth_error_In; eauto.
Qed.

Lemma struct_load_sd n cid ctx : self_delimiting (struct_from_stream E n cid ctx []).
Proof. apply struct_sd. intros; eapply load_sd; eauto. Qed.

End Local.
