(** Loads never change the data and only move forward (C43). *)
From Verif Require Import Tac PyIntProofs StreamProofs VarintsProofs VarintsMore.
From Verif Require Export FieldMore.

Lemma forward_refl s : forward s s.
Proof. unfold forward. repeat split; lia. Qed.

Lemma forward_trans s1 s2 s3 : forward s1 s2 -> forward s2 s3 -> forward s1 s3.
Proof.
  unfold forward. intros (D1 & L1 & U1) (D2 & L2 & U2). rewrite D2, D1 in *.
  repeat split; lia.
Qed.

Lemma forward_advance s n : (n <= length (rest s))%nat -> forward s (advance s n).
Proof.
  unfold forward, advance, rest. cbn [s_data s_pos]. rewrite skipn_length.
  intros H. repeat split; lia.
Qed.

Definition fwd {A} (m : loader A) : Prop := forall s s' r, m s = (s', r) -> forward s s'.

Lemma fwd_ret {A} (a : A) : fwd (lret a).
Proof. intros s s' r [= <- _]. apply forward_refl. Qed.
Lemma fwd_lift {A} (a : res A) : fwd (llift a).
Proof. intros s s' r [= <- _]. apply forward_refl. Qed.
Lemma fwd_raise {A} e : fwd (@lraise A e).
Proof. intros s s' r [= <- _]. apply forward_refl. Qed.
Lemma fwd_stay {A} (f : stream -> res A) : fwd (fun s => (s, f s)).
Proof. intros s s' r [= <- _]. apply forward_refl. Qed.

Lemma fwd_bind {A B} (m : loader A) (k : A -> loader B) :
  fwd m -> (forall a, fwd (k a)) -> fwd (lbind m k).
Proof.
  intros Hm Hk s s' r H. unfold lbind in H. destruct (m s) as [s1 [a|e|]] eqn:Hs.
  - eapply forward_trans; [eapply Hm; eauto|]. eapply Hk; eauto.
  - injection H as <- _. eapply Hm; eauto.
  - injection H as <- _. eapply Hm; eauto.
Qed.

Lemma forward_read s n data s' : read s n = (data, s') -> forward s s'.
Proof.
  intros H. apply read_spec in H. destruct H as (suf & Hr & ->).
  apply forward_advance. rewrite Hr, app_length. lia.
Qed.

Lemma fwd_read_int n sg e : fwd (read_int n sg e).
Proof.
  intros s s' r H. unfold read_int in H. destruct (read s n) as [data s1] eqn:Hr.
  apply forward_read in Hr. destruct (zlen data <? n); injection H as <- _; auto.
Qed.

Lemma fwd_read_exact c g : fwd (read_exact_size c g).
Proof.
  intros s s' r H. unfold read_exact_size in H. destruct g as [n|e|].
  - destruct (read s n) as [data s1] eqn:Hr. apply forward_read in Hr.
    destruct (zlen data <? n); injection H as <- _; auto.
  - injection H as <- _. apply forward_refl.
  - injection H as <- _. apply forward_refl.
Qed.

Lemma forward_iter max n s b s1 : iter_next max n s = Some (b, s1) -> forward s s1.
Proof.
  unfold iter_next. destruct (match max with None => true | Some m => n <? m end); [|discriminate].
  destruct (read s 1) as [[|x l] s2] eqn:Hr; [discriminate|]. intros [= _ <-].
  eapply forward_read; eauto.
Qed.

Lemma fwd_stringz fuel : forall name cd max n buf acc, fwd (stringz_loop fuel name cd max n buf acc).
Proof.
  induction fuel as [|fuel IH]; intros name cd max n buf acc s s' r H; cbn [stringz_loop] in H.
  - injection H as <- _. apply forward_refl.
  - destruct (iter_next max n s) as [[b s1]|] eqn:Hi.
    + apply forward_iter in Hi.
      destruct (dec_step cd (buf ++ [b])) as [cp| | |cd'|].
      * destruct (cp =? 0); [injection H as <- _; auto|]. eapply forward_trans; eauto. eapply IH; eauto.
      * eapply forward_trans; eauto. eapply IH; eauto.
      * injection H as <- _; auto.
      * eapply forward_trans; eauto. eapply IH; eauto.
      * injection H as <- _; auto.
    + injection H as <- _. apply forward_refl.
Qed.

Lemma fwd_uleb fuel : forall v b, fwd (decode_uleb_loop fuel v b).
Proof.
  induction fuel as [|fuel IH]; intros v b; cbn [decode_uleb_loop]; [apply fwd_stay|].
  apply fwd_bind; [apply fwd_read_int|]. intros a. cbv zeta.
  destruct (Z.land a 128 =? 0); [apply fwd_ret|apply IH].
Qed.

Lemma fwd_vli fmt : fwd (vli_decode fmt).
Proof.
  destruct fmt; cbn [vli_decode]; intros s s' r H.
  - unfold decode_integer_compact in H. revert H.
    generalize (@None Z) at 1. generalize 0 at 1. generalize (S (length (rest s))). intros fuel.
    revert s. induction fuel as [|fuel IH]; intros s v sg H; cbn [decode_compact_loop] in H.
    + injection H as <- _. apply forward_refl.
    + unfold lbind in H. destruct (read_uint8 s) as [s1 [a|e|]] eqn:Hr;
        apply fwd_read_int in Hr.
      * destruct sg as [g|]; destruct (Z.land a 128 =? 0);
          try (injection H as <- _; exact Hr); (eapply forward_trans; [exact Hr|eapply IH; exact H]).
      * injection H as <- _; exact Hr.
      * injection H as <- _; exact Hr.
  - unfold decode_integer_leb128 in H.
    destruct (decode_integer_uleb128 s) as [s1 [a|e|]] eqn:Hr; apply fwd_uleb in Hr.
    + destruct (a =? 0); [injection H as <- _; exact Hr|].
      destruct (bit_length a <? (tell s1 - tell s) * 7); injection H as <- _; exact Hr.
    + injection H as <- _; exact Hr.
    + injection H as <- _; exact Hr.
  - eapply fwd_uleb; exact H.
  - unfold decode_integer_vlq in H. revert H.
    generalize 0 at 1. generalize (S (length (rest s))). intros fuel.
    revert s. induction fuel as [|fuel IH]; intros s v H; cbn [decode_vlq_loop] in H.
    + injection H as <- _. apply forward_refl.
    + unfold lbind in H. destruct (read_uint8 s) as [s1 [a|e|]] eqn:Hr;
        apply fwd_read_int in Hr.
      * cbv zeta in H. destruct (Z.land a 128 =? 0);
          [injection H as <- _; exact Hr|eapply forward_trans; [exact Hr|eapply IH; exact H]].
      * injection H as <- _; exact Hr.
      * injection H as <- _; exact Hr.
Qed.

Lemma fwd_leaf c k g g0 : fwd (leaf_load c k g g0).
Proof.
  destruct k; cbn [leaf_load]; try apply fwd_raise.
  - destruct (c_size c); try apply fwd_raise. apply fwd_bind; [apply fwd_read_int|]. intros; apply fwd_ret.
  - apply fwd_bind; [apply fwd_vli|]. intros; apply fwd_ret.
  - apply fwd_bind; [apply fwd_read_exact|]. intros a.
    destruct (zlen a =? ff_bytes fmt); [apply fwd_ret|apply fwd_raise].
  - apply fwd_bind; [apply fwd_lift|]. intros n. apply fwd_bind; [apply fwd_read_int|]. intros z.
    apply fwd_bind; [apply fwd_lift|]. intros; apply fwd_ret.
  - apply fwd_bind; [apply fwd_read_exact|]. intros; apply fwd_ret.
  - apply fwd_bind; [apply fwd_read_exact|]. intros.
    apply fwd_bind; [apply fwd_lift|]. intros; apply fwd_ret.
  - intros s s' r H.
    destruct (match g with Ok n => Ok (Some n)
              | Raise e => if is_UndefinedSizeError e then Ok None else Raise e | OOF => OOF end).
    + eapply fwd_stringz; exact H.
    + injection H as <- _. apply forward_refl.
    + injection H as <- _. apply forward_refl.
  - intros s s' r H. destruct (c_size c).
    + injection H as <- _. apply forward_refl.
    + destruct (read s n) as [raw s1] eqn:Hr. apply forward_read in Hr.
      destruct (zlen raw <? n); [injection H as <- _; auto|].
      destruct (match fmt with
                | BINARY_VARIANT_1 | BINARY_VARIANT_2 => negb (zlen raw =? 16) | _ => false end);
        [injection H as <- _; auto|].
      destruct (uuid_parse fmt raw); injection H as <- _; auto.
    + injection H as <- _. apply forward_refl.
Qed.

Lemma fwd_from_stream nr dl eqv c ctx d : fwd dl -> fwd (from_stream_with nr dl eqv c ctx d).
Proof.
  intros Hdl.
  set (lv := ldo v <- (fun s => match dl s with
                       | (s', Raise e) => (s', Raise (set_field (c_name c) e))
                       | x => x
                       end);
    ldo v <- llift (if allow_null c then
                      do b <- eqv v (c_null c); Ok (if b then VNone else v)
                    else Ok v);
    ldo _ <- llift (if negb (is_undefined (c_const c)) then
                      do b <- eqv v (c_const c);
                      if b then Ok tt else Raise (EValidation (c_name c))
                    else Ok tt);
    ldo _ <- llift (run_validators (c_validators c) v);
    lret v).
  assert (Hlv : fwd lv).
  { unfold lv. apply fwd_bind.
    - intros s s' r H. destruct (dl s) as [s1 [a|e|]] eqn:Hs; injection H as <- _; eapply Hdl; eauto.
    - intros v. apply fwd_bind; [apply fwd_lift|]. intros w. apply fwd_bind; [apply fwd_lift|].
      intros _. apply fwd_bind; [apply fwd_lift|]. intros _. apply fwd_ret. }
  intros s s' r H. unfold from_stream_with in H. cbv zeta in H. fold lv in H.
  clearbody lv.
  destruct (run_dict d (c_present c ctx (Some s))) as [[|]|e|];
    try (injection H as <- _; apply forward_refl).
  destruct (allow_null c); [|eapply Hlv; exact H].
  destruct nr as [nb|e|]; [| |injection H as <- _; apply forward_refl].
  - unfold peek_bytes in H. destruct (read s (zlen nb)) as [data s1] eqn:Hr. cbn [negb andb] in H.
    destruct (bytes_eqb data nb) eqn:Hb; [|eapply Hlv; exact H].
    apply bytes_eqb_eq in Hb. subst data. apply read_spec in Hr. destruct Hr as (suf & Hr & _).
    assert (forward s (advance s (length nb)))
      by (apply forward_advance; rewrite Hr, app_length; lia).
    destruct (run_validators (c_validators c) VNone); injection H as <- _; auto.
  - destruct (is_UnserializableValueError e); [|injection H as <- _; apply forward_refl].
    destruct (is_default (c_null c)); [injection H as <- _; apply forward_refl|eapply Hlv; exact H].
Qed.

Section Struct.
Variable E : env.

Lemma fwd_load_fields dl n ctx : (forall f d, fwd (dl f ctx d)) ->
  forall fs d, fwd (load_fields E dl n fs ctx d).
Proof.
  intros Hdl fs. induction fs as [|[nm f] fs IH]; intros d; cbn [load_fields]; [apply fwd_ret|].
  apply fwd_bind; [|auto]. apply fwd_from_stream. auto.
Qed.

Lemma fwd_struct dl n cid ctx kw : (forall f d, fwd (dl f ctx d)) ->
  fwd (struct_from_stream_with E dl n cid ctx kw).
Proof.
  intros Hdl. unfold struct_from_stream_with.
  apply fwd_bind; [apply fwd_load_fields; auto|]. intros res.
  apply fwd_bind; [apply fwd_lift|]. intros vals. apply fwd_bind; [apply fwd_lift|]. intros _.
  apply fwd_ret.
Qed.

Lemma fwd_array halt load1 : fwd load1 -> forall fuel values,
  fwd (array_load fuel halt load1 values).
Proof.
  intros Hl fuel. induction fuel as [|fuel IH]; intros values; cbn [array_load]; [apply fwd_stay|].
  intros s s' r H. destruct (halt s values) as [[[|] vs]|e|];
    try (injection H as <- _; apply forward_refl).
  destruct (load1 s) as [s1 [v|e|]] eqn:Hs; apply Hl in Hs.
  - eapply forward_trans; [exact Hs|eapply IH; exact H].
  - injection H as <- _; auto.
  - injection H as <- _; auto.
Qed.

Lemma fwd_do_load n : forall f ctx d, fwd (do_load E n f ctx d).
Proof.
  induction n as [|n IH]; intros [c k] ctx d.
  - destruct (leaf_kind k) eqn:Hk.
    + rewrite do_load_leaf by auto. apply fwd_leaf.
    + destruct k; try discriminate; apply fwd_stay.
  - destruct (leaf_kind k) eqn:Hk.
    + rewrite do_load_leaf by auto. apply fwd_leaf.
    + destruct k; try discriminate; cbn [do_load kind].
      * apply fwd_array. apply fwd_from_stream. apply IH.
      * apply fwd_bind; [apply fwd_struct; auto|]. intros; apply fwd_ret.
      * intros s s' r H. destruct (load_decider s ctx d) as [i|e|];
          try (injection H as <- _; apply forward_refl).
        destruct (nth_error choices i) as [[g|cid]|].
        -- eapply IH; exact H.
        -- eapply (fwd_bind _ _ (fwd_struct _ _ _ _ _ (fun f d => IH f ctx d)) (fun v => fwd_ret _)); exact H.
        -- injection H as <- _; apply forward_refl.
Qed.

Lemma field_load_forward n f ctx d : fwd (field_from_stream E n f ctx d).
Proof. apply fwd_from_stream. apply fwd_do_load. Qed.

Lemma struct_load_forward n cid ctx kw : fwd (struct_from_stream E n cid ctx kw).
Proof. apply fwd_struct. intros. apply fwd_do_load. Qed.

Lemma partial_load_fields_data n ctx : forall fs last d s s' r,
  partial_load_fields E n fs last ctx d s = (s', r) -> forward s s'.
Proof.
  induction fs as [|[nm f] fs IH]; intros last d s s' r H; cbn [partial_load_fields] in H.
  - injection H as <- _. apply forward_refl.
  - destruct (field_from_stream E n f ctx d s) as [s1 [v|e|]] eqn:Hf.
    + apply field_load_forward in Hf.
      destruct (match last with Some l => String.eqb (cname f) l | None => false end).
      * injection H as <- _; auto.
      * eapply forward_trans; [exact Hf|eapply IH; exact H].
    + apply field_load_forward in Hf.
      destruct (is_UnexpectedEOFError e); [|injection H as <- _; auto].
      destruct last; injection H as <- _; auto.
      destruct Hf as (Hd & Hp & Hm). rewrite Hd. destruct s; apply forward_refl.
    + apply field_load_forward in Hf. injection H as <- _; auto.
Qed.

Lemma partial_load_forward n cid last ctx : fwd (partial_load E n cid last ctx).
Proof.
  intros s s' r H. unfold partial_load in H.
  destruct (match last with Some l => _ | None => false end); [injection H as <- _; apply forward_refl|].
  unfold lbind in H. destruct (partial_load_fields E n (comps E cid) last ctx [] s) as [s1 [a|e|]] eqn:Hp;
    apply partial_load_fields_data in Hp; injection H as <- _; auto.
Qed.

(** C31 *)
Lemma get_field_restores n cid name ctx s : fst (get_field E n cid name ctx s) = s.
Proof.
  unfold get_field. destruct (assoc (comps E cid) name) as [f|]; [|reflexivity].
  assert (Hs : forall s', s_data s' = s_data s -> mkStream (s_data s') (s_pos s) = s)
    by (intros s' ->; destruct s; reflexivity).
  destruct (c_offset (conf f)) as [off|].
  - unfold seek. destruct (Z.of_nat (s_pos s) + off <? 0); [apply Hs; auto|].
    match goal with |- context [field_from_stream E n f ctx [] ?s0] =>
      destruct (field_from_stream E n f ctx [] s0) as [s1 r] eqn:Hf end.
    apply field_load_forward in Hf. destruct Hf as (Hd & _). cbn [fst s_data] in *. apply Hs; auto.
  - destruct (partial_load E n cid (Some name) ctx s) as [s1 r] eqn:Hp.
    apply partial_load_forward in Hp. destruct Hp as (Hd & _).
    destruct r; cbn [fst]; apply Hs; auto.
Qed.

End Struct.
