(** Loading from other streams (C94). *)
From Coq Require Import Lia.
From Verif Require Import SpecDevices StreamProofs.

(** ** Programs *)

Lemma run_bind {A B} lim sk (p : prog A) (k : A -> prog B) : forall s i,
  run lim sk (pbind p k) s i =
  match run lim sk p s i with
  | ((s', i'), Some (Ok a)) => run lim sk (k a) s' i'
  | (x, Some (Raise e)) => (x, Some (Raise e))
  | (x, Some OOF) => (x, Some OOF)
  | (x, None) => (x, None)
  end.
Proof.
  induction p as [r|n f IH|f IH|q p IH|n p IH]; intros s i; cbn [pbind run].
  - destruct r; auto.
  - destruct (device_read (lim i) s n) as [data s']. apply IH.
  - destruct sk; auto.
  - destruct sk; auto. destruct (seek s q) as [s' [u|e|]]; auto.
  - destruct sk; auto.
Qed.

Lemma run_field {A} lim sk name (p : prog A) : forall s i,
  run lim sk (pfield name p) s i =
  match run lim sk p s i with
  | (x, Some (Raise e)) => (x, Some (Raise (set_field name e)))
  | x => x
  end.
Proof.
  induction p as [r|n f IH|f IH|q p IH|n p IH]; intros s i; cbn [pfield run].
  - destruct r; auto.
  - destruct (device_read (lim i) s n) as [data s']. apply IH.
  - destruct sk; auto.
  - destruct sk; auto. unfold seek. destruct (q <? 0); auto.
  - destruct sk; auto.
Qed.

Lemma device_read_all s n : device_read None s n = read s n.
Proof. unfold device_read. destruct (read s n). auto. Qed.

Lemma read_data s n : s_data (snd (read s n)) = s_data s.
Proof. reflexivity. Qed.

(** ** Programs that do what the loaders do *)

Lemma same_done {A} (r : res A) s : same (PDone r) (llift r) s.
Proof. intros i. exists i. auto. Qed.

Lemma same_ret {A} (a : A) s : same (pret a) (lret a) s.
Proof. intros i. exists i. auto. Qed.

Lemma same_raise {A} (e : exn) s : same (@praise A e) (lraise e) s.
Proof. intros i. exists i. auto. Qed.

Lemma same_bind {A B} (p : prog A) l (k : A -> prog B) kl s : same p l s ->
  (forall a s', l s = (s', Ok a) -> s_data s' = s_data s -> same (k a) (kl a) s') ->
  same (pbind p k) (lbind l kl) s.
Proof.
  intros Hp Hk i. destruct (Hp i) as (i1 & E1 & E2). rewrite run_bind, E1. unfold lbind.
  destruct (l s) as [s' [a|e|]]; cbn [fst snd] in *; [|exists i1; auto|exists i1; auto].
  destruct (Hk a s' eq_refl E2 i1) as (i2 & E3 & E4). exists i2. rewrite E3, E4. auto.
Qed.

Lemma same_ext {A} (p : prog A) l l' s : l s = l' s -> same p l s -> same p l' s.
Proof. intros E H i. destruct (H i) as (i' & H'). exists i'. rewrite <- E. auto. Qed.

Lemma same_field {A} name (p : prog A) (l : loader A) s : same p l s ->
  same (pfield name p) (fun s => match l s with (s', Raise e) => (s', Raise (set_field name e)) | x => x end) s.
Proof.
  intros H i. destruct (H i) as (i' & E1 & E2). exists i'. rewrite run_field, E1.
  destruct (l s) as [s' [a|e|]]; cbn [fst snd] in *; auto.
Qed.

Lemma same_read_int n sg e s : same (p_read_int n sg e) (read_int n sg e) s.
Proof.
  intros i. exists (S i). cbn [p_read_int run]. unfold p_read_int, unlimited. cbn [run]. rewrite device_read_all.
  unfold read_int. pose proof (read_data s n) as Hd. destruct (read s n) as [data s']. cbn [snd] in Hd.
  destruct (zlen data <? n); cbn [run praise pret fst snd]; auto.
Qed.

Lemma same_read_exact c g s : same (p_read_exact_size c g) (read_exact_size c g) s.
Proof.
  intros i. unfold p_read_exact_size, read_exact_size. cbn [run].
  destruct g as [n|e|]; [|exists i; auto|exists i; auto].
  exists (S i). cbn [run]. unfold unlimited. rewrite device_read_all.
  pose proof (read_data s n) as Hd. destruct (read s n) as [data s']. cbn [snd] in Hd.
  destruct (zlen data <? n); cbn [run praise pret fst snd]; auto.
Qed.

Lemma seek_back s s' : s_data s' = s_data s -> seek s' (tell s) = (s, Ok tt).
Proof.
  intros H. unfold seek, tell. replace (Z.of_nat (s_pos s) <? 0) with false by (symmetry; apply Z.ltb_ge; lia).
  rewrite H, Nat2Z.id. destruct s; auto.
Qed.

Lemma same_peek n s : same (p_peek_bytes n) (peek_bytes n true) s.
Proof.
  intros i. exists (S i). unfold p_peek_bytes, peek_bytes. cbn [run]. unfold unlimited. rewrite device_read_all.
  pose proof (read_data s n) as Hd. destruct (read s n) as [data s']. cbn [snd] in Hd.
  rewrite (seek_back s s' Hd). cbn [negb andb run pret fst snd]. auto.
Qed.

(** ** Loops *)

Lemma uint8_shrinks s s' b : read_uint8 s = (s', Ok b) -> (S (length (rest s')) = length (rest s))%nat.
Proof.
  unfold read_uint8, read_int, read. change (1 <? 0) with false. cbn [andb].
  destruct (rest s) as [|x r] eqn:Er.
  - cbn. intros [= ]. 
  - set (k := Z.to_nat _). assert (Hk : k = 1%nat) by (unfold k; cbn [length]; lia). rewrite Hk. cbn [firstn].
    intros E. injection E as <- _. rewrite rest_advance, Er. auto.
Qed.

Lemma same_vlq : forall fuel m v s, (length (rest s) < fuel)%nat -> (length (rest s) < m)%nat ->
  same (p_vlq_loop m v) (decode_vlq_loop fuel v) s.
Proof.
  induction fuel as [|fuel IH]; intros [|m] v s H1 H2; [lia|lia|lia|]. cbn [p_vlq_loop decode_vlq_loop].
  apply same_bind; [apply same_read_int|]. intros b s' E _. apply uint8_shrinks in E.
  destruct (Z.land b 128 =? 0); [apply same_ret|apply IH; lia].
Qed.

Lemma same_uleb : forall fuel m v bits s, (length (rest s) < fuel)%nat -> (length (rest s) < m)%nat ->
  same (p_uleb_loop m v bits) (decode_uleb_loop fuel v bits) s.
Proof.
  induction fuel as [|fuel IH]; intros [|m] v bits s H1 H2; [lia|lia|lia|]. cbn [p_uleb_loop decode_uleb_loop].
  apply same_bind; [apply same_read_int|]. intros b s' E _. apply uint8_shrinks in E.
  destruct (Z.land b 128 =? 0); [apply same_ret|apply IH; lia].
Qed.

Lemma same_compact : forall fuel m sg v s, (length (rest s) < fuel)%nat -> (length (rest s) < m)%nat ->
  same (p_compact_loop m sg v) (decode_compact_loop fuel sg v) s.
Proof.
  induction fuel as [|fuel IH]; intros [|m] sg v s H1 H2; [lia|lia|lia|]. cbn [p_compact_loop decode_compact_loop].
  apply same_bind; [apply same_read_int|]. intros b s' E _. apply uint8_shrinks in E.
  destruct sg as [sg|]; destruct (Z.land b 128 =? 0); try apply same_ret; apply IH; lia.
Qed.

Lemma rest_short m s : (length (s_data s) < m)%nat -> (length (rest s) < m)%nat.
Proof. unfold rest. rewrite skipn_length. lia. Qed.

Lemma same_vli m fmt s : (length (s_data s) < m)%nat -> same (p_vli_decode m fmt) (vli_decode fmt) s.
Proof.
  intros H. apply rest_short in H. destruct fmt; cbn [p_vli_decode vli_decode].
  - eapply same_ext; [|apply (same_compact (S (length (rest s)))); auto]. reflexivity.
  - intros i. unfold p_leb128, decode_integer_leb128, decode_integer_uleb128. cbn [run]. rewrite run_bind.
    destruct (same_uleb (S (length (rest s))) m 0 0 s (Nat.lt_succ_diag_r _) H i) as (i' & E1 & E2). rewrite E1.
    destruct (decode_uleb_loop (S (length (rest s))) 0 0 s) as [s' [v|e|]]; cbn [fst snd] in *;
      [|exists i'; auto|exists i'; auto].
    exists i'. destruct (v =? 0); [auto|]. cbn [run]. destruct (bit_length v <? _); auto.
  - eapply same_ext; [|apply (same_uleb (S (length (rest s)))); auto]. reflexivity.
  - eapply same_ext; [|apply (same_vlq (S (length (rest s)))); auto]. reflexivity.
Qed.

Lemma same_stringz : forall fuel m name cd mx nr buf acc s, (length (rest s) < fuel)%nat -> (length (rest s) < m)%nat ->
  same (p_stringz_loop m name cd mx nr buf acc) (stringz_loop fuel name cd mx nr buf acc) s.
Proof.
  induction fuel as [|fuel IH]; intros [|m] name cd mx nr buf acc s H1 H2 i; [lia|lia|lia|].
  cbn [p_stringz_loop stringz_loop]. unfold iter_next.
  destruct (match mx with None => true | Some mx => nr <? mx end).
  2:{ exists i. destruct (forgiven cd buf); auto. }
  cbn [run]. unfold unlimited at 1. rewrite device_read_all. pose proof (read_data s 1) as Hd.
  assert (Hs : forall b r s', read s 1 = (b :: r, s') -> (S (length (rest s')) = length (rest s))%nat).
  { intros b r s' Er. apply (uint8_shrinks s s' (py_from_bytes (b :: r) Little false)).
    unfold read_uint8, read_int. rewrite Er. replace (zlen (b :: r) <? 1) with false; auto.
    symmetry. apply Z.ltb_ge. unfold zlen. cbn [length]. lia. }
  destruct (read s 1) as [[|b r] s'] eqn:Er; cbn [snd] in Hd.
  - assert (s' = s).
    { unfold read in Er. change (1 <? 0) with false in Er. cbn iota in Er. injection Er as Er <-.
      set (k := Z.to_nat _) in *. assert (k = 0%nat).
      { unfold k in *. destruct (rest s) as [|x l]; auto. exfalso. cbn [length] in Er.
        replace (Z.to_nat (Z.min 1 (Z.of_nat (S (length l))))) with 1%nat in Er by lia. discriminate. }
      rewrite H. unfold advance. rewrite Nat.add_0_r. destruct s; auto. }
    subst s'. exists (S i). destruct (forgiven cd buf); auto.
  - specialize (Hs b r s' eq_refl).
    destruct (dec_step cd (buf ++ [b])) as [cp| | |cd'|].
    + destruct (cp =? 0); [exists (S i); auto|]. destruct (IH m name (started cd) mx (nr + 1) [] (cp :: acc) s' ltac:(lia) ltac:(lia) (S i)) as (i' & E1 & E2).
      exists i'. rewrite E1, E2. auto.
    + destruct (IH m name cd mx (nr + 1) (buf ++ [b]) acc s' ltac:(lia) ltac:(lia) (S i)) as (i' & E1 & E2).
      exists i'. rewrite E1, E2. auto.
    + exists (S i). auto.
    + destruct (IH m name cd' mx (nr + 1) [] acc s' ltac:(lia) ltac:(lia) (S i)) as (i' & E1 & E2).
      exists i'. rewrite E1, E2. auto.
    + exists (S i). auto.
Qed.

(** ** Fields *)

Lemma same_leaf m c k g g0 s : (length (s_data s) < m)%nat -> same (p_leaf_load m c k g g0) (leaf_load c k g g0) s.
Proof.
  intros Hm. destruct k as [sg e|fmt mx|fmt e|r tz sg e| |cd pad|cd pad|fmt|comp cnt halt|cid|choices ld dmp];
    cbn [p_leaf_load leaf_load]; try apply same_raise.
  - destruct (c_size c); try apply same_raise. apply same_bind; [apply same_read_int|intros; apply same_ret].
  - apply same_bind; [apply same_vli; auto|intros; apply same_ret].
  - apply same_bind; [apply same_read_exact|]. intros data s' _ _. destruct (zlen data =? ff_bytes fmt); [apply same_ret|apply same_raise].
  - apply same_bind; [apply same_done|]. intros n s1 _ _. apply same_bind; [apply same_read_int|]. intros z s2 _ _.
    apply same_bind; [apply same_done|]. intros us s3 _ _. apply same_ret.
  - apply same_bind; [apply same_read_exact|intros; apply same_ret].
  - apply same_bind; [apply same_read_exact|]. intros data s1 _ _. apply same_bind; [apply same_done|intros; apply same_ret].
  - destruct g as [?|e|]; [|destruct (is_UndefinedSizeError e)|]; try (intros i; exists i; auto; fail);
      (eapply same_ext; [|apply (same_stringz (S (length (rest s)))); [lia|apply rest_short; auto]]; reflexivity).
  - destruct (c_size c) as [|n|]; try apply same_raise. intros i. exists (S i). cbn [run]. unfold unlimited at 1.
    rewrite device_read_all. pose proof (read_data s n) as Hd. destruct (read s n) as [raw s']. cbn [snd] in Hd.
    destruct (zlen raw <? n); [cbn [run]; auto|].
    destruct (match fmt with BINARY_VARIANT_1 | BINARY_VARIANT_2 => negb (zlen raw =? 16) | _ => false end); auto.
    destruct (uuid_parse fmt raw); auto.
Qed.

Lemma same_load_value (p : prog value) (l : loader value) (eqv : value -> value -> res bool) (c : fconf) s : same p l s ->
  same (pdo v <- pfield (c_name c) p;
        pdo v <- PDone (if allow_null c then do b <- eqv v (c_null c); Ok (if b then VNone else v) else Ok v);
        pdo _ <- PDone (if negb (is_undefined (c_const c)) then
                          do b <- eqv v (c_const c);
                          if b then Ok tt else Raise (EValidation (c_name c))
                        else Ok tt);
        pdo _ <- PDone (run_validators (c_validators c) v);
        pret v)
       (ldo v <- (fun s => match l s with
                           | (s', Raise e) => (s', Raise (set_field (c_name c) e))
                           | x => x
                           end);
        ldo v <- llift (if allow_null c then do b <- eqv v (c_null c); Ok (if b then VNone else v) else Ok v);
        ldo _ <- llift (if negb (is_undefined (c_const c)) then
                          do b <- eqv v (c_const c);
                          if b then Ok tt else Raise (EValidation (c_name c))
                        else Ok tt);
        ldo _ <- llift (run_validators (c_validators c) v);
        lret v) s.
Proof.
  intros H. apply same_bind; [apply same_field; auto|]. intros v s1 _ _.
  apply same_bind; [apply same_done|]. intros v1 s2 _ _.
  apply same_bind; [apply same_done|]. intros u s3 _ _.
  apply same_bind; [apply same_done|]. intros u' s4 _ _. apply same_ret.
Qed.

Lemma same_from_stream nr p l eqv c ctx d s : (forall s, c_present c ctx (Some s) = c_present c ctx (Some unseen)) ->
  same p l s -> same (p_from_stream_with nr p eqv c ctx d) (from_stream_with nr l eqv c ctx d) s.
Proof.
  intros Hb Hp i. pose proof (same_load_value p l eqv c s Hp) as Hlv.
  unfold p_from_stream_with, from_stream_with. cbv zeta. rewrite (Hb s), run_bind. cbn [run].
  destruct (run_dict d (c_present c ctx (Some unseen))) as [[]|e|]; [|exists i; auto|exists i; auto|exists i; auto].
  cbn [negb]. destruct (allow_null c) eqn:En; [|apply Hlv].
  destruct nr as [null|e|]; [| |exists i; auto].
  - rewrite run_bind. destruct (same_peek (zlen null) s i) as (i1 & E1 & E2). rewrite E1.
    destruct (peek_bytes (zlen null) true s) as [s1 [data|e|]] eqn:Ep; cbn [fst snd] in *;
      [|exists i1; auto|exists i1; auto].
    assert (s1 = s).
    { unfold peek_bytes in Ep. destruct (read s (zlen null)). cbn [negb andb] in Ep. congruence. }
    subst s1. destruct (bytes_eqb data null); [|apply Hlv].
    exists i1. cbn [run]. rewrite run_bind. cbn [run]. destruct (run_validators (c_validators c) VNone); auto.
  - destruct (is_UnserializableValueError e); [|exists i; auto].
    destruct (is_default (c_null c)); [exists i; auto|apply Hlv].
Qed.

Lemma same_halt cnt halt name ctx d values s : (forall h, halt = Some h -> forall s vs ctx d, h s vs ctx d = h unseen vs ctx d) ->
  same (p_array_halt cnt halt name ctx d values) (fun s => (s, array_halt cnt halt name ctx d s values)) s.
Proof.
  intros Hb. unfold p_array_halt, array_halt. destruct halt as [h|].
  - rewrite <- (Hb h eq_refl s). apply same_done.
  - destruct cnt; try apply same_done.
    intros i. exists (S i). cbn [run]. unfold unlimited at 1. rewrite device_read_all.
    pose proof (read_data s 1) as Hd. destruct (read s 1) as [data s'] eqn:Er. cbn [snd] in Hd.
    rewrite (seek_back s s' Hd). cbn [run pret fst snd should_halt bind].
    assert (Hdata : match data with [] => true | _ => false end = match rest s with [] => true | _ => false end).
    { unfold read in Er. change (1 <? 0) with false in Er. cbn iota in Er. injection Er as <- _.
      destruct (rest s) as [|x r]; auto. cbn [length].
      replace (Z.to_nat (Z.min 1 (Z.of_nat (S (length r))))) with 1%nat by lia. auto. }
    rewrite Hdata. auto.
Qed.

Lemma same_array load1 lload1 halt lhalt m : (forall s, (length (s_data s) < m)%nat -> same load1 lload1 s) ->
  (forall vs s, same (halt vs) (fun s => (s, lhalt s vs)) s) ->
  forall fuel values s, (length (s_data s) < m)%nat -> same (p_array_load fuel halt load1 values) (array_load fuel lhalt lload1 values) s.
Proof.
  intros H1 H2. induction fuel as [|fuel IH]; intros values s Hs i; [exists i; auto|].
  cbn [p_array_load array_load]. rewrite run_bind. destruct (H2 values s i) as (i1 & E1 & _). rewrite E1. cbn [fst snd].
  destruct (lhalt s values) as [[[] vs]|e|]; [exists i1; auto| |exists i1; auto|exists i1; auto].
  rewrite run_bind. destruct (H1 s Hs i1) as (i2 & E2 & E3). rewrite E2.
  destruct (lload1 s) as [s' [v|e|]]; cbn [fst snd] in *; [|exists i2; auto|exists i2; auto].
  destruct (IH (if is_not_present v then vs else vs ++ [v]) s' ltac:(rewrite E3; auto) i2) as (i3 & E4 & E5).
  exists i3. rewrite E4, E5. auto.
Qed.

Section Loading.
Variable E : env.
Variable m : nat.
Hypothesis HE : blind_env E.

Definition matches (dl : ploader) (ll : floader) : Prop :=
  forall f ctx d s, blind f -> (length (s_data s) < m)%nat -> same (dl f ctx d) (ll f ctx d) s.

Lemma same_field_from_stream dl ll n f ctx d s : matches dl ll -> blind f -> (length (s_data s) < m)%nat ->
  same (p_field_from_stream_with E dl n f ctx d) (field_from_stream_with E ll n f ctx d) s.
Proof.
  intros H Hf Hs. unfold p_field_from_stream_with, field_from_stream_with. apply same_from_stream; [|apply H; auto].
  inversion Hf; auto.
Qed.

Lemma same_load_fields dl ll n ctx : matches dl ll -> forall fs results s, (forall name f, In (name, f) fs -> blind f) ->
  (length (s_data s) < m)%nat ->
  same (p_load_fields E dl n fs ctx results) (load_fields E ll n fs ctx results) s.
Proof.
  intros H. induction fs as [|[name f] fs IH]; intros results s Hfs Hs; cbn [p_load_fields load_fields]; [apply same_ret|].
  apply same_bind; [apply same_field_from_stream; auto; eapply Hfs; left; eauto|].
  intros v s' _ Hs'. apply IH; [|rewrite Hs'; auto]. intros name' f' Hin. eapply Hfs. right. eauto.
Qed.

Lemma same_struct dl ll n cid ctx init s : matches dl ll -> (length (s_data s) < m)%nat ->
  same (p_struct_from_stream_with E dl n cid ctx init) (struct_from_stream_with E ll n cid ctx init) s.
Proof.
  intros H Hs. unfold p_struct_from_stream_with, struct_from_stream_with.
  apply same_bind; [apply same_load_fields; auto; intros; eapply HE; eauto|]. intros results s1 _ _.
  apply same_bind; [apply same_done|]. intros vals s2 _ _.
  apply same_bind; [apply same_done|]. intros u s3 _ _. apply same_ret.
Qed.

Lemma same_do_load : forall n, matches (p_do_load E m n) (do_load E n).
Proof.
  induction n as [n IH] using lt_wf_ind. intros f ctx d s Hf Hs.
  assert (Hleaf : forall k, same (p_leaf_load m (conf f) k (get_expected_size_with (fun v => do_dump E n f v VNone d) (conf f) k d)
             (get_expected_size_with (fun v => do_dump E n f v VNone []) (conf f) k []))
      (leaf_load (conf f) k (get_expected_size_with (fun v => do_dump E n f v VNone d) (conf f) k d)
             (get_expected_size_with (fun v => do_dump E n f v VNone []) (conf f) k [])) s) by (intros k; apply same_leaf; auto).
  destruct n as [|n']; cbn [p_do_load do_load];
    destruct (kind f) as [sg e|fmt mx|fmt e|r tz sg e| |cd pad|cd pad|fmt|comp cnt halt|cid|choices ld dmp] eqn:Ek;
    try apply Hleaf; try (intros i; exists i; auto; fail).
  - inversion Hf as [f0 _ Ha _ Ef]; subst f0. destruct (Ha _ _ _ Ek) as [Hcomp Hhalt].
    apply (same_array _ _ _ _ m); auto.
    + intros s0 Hs0. apply same_field_from_stream; auto.
    + intros vs s0. apply same_halt. auto.
  - apply same_bind; [apply same_struct; auto|intros; apply same_ret].
  - inversion Hf as [f0 _ _ Hu Ef]; subst f0. destruct (Hu _ _ _ Ek) as [Hg Hd].
    intros i. rewrite run_bind. cbn [run]. rewrite <- (Hd s).
    destruct (ld s ctx d) as [j|e|]; [|exists i; auto|exists i; auto].
    destruct (nth_error choices j) as [[g|cid]|] eqn:Ej; [| |exists i; auto].
    + apply IH; auto. apply Hg. eapply nth_error_In; eauto.
    + apply same_bind; [apply same_struct; auto|intros; apply same_ret].
Qed.

Lemma same_struct_from_stream n cid ctx init s : (length (s_data s) < m)%nat ->
  same (p_struct_from_stream E m n cid ctx init) (struct_from_stream E n cid ctx init) s.
Proof. intros Hs. apply same_struct; auto. apply same_do_load. Qed.

Lemma same_field_load n f ctx d s : blind f -> (length (s_data s) < m)%nat ->
  same (p_field_from_stream E m n f ctx d) (field_from_stream E n f ctx d) s.
Proof. intros Hf Hs. apply same_field_from_stream; auto. apply same_do_load. Qed.
End Loading.

(** ** Short reads *)

Lemma firstn_all_1 {A} (l : list A) k : (length l <= 1)%nat -> firstn (Nat.max 1 k) l = l.
Proof. intros H. apply firstn_all2. lia. Qed.

Lemma read_length s n : 0 <= n -> zlen (fst (read s n)) <= n.
Proof.
  intros H. unfold read. replace (n <? 0) with false by (symmetry; apply Z.ltb_ge; lia). cbn [fst]. unfold zlen.
  rewrite firstn_length. lia.
Qed.

Lemma read_advance s n : snd (read s n) = advance s (length (fst (read s n))).
Proof.
  unfold read. destruct (n <? 0); cbn [fst snd]; f_equal; rewrite firstn_length; lia.
Qed.

(** A read of one byte cannot be short. *)
Lemma device_read_one lim s n : n <= 1 -> device_read lim s n = read s n.
Proof.
  intros Hn. unfold device_read. pose proof (read_advance s n) as Ha. pose proof (read_length s n) as Hl.
  destruct (read s n) as [data s']. cbn [fst snd] in *. destruct lim as [k|]; auto. destruct (n <? 0) eqn:E; auto.
  apply Z.ltb_ge in E. specialize (Hl E). unfold zlen in Hl. rewrite firstn_all_1 by lia. rewrite Ha. auto.
Qed.

(** Otherwise it is as long as it should be or shorter than asked for. *)
Lemma device_read_cases lim s n : device_read lim s n = read s n \/ zlen (fst (device_read lim s n)) < n.
Proof.
  unfold device_read. pose proof (read_advance s n) as Ha. pose proof (read_length s n) as Hl.
  destruct (read s n) as [data s']. cbn [fst snd] in *. destruct lim as [k|]; auto. destruct (n <? 0) eqn:E; auto.
  apply Z.ltb_ge in E. specialize (Hl E). cbn [fst]. destruct (Nat.le_gt_cases (length data) (Nat.max 1 k)) as [Hk|Hk].
  - left. rewrite firstn_all2 by auto. rewrite Ha. auto.
  - right. unfold zlen in *. rewrite firstn_length. lia.
Qed.

Lemma run_counter {A} sk (p : prog A) : forall s i j, exists i' j', fst (run unlimited sk p s i) = (fst (fst (run unlimited sk p s i)), i')
  /\ run unlimited sk p s j = ((fst (fst (run unlimited sk p s i)), j'), snd (run unlimited sk p s i)).
Proof.
  induction p as [r|n f IH|f IH|q p IH|n p IH]; intros s i j; cbn [run].
  - exists i, j. auto.
  - change (unlimited i) with (@None nat). change (unlimited j) with (@None nat). rewrite !device_read_all.
    destruct (read s n) as [data s']. apply IH.
  - destruct sk; [apply IH|exists i, j; auto].
  - destruct sk; [|exists i, j; auto]. destruct (seek s q) as [s' [u|e|]]; [apply IH|exists i, j; auto|exists i, j; auto].
  - destruct sk; [apply IH|exists i, j; auto].
Qed.

Lemma gives_eof_run {A} lim sk (p : prog A) : gives_eof p -> forall s i, exists x,
  run lim sk p s i = (x, None) \/ exists e, is_eof e /\ run lim sk p s i = (x, Some (Raise e)).
Proof.
  induction 1 as [e He|k H IH]; intros s i; cbn [run]; [eauto|]. destruct sk; eauto.
Qed.

Lemma gives_eof_run_seekable {A} lim (p : prog A) : gives_eof p -> forall s i, exists x e,
  is_eof e /\ run lim true p s i = (x, Some (Raise e)).
Proof. induction 1 as [e He|k H IH]; intros s i; cbn [run]; eauto. Qed.

(** Short reads give the right result or none. *)
Lemma careful_run {A} lim (p : prog A) : careful p -> forall s i,
  (exists s' i' j' r, run lim true p s i = ((s', i'), r) /\ run unlimited true p s 0 = ((s', j'), r))
  \/ exists x e, is_eof e /\ run lim true p s i = (x, Some (Raise e)).
Proof.
  induction 1 as [r|n k Hk IH Hn|k Hk IH|q p Hp IH|n p Hp IH]; intros s i; cbn [run].
  - left. eexists _, _, _, _. eauto.
  - unfold unlimited at 1. rewrite device_read_all. destruct (device_read_cases (lim i) s n) as [E|E].
    + rewrite E. destruct (read s n) as [data s']. destruct (IH data s' (S i)) as [(s2 & i2 & j2 & r & E1 & E2)|H]; auto.
      left. destruct (run_counter true (k data) s' 0 1) as (i3 & j3 & _ & E3). rewrite E2 in E3. cbn [fst snd] in E3.
      exists s2, i2, j3, r. auto.
    + destruct Hn as [Hn|Hn].
      * rewrite device_read_one by auto. destruct (read s n) as [data s']. destruct (IH data s' (S i)) as [(s2 & i2 & j2 & r & E1 & E2)|H]; auto.
        left. destruct (run_counter true (k data) s' 0 1) as (i3 & j3 & _ & E3). rewrite E2 in E3. cbn [fst snd] in E3.
        exists s2, i2, j3, r. auto.
      * right. destruct (device_read (lim i) s n) as [data s']. cbn [fst] in E. apply gives_eof_run_seekable. auto.
  - apply IH.
  - destruct (seek s q) as [s' [u|e|]]; [apply IH|left; eexists _, _, _, _; eauto|left; eexists _, _, _, _; eauto].
  - apply IH.
Qed.

Lemma steady_run {A} lim sk (p : prog A) : steady p -> forall s i, exists s' i' j' r,
  run lim sk p s i = ((s', i'), r) /\ run unlimited sk p s 0 = ((s', j'), r).
Proof.
  induction 1 as [r|n k Hn Hk IH|k Hk IH|q p Hp IH|n p Hp IH]; intros s i; cbn [run].
  - eexists _, _, _, _. eauto.
  - unfold unlimited at 1. rewrite device_read_all, device_read_one by auto. destruct (read s n) as [data s'].
    destruct (IH data s' (S i)) as (s2 & i2 & j2 & r & E1 & E2).
    destruct (run_counter sk (k data) s' 0 1) as (i3 & j3 & _ & E3). rewrite E2 in E3. cbn [fst snd] in E3.
    exists s2, i2, j3, r. auto.
  - destruct sk; [apply IH|eexists _, _, _, _; eauto].
  - destruct sk; [|eexists _, _, _, _; eauto].
    destruct (seek s q) as [s' [u|e|]]; [apply IH|eexists _, _, _, _; eauto|eexists _, _, _, _; eauto].
  - destruct sk; [apply IH|eexists _, _, _, _; eauto].
Qed.

Lemma reads_only_run {A} lim sk sk' (p : prog A) : reads_only p -> forall s i, run lim sk p s i = run lim sk' p s i.
Proof.
  induction 1 as [r|n k Hk IH]; intros s i; cbn [run]; auto. destruct (device_read (lim i) s n). auto.
Qed.

(** ** Binding *)

Lemma eof_bind {A B} (p : prog A) (k : A -> prog B) : gives_eof p -> gives_eof (pbind p k).
Proof. induction 1; cbn [pbind]; constructor; auto. Qed.

Lemma eof_field {A} name (p : prog A) : gives_eof p -> gives_eof (pfield name p).
Proof.
  induction 1 as [e (fld & n & off & ->)|k H IH]; cbn [pfield]; constructor; auto. cbn. eexists _, _, _. reflexivity.
Qed.

Lemma careful_bind {A B} (p : prog A) (k : A -> prog B) : careful p -> (forall a, careful (k a)) -> careful (pbind p k).
Proof.
  intros Hp Hk. induction Hp as [r|n f Hf IH Hn|f Hf IH|q p Hp IH|n p Hp IH]; cbn [pbind].
  - destruct r; auto; constructor.
  - constructor; auto. destruct Hn as [Hn|Hn]; auto. right. intros data Hd. apply eof_bind. auto.
  - constructor; auto.
  - constructor; auto.
  - constructor; auto.
Qed.

Lemma careful_field {A} name (p : prog A) : careful p -> careful (pfield name p).
Proof.
  induction 1 as [r|n f Hf IH Hn|f Hf IH|q p Hp IH|n p Hp IH]; cbn [pfield].
  - destruct r; constructor.
  - constructor; auto. destruct Hn as [Hn|Hn]; auto. right. intros data Hd. apply eof_field. auto.
  - constructor; auto.
  - constructor; auto.
  - constructor; auto.
Qed.

Lemma steady_bind {A B} (p : prog A) (k : A -> prog B) : steady p -> (forall a, steady (k a)) -> steady (pbind p k).
Proof. intros Hp Hk. induction Hp as [[]|n f Hn Hf IH|f Hf IH|q p Hp IH|n p Hp IH]; cbn [pbind]; auto; constructor; auto. Qed.

Lemma steady_field {A} name (p : prog A) : steady p -> steady (pfield name p).
Proof. induction 1 as [[]|n f Hn Hf IH|f Hf IH|q p Hp IH|n p Hp IH]; cbn [pfield]; constructor; auto. Qed.

Lemma reads_bind {A B} (p : prog A) (k : A -> prog B) : reads_only p -> (forall a, reads_only (k a)) -> reads_only (pbind p k).
Proof. intros Hp Hk. induction Hp as [[]|n f Hf IH]; cbn [pbind]; auto; constructor; auto. Qed.

Lemma reads_field {A} name (p : prog A) : reads_only p -> reads_only (pfield name p).
Proof. induction 1 as [[]|n f Hf IH]; cbn [pfield]; constructor; auto. Qed.

Lemma steady_careful {A} (p : prog A) : steady p -> careful p.
Proof. induction 1; constructor; auto. Qed.

(** ** Properties of all the programs *)
Section Closed.
Variable E : env.
Variable m : nat.
Variable Q : forall A, prog A -> Prop.
Variable P : field -> Prop.
Hypothesis Qdone : forall A (r : res A), Q A (PDone r).
Hypothesis Qbind : forall A B (p : prog A) (k : A -> prog B), Q A p -> (forall a, Q B (k a)) -> Q B (pbind p k).
Hypothesis Qfield : forall A name (p : prog A), Q A p -> Q A (pfield name p).
Hypothesis Pnull : forall f, P f -> not_null f.
Hypothesis Pleaf : forall f g g0, P f -> match kind f with KArray _ _ _ | KNested _ | KUnion _ _ _ => True | k => Q value (p_leaf_load m (conf f) k g g0) end.
Hypothesis Phalt : forall f comp cnt halt name ctx d vs, P f -> kind f = KArray comp cnt halt -> Q _ (p_array_halt cnt halt name ctx d vs).
Hypothesis HE : everywhere P E.

Lemma Q_from_stream nr p eqv c ctx d : allow_null c = false -> Q value p -> Q value (p_from_stream_with nr p eqv c ctx d).
Proof.
  intros Hn Hp. unfold p_from_stream_with. rewrite Hn. cbv zeta. apply Qbind; [apply Qdone|]. intros b.
  destruct (negb b); [apply Qdone|]. repeat (apply Qbind; [auto using Qdone, Qfield|intros]). apply Qdone.
Qed.

Lemma Q_field dl n f ctx d : (forall f ctx d, through P f -> Q value (dl f ctx d)) -> through P f ->
  Q value (p_field_from_stream_with E dl n f ctx d).
Proof. intros H Hf. apply Q_from_stream; auto. inversion Hf. apply Pnull. auto. Qed.

Lemma Q_struct dl n cid ctx init : (forall f ctx d, through P f -> Q value (dl f ctx d)) ->
  Q dict (p_struct_from_stream_with E dl n cid ctx init).
Proof.
  intros H. unfold p_struct_from_stream_with. apply Qbind.
  - assert (Hfs : forall name f, In (name, f) (comps E cid) -> through P f) by (intros; eapply HE; eauto).
    revert init Hfs. generalize (comps E cid) as fs. induction fs as [|[name f] fs IH]; intros init Hfs; cbn [p_load_fields]; [apply Qdone|].
    apply Qbind; [apply Q_field; auto; eapply Hfs; left; eauto|]. intros v. apply IH. intros name' f' Hin. eapply Hfs. right. eauto.
  - intros results. repeat (apply Qbind; [apply Qdone|intros]). apply Qdone.
Qed.

Lemma Q_do_load : forall n f ctx d, through P f -> Q value (p_do_load E m n f ctx d).
Proof.
  induction n as [n IH] using lt_wf_ind. intros f ctx d Hf. inversion Hf as [f0 HP Ha Hu Ef]; subst f0.
  pose proof (fun g g0 => Pleaf f g g0 HP) as Hleaf.
  destruct n as [|n']; cbn [p_do_load];
    destruct (kind f) as [sg e|fmt mx|fmt e|r tz sg e| |cd pad|cd pad|fmt|comp cnt halt|cid|choices ld dmp] eqn:Ek;
    try apply Hleaf; try apply Qdone.
  - assert (Hl : forall n0 vs, Q value (p_array_load n0 (p_array_halt cnt halt (name_of f) ctx d)
       (p_field_from_stream_with E (p_do_load E m n') n' comp ctx d) vs)); [|apply Hl].
    induction n0 as [|n0 IHn]; intros vs; cbn [p_array_load]; [apply Qdone|].
    apply Qbind; [eapply Phalt; eauto|]. intros [stop vs']. destruct stop; [apply Qdone|].
    apply Qbind; [apply Q_field; eauto|]. intros v. apply IHn.
  - apply Qbind; [apply Q_struct; auto|intros; apply Qdone].
  - apply Qbind; [apply Qdone|]. intros i. destruct (nth_error choices i) as [[g|cid]|] eqn:Ei; [| |apply Qdone].
    + apply IH; auto. eapply Hu; eauto. eapply nth_error_In; eauto.
    + apply Qbind; [apply Q_struct; auto|intros; apply Qdone].
Qed.
End Closed.

(** ** Which programs are careful, steady, or only read *)

Lemma careful_read_int n sg e : careful (p_read_int n sg e).
Proof.
  unfold p_read_int. constructor. intros off. constructor.
  - intros data. destruct (zlen data <? n); constructor.
  - right. intros data Hd. replace (zlen data <? n) with true by (symmetry; apply Z.ltb_lt; auto).
    constructor. eexists _, _, _. reflexivity.
Qed.

Lemma careful_read_exact c g : careful (p_read_exact_size c g).
Proof.
  unfold p_read_exact_size. constructor. intros off. destruct g as [n|e|]; try constructor.
  - intros data. destruct (zlen data <? n); constructor.
  - right. intros data Hd. replace (zlen data <? n) with true by (symmetry; apply Z.ltb_lt; auto).
    constructor. eexists _, _, _. reflexivity.
Qed.

Lemma steady_uint8 : steady p_read_uint8.
Proof.
  unfold p_read_uint8, p_read_int. constructor. intros off. constructor; [lia|]. intros data. destruct (zlen data <? 1); constructor.
Qed.

Lemma steady_vli m fmt : steady (p_vli_decode m fmt).
Proof.
  assert (Hu : forall m v b, steady (p_uleb_loop m v b)).
  { induction m0 as [|m0 IH]; intros v b; cbn [p_uleb_loop]; [constructor|]. apply steady_bind; [apply steady_uint8|].
    intros z. destruct (Z.land z 128 =? 0); [constructor|apply IH]. }
  destruct fmt; cbn [p_vli_decode]; auto.
  - generalize (@None Z) as sg, 0 as v. induction m as [|m IH]; intros sg v; cbn [p_compact_loop]; [constructor|].
    apply steady_bind; [apply steady_uint8|]. intros z. destruct sg; destruct (Z.land z 128 =? 0); try constructor; apply IH.
  - unfold p_leb128. constructor. intros off. apply steady_bind; auto. intros v. destruct (v =? 0); [constructor|].
    constructor. intros here. destruct (bit_length v <? (here - off) * 7); constructor.
  - generalize 0 as v. induction m as [|m IH]; intros v; cbn [p_vlq_loop]; [constructor|].
    apply steady_bind; [apply steady_uint8|]. intros z. destruct (Z.land z 128 =? 0); try constructor; apply IH.
Qed.

Lemma stringz_steady m : forall name cd mx nr buf acc, steady (p_stringz_loop m name cd mx nr buf acc).
Proof.
  induction m as [|m IH]; intros; cbn [p_stringz_loop]; [constructor|]. cbv zeta.
  destruct (match mx with None => true | Some mx0 => nr <? mx0 end); [|destruct (forgiven cd buf); constructor].
  constructor; [lia|]. intros [|b r]; [destruct (forgiven cd buf); constructor|].
  destruct (dec_step cd (buf ++ [b])) as [cp| | |cd'|]; try constructor; auto. destruct (cp =? 0); [constructor|auto].
Qed.

Lemma stringz_reads m : forall name cd mx nr buf acc, reads_only (p_stringz_loop m name cd mx nr buf acc).
Proof.
  induction m as [|m IH]; intros; cbn [p_stringz_loop]; [constructor|]. cbv zeta.
  destruct (match mx with None => true | Some mx0 => nr <? mx0 end); [|destruct (forgiven cd buf); constructor].
  constructor. intros [|b r]; [destruct (forgiven cd buf); constructor|].
  destruct (dec_step cd (buf ++ [b])) as [cp| | |cd'|]; try constructor; auto. destruct (cp =? 0); [constructor|auto].
Qed.

Lemma halt_steady cnt halt name ctx d vs : steady (p_array_halt cnt halt name ctx d vs).
Proof.
  unfold p_array_halt. destruct halt; [constructor|]. destruct cnt; try constructor. intros off. constructor; [lia|].
  intros data. constructor. constructor.
Qed.

Lemma leaf_careful m c k g g0 : careful (p_leaf_load m c k g g0).
Proof.
  destruct k as [sg e|fmt mx|fmt e|r tz sg e| |cd pad|cd pad|fmt|comp cnt halt|cid|choices ld dmp];
    cbn [p_leaf_load]; try apply careful_done.
  - destruct (c_size c); try apply careful_done. apply careful_bind; [apply careful_read_int|constructor].
  - apply careful_bind; [apply steady_careful, steady_vli|constructor].
  - apply careful_bind; [apply careful_read_exact|]. intros data. destruct (zlen data =? ff_bytes fmt); constructor.
  - apply careful_bind; [constructor|]. intros n. apply careful_bind; [apply careful_read_int|]. intros z.
    apply careful_bind; constructor.
  - apply careful_bind; [apply careful_read_exact|constructor].
  - apply careful_bind; [apply careful_read_exact|]. intros data. apply careful_bind; constructor.
  - destruct (match g with Ok n => _ | Raise e => _ | OOF => _ end); try apply careful_done. apply steady_careful, stringz_steady.
  - destruct (c_size c) as [|n|]; try apply careful_done. constructor.
    + intros data. destruct (zlen data <? n); [constructor; constructor|].
      destruct (match fmt with BINARY_VARIANT_1 | BINARY_VARIANT_2 => negb (zlen data =? 16) | _ => false end); [constructor|].
      apply careful_bind; constructor.
    + right. intros data Hd. replace (zlen data <? n) with true by (symmetry; apply Z.ltb_lt; auto).
      constructor. intros z. constructor. eexists _, _, _. reflexivity.
Qed.

Section Results.
Variable E : env.
Variable m : nat.

Lemma do_load_careful n f ctx d : everywhere not_null E -> through not_null f -> careful (p_do_load E m n f ctx d).
Proof.
  intros HE. apply (Q_do_load E m (@careful) not_null); auto.
  - constructor.
  - intros. apply careful_bind; auto.
  - intros. apply careful_field; auto.
  - intros f0 g g0 _. destruct (kind f0); auto; apply leaf_careful.
  - intros. apply steady_careful, halt_steady.
Qed.

Lemma do_load_steady n f ctx d : everywhere bytewise E -> through bytewise f -> steady (p_do_load E m n f ctx d).
Proof.
  intros HE. apply (Q_do_load E m (@steady) bytewise); auto.
  - constructor.
  - intros. apply steady_bind; auto.
  - intros. apply steady_field; auto.
  - intros f0 [H _]. auto.
  - intros f0 g g0 [_ H]. destruct (kind f0); auto; try contradiction; cbn [p_leaf_load].
    + apply steady_bind; [apply steady_vli|constructor].
    + destruct (match g with Ok n => _ | Raise e => _ | OOF => _ end); try constructor. apply stringz_steady.
  - intros. apply halt_steady.
Qed.

Lemma do_load_reads n f ctx d : everywhere sequential E -> through sequential f -> reads_only (p_do_load E m n f ctx d).
Proof.
  intros HE. apply (Q_do_load E m (@reads_only) sequential); auto.
  - constructor.
  - intros. apply reads_bind; auto.
  - intros. apply reads_field; auto.
  - intros f0 [H _]. auto.
  - intros f0 g g0 [_ H]. destruct (kind f0); auto; try contradiction; cbn [p_leaf_load].
    destruct (match g with Ok n => _ | Raise e => _ | OOF => _ end); try constructor. apply stringz_reads.
  - intros f0 comp cnt halt name ctx0 d0 vs [_ H] Hk. rewrite Hk in H. unfold p_array_halt.
    destruct halt; [constructor|]. destruct cnt; try constructor. destruct H; contradiction.
Qed.

Lemma field_not_null f : through not_null f -> allow_null (conf f) = false.
Proof. inversion 1. auto. Qed.

Lemma struct_careful n cid ctx init : everywhere not_null E -> careful (p_struct_from_stream E m n cid ctx init).
Proof.
  intros HE. apply (Q_struct E (@careful) not_null); auto.
  - constructor.
  - intros. apply careful_bind; auto.
  - intros. apply careful_field; auto.
  - intros. apply do_load_careful; auto.
Qed.

Lemma struct_steady n cid ctx init : everywhere bytewise E -> steady (p_struct_from_stream E m n cid ctx init).
Proof.
  intros HE. apply (Q_struct E (@steady) bytewise); auto.
  - constructor.
  - intros. apply steady_bind; auto.
  - intros. apply steady_field; auto.
  - intros f [H _]. auto.
  - intros. apply do_load_steady; auto.
Qed.

Lemma struct_reads n cid ctx init : everywhere sequential E -> reads_only (p_struct_from_stream E m n cid ctx init).
Proof.
  intros HE. apply (Q_struct E (@reads_only) sequential); auto.
  - constructor.
  - intros. apply reads_bind; auto.
  - intros. apply reads_field; auto.
  - intros f [H _]. auto.
  - intros. apply do_load_reads; auto.
Qed.

Lemma field_careful n f ctx d : everywhere not_null E -> through not_null f -> careful (p_field_from_stream E m n f ctx d).
Proof.
  intros HE Hf. apply (Q_field E (@careful) not_null); auto.
  - constructor.
  - intros. apply careful_bind; auto.
  - intros. apply careful_field; auto.
  - intros. apply do_load_careful; auto.
Qed.

Lemma field_steady n f ctx d : everywhere bytewise E -> through bytewise f -> steady (p_field_from_stream E m n f ctx d).
Proof.
  intros HE Hf. apply (Q_field E (@steady) bytewise); auto.
  - constructor.
  - intros. apply steady_bind; auto.
  - intros. apply steady_field; auto.
  - intros f0 [H _]. auto.
  - intros. apply do_load_steady; auto.
Qed.

Lemma through_weaken (P Q : field -> Prop) : (forall f, P f -> Q f) -> forall f, through P f -> through Q f.
Proof.
  intros H. fix IH 2. intros f [f0 HP Ha Hu]. constructor; auto.
  - intros comp cnt halt Hk. apply IH. eapply Ha; eauto.
  - intros choices ld dmp Hk g Hg. apply IH. eapply Hu; eauto.
Qed.

Lemma sequential_bytewise f : sequential f -> bytewise f.
Proof. intros [H1 H2]. split; auto. destruct (kind f); auto. Qed.

(** ** Results *)

Hypothesis HE : blind_env E.

Lemma careful_result {A} (p : prog A) l lim s i : same p l s -> careful p ->
  (exists i', run lim true p s i = ((fst (l s), i'), Some (snd (l s))))
  \/ exists x e, is_eof e /\ run lim true p s i = (x, Some (Raise e)).
Proof.
  intros Hs Hc. destruct (careful_run lim p Hc s i) as [(s' & i' & j' & r & E1 & E2)|H]; auto. left.
  destruct (Hs 0%nat) as (j & E3 & _). rewrite E3 in E2. injection E2 as <- _ <-. eauto.
Qed.

Lemma steady_result {A} (p : prog A) l lim s i : same p l s -> steady p ->
  exists i', run lim true p s i = ((fst (l s), i'), Some (snd (l s))).
Proof.
  intros Hs Hc. destruct (steady_run lim true p Hc s i) as (s' & i' & j' & r & E1 & E2).
  destruct (Hs 0%nat) as (j & E3 & _). rewrite E3 in E2. injection E2 as <- _ <-. eauto.
Qed.

Lemma struct_short_reads lim n cid ctx init s i : everywhere not_null E -> (length (s_data s) < m)%nat ->
  let '(s', r) := struct_from_stream E n cid ctx init s in
  (exists i', run lim true (p_struct_from_stream E m n cid ctx init) s i = ((s', i'), Some r))
  \/ exists x e, is_eof e /\ run lim true (p_struct_from_stream E m n cid ctx init) s i = (x, Some (Raise e)).
Proof.
  intros Hn Hm. pose proof (careful_result _ _ lim s i (same_struct_from_stream E m HE n cid ctx init s Hm) (struct_careful n cid ctx init Hn)) as H.
  destruct (struct_from_stream E n cid ctx init s). exact H.
Qed.

Lemma field_short_reads lim n f ctx d s i : everywhere not_null E -> through not_null f -> blind f -> (length (s_data s) < m)%nat ->
  let '(s', r) := field_from_stream E n f ctx d s in
  (exists i', run lim true (p_field_from_stream E m n f ctx d) s i = ((s', i'), Some r))
  \/ exists x e, is_eof e /\ run lim true (p_field_from_stream E m n f ctx d) s i = (x, Some (Raise e)).
Proof.
  intros Hn Hf Hb Hm. pose proof (careful_result _ _ lim s i (same_field_load E m HE n f ctx d s Hb Hm) (field_careful n f ctx d Hn Hf)) as H.
  destruct (field_from_stream E n f ctx d s). exact H.
Qed.

Lemma struct_bytewise lim n cid ctx init s i : everywhere bytewise E -> (length (s_data s) < m)%nat ->
  let '(s', r) := struct_from_stream E n cid ctx init s in
  exists i', run lim true (p_struct_from_stream E m n cid ctx init) s i = ((s', i'), Some r).
Proof.
  intros Hn Hm. pose proof (steady_result _ _ lim s i (same_struct_from_stream E m HE n cid ctx init s Hm) (struct_steady n cid ctx init Hn)) as H.
  destruct (struct_from_stream E n cid ctx init s). exact H.
Qed.

Lemma field_bytewise lim n f ctx d s i : everywhere bytewise E -> through bytewise f -> blind f -> (length (s_data s) < m)%nat ->
  let '(s', r) := field_from_stream E n f ctx d s in
  exists i', run lim true (p_field_from_stream E m n f ctx d) s i = ((s', i'), Some r).
Proof.
  intros Hn Hf Hb Hm. pose proof (steady_result _ _ lim s i (same_field_load E m HE n f ctx d s Hb Hm) (field_steady n f ctx d Hn Hf)) as H.
  destruct (field_from_stream E n f ctx d s). exact H.
Qed.

Lemma struct_sequential lim sk n cid ctx init s i : everywhere sequential E -> (length (s_data s) < m)%nat ->
  let '(s', r) := struct_from_stream E n cid ctx init s in
  exists i', run lim sk (p_struct_from_stream E m n cid ctx init) s i = ((s', i'), Some r).
Proof.
  intros Hn Hm. assert (Hb : everywhere bytewise E).
  { intros c name f Hin. eapply through_weaken; [apply sequential_bytewise|eapply Hn; eauto]. }
  pose proof (struct_bytewise lim n cid ctx init s i Hb Hm) as H.
  destruct (struct_from_stream E n cid ctx init s) as [s' r]. destruct H as (i' & H). exists i'.
  rewrite <- H. apply reads_only_run. apply struct_reads. auto.
Qed.

(** ** Streams that cannot tell *)

Lemma leaf_needs_tell lim n f ctx d s i : needs_tell f -> m <> O -> run lim false (p_do_load E m n f ctx d) s i = ((s, i), None).
Proof.
  intros H Hm. destruct m as [|m']; [contradiction|]. unfold needs_tell in H.
  destruct n; cbn [p_do_load];
    destruct (kind f) as [sg e|fmt mx|fmt e|r tz sg e| |cd pad|cd pad|fmt|comp cnt halt|cid|choices ld dmp]; try contradiction;
    cbn [p_leaf_load]; try (destruct H as (z & ->)); try destruct fmt; reflexivity.
Qed.

Lemma field_needs_tell lim n f ctx d s i : needs_tell f -> m <> O -> run_dict d (c_present (conf f) ctx (Some unseen)) = Ok true ->
  allow_null (conf f) = false -> run lim false (p_field_from_stream E m n f ctx d) s i = ((s, i), None).
Proof.
  intros Hf Hm Hp Hn. unfold p_field_from_stream, p_field_from_stream_with, p_from_stream_with. cbv zeta. rewrite Hp, Hn. cbn [pbind negb].
  rewrite run_bind, run_field, (leaf_needs_tell lim n f ctx d s i Hf Hm). auto.
Qed.

Lemma nullable_needs_tell lim n f ctx d s i nr : run_dict d (c_present (conf f) ctx (Some unseen)) = Ok true ->
  allow_null (conf f) = true -> null_repr (do_dump E n) f d = Ok nr ->
  run lim false (p_field_from_stream E m n f ctx d) s i = ((s, i), None).
Proof.
  intros Hp Hn Hr. unfold p_field_from_stream, p_field_from_stream_with, p_from_stream_with. cbv zeta. rewrite Hp, Hn, Hr. reflexivity.
Qed.

Lemma struct_needs_tell lim n cid ctx init s i name f fs : comps E cid = (name, f) :: fs -> needs_tell f -> m <> O ->
  run_dict init (c_present (conf f) ctx (Some unseen)) = Ok true -> allow_null (conf f) = false ->
  run lim false (p_struct_from_stream E m n cid ctx init) s i = ((s, i), None).
Proof.
  intros Hc Hf Hm Hp Hn. unfold p_struct_from_stream, p_struct_from_stream_with. rewrite run_bind, Hc. cbn [p_load_fields].
  rewrite run_bind. pose proof (field_needs_tell lim n f ctx init s i Hf Hm Hp Hn) as H. unfold p_field_from_stream in H.
  rewrite H. auto.
Qed.

(** ** UUIDs *)

Lemma settled_bind {A B} (r : res A) (k : A -> prog B) : (forall a, exists r', k a = PDone r') -> exists r', pbind (PDone r) k = PDone r'.
Proof. destruct r; cbn; eauto. Qed.

Lemma uuid_load lim sk n f fmt size ctx d s i : kind f = KUuid fmt -> c_size (conf f) = SInt size -> 0 <= size <= zlen (rest s) ->
  allow_null (conf f) = false -> lim i = None -> blind f -> (length (s_data s) < m)%nat ->
  run_dict d (c_present (conf f) ctx (Some unseen)) = Ok true ->
  let '(s', r) := field_from_stream E n f ctx d s in
  run lim sk (p_field_from_stream E m n f ctx d) s i = ((s', S i), Some r) /\ s' = advance s (Z.to_nat size).
Proof.
  intros Hk Hs Hz Hn Hl Hb Hm Hp.
  assert (Hp' : exists k, p_field_from_stream E m n f ctx d = PRead size k
                /\ forall data, zlen data = size -> exists r, k data = PDone r).
  { unfold p_field_from_stream, p_field_from_stream_with, p_from_stream_with. cbv zeta. rewrite Hp, Hn. cbn [pbind negb].
    assert (Hd : exists k, p_do_load E m n f ctx d = PRead size k /\ forall data, zlen data = size -> exists r, k data = PDone r).
    { destruct n; cbn [p_do_load]; rewrite Hk; cbn [p_leaf_load]; rewrite Hs; eexists; (split; [reflexivity|]);
        intros data Hd; cbv beta; rewrite (proj2 (Z.ltb_ge _ _)) by lia;
        (destruct (match fmt with BINARY_VARIANT_1 | BINARY_VARIANT_2 => _ | _ => _ end); [eexists; reflexivity|]);
        apply settled_bind; intros a; eexists; reflexivity. }
    destruct Hd as (k & -> & Hd). eexists. split; [reflexivity|]. intros data Hdata. cbv beta.
    destruct (Hd data Hdata) as (r & ->). destruct r; cbn [pfield]; repeat (apply settled_bind; intros ?); eexists; reflexivity. }
  destruct Hp' as (k & He & Hd).
  pose proof (same_field_load E m HE n f ctx d s Hb Hm i) as (i' & Hr & _). rewrite He in *. cbn [run] in *.
  rewrite Hl, device_read_all. change (unlimited i) with (@None nat) in Hr. rewrite device_read_all in Hr.
  assert (Hlen : zlen (fst (read s size)) = size).
  { unfold read. rewrite (proj2 (Z.ltb_ge _ _)) by lia. cbn [fst]. unfold zlen in *. rewrite firstn_length_le; lia. }
  pose proof (read_advance s size) as Ha. destruct (read s size) as [data s1]. cbn [fst snd] in *.
  destruct (Hd data Hlen) as (r & Hkd). rewrite Hkd in *. cbn [run] in *.
  destruct (field_from_stream E n f ctx d s) as [s' r']. cbn [fst snd] in Hr.
  injection Hr as H1 H2 H3. subst. split; [reflexivity|]. unfold zlen. rewrite Nat2Z.id. reflexivity.
Qed.
End Results.
