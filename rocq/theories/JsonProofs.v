(** Lemmas for C108. *)
From Coq Require Import String Lia List ZArith.
From Verif Require Import Tac.
From Verif Require Export SpecJson.
From Verif Require Import FieldProofs FieldMore ForwardProofs StructProofs ToDictProofs EndsProofs PyIntProofs StreamProofs
  CodecsProofs CanonLeaf CanonProofs LocalProofs HistoryProofs FloatMore FloatCountProofs RebuildProofs.
Import ListNotations.
Open Scope string_scope.
Open Scope list_scope.
Open Scope Z_scope.

(** ** Text *)
Lemma high_iff cp : high_surrogate cp = true <-> 55296 <= cp <= 56319.
Proof. unfold high_surrogate. lia. Qed.
Lemma low_iff cp : low_surrogate cp = true <-> 56320 <= cp <= 57343.
Proof. unfold low_surrogate. lia. Qed.

Lemma pair_nil : ~ split_pair [].
Proof. intros (a & hi & lo & b & H & _). destruct a; discriminate. Qed.

Lemma pair_cons x r : split_pair (x :: r) <->
  (exists lo r', r = lo :: r' /\ 55296 <= x <= 56319 /\ 56320 <= lo <= 57343) \/ split_pair r.
Proof.
  split.
  - intros ([|y a] & hi & lo & b & H & Hh & Hl).
    + injection H as -> ->. left. exists lo, b. auto.
    + injection H as -> ->. right. exists a, hi, lo, b. auto.
  - intros [(lo & r' & -> & Hh & Hl)|(a & hi & lo & b & -> & Hh & Hl)].
    + exists [], x, lo, r'. auto.
    + exists (x :: a), hi, lo, b. auto.
Qed.

Lemma text_step hi r : json_text (hi :: r) =
  match r with
  | lo :: r' => if high_surrogate hi && low_surrogate lo
                then (65536 + (hi - 55296) * 1024 + (lo - 56320)) :: json_text r' else hi :: json_text r
  | [] => [hi]
  end.
Proof. destruct r; reflexivity. Qed.

Lemma text_spec : forall n s, (length s <= n)%nat ->
  (~ split_pair s -> json_text s = s) /\ (split_pair s -> (length (json_text s) < length s)%nat)
  /\ (length (json_text s) <= length s)%nat /\ ~ split_pair (json_text s)
  /\ forall x r, json_text s = x :: r -> 56320 <= x <= 57343 -> exists r', s = x :: r'.
Proof.
  induction n as [|n IH]; intros s Hn.
  - destruct s; [|cbn in Hn; lia]. repeat split; auto using pair_nil; intros; try discriminate. exfalso. eapply pair_nil; eauto.
  - destruct s as [|hi r]; [repeat split; auto using pair_nil; intros; try discriminate; exfalso; eapply pair_nil; eauto|].
    cbn [length] in Hn. rewrite text_step. destruct r as [|lo r'].
    + repeat split; auto.
      * rewrite pair_cons. intros [(lo & r' & H & _)|H]; [discriminate|apply pair_nil in H; contradiction].
      * rewrite pair_cons. intros [(lo & r' & H & _)|H]; [discriminate|apply pair_nil in H; contradiction].
      * intros x r [= -> <-] _. exists []. auto.
    + destruct (high_surrogate hi && low_surrogate lo) eqn:Hp.
      * apply andb_true_iff in Hp as [Hh Hl]. apply high_iff in Hh. apply low_iff in Hl.
        cbn [length] in Hn. destruct (IH r') as (_ & _ & I3 & I4 & _); [lia|].
        repeat split.
        -- intros H. exfalso. apply H. apply pair_cons. left. exists lo, r'. auto.
        -- intros _. cbn [length]. lia.
        -- cbn [length]. lia.
        -- rewrite pair_cons. intros [(lo' & r2 & _ & H & _)|H]; [lia|auto].
        -- intros x r H Hx. apply (f_equal (hd 0)) in H. unfold hd in H. lia.
      * destruct (IH (lo :: r')) as (I1 & I2 & I3 & I4 & I5); [lia|].
        assert (Hno : ~ (55296 <= hi <= 56319 /\ 56320 <= lo <= 57343)).
        { intros [Hh Hl]. apply high_iff in Hh. apply low_iff in Hl. rewrite Hh, Hl in Hp. discriminate. }
        repeat split.
        -- intros H. rewrite I1; auto. intros Hs. apply H. apply pair_cons. auto.
        -- rewrite pair_cons. intros [(lo' & r2 & [= <- <-] & Hh & Hl)|H]; [tauto|]. apply I2 in H. cbn [length] in *. lia.
        -- cbn [length] in *. lia.
        -- rewrite pair_cons. intros [(lo' & r2 & Hr & Hh & Hl)|H]; [|auto].
           destruct (I5 _ _ Hr Hl) as (r3 & [= <- <-]). tauto.
        -- intros x r [= <- _] _. eauto.
Qed.

Lemma text_same s : json_text s = s <-> ~ split_pair s.
Proof.
  destruct (text_spec (length s) s (le_n _)) as (I1 & I2 & _). split; auto.
  intros H Hs. apply I2 in Hs. rewrite H in Hs. lia.
Qed.

Lemma text_settles s : json_text (json_text s) = json_text s.
Proof. apply text_same. apply (text_spec (length s) s (le_n _)). Qed.

(** ** Floats *)
Lemma float_same x : json_float x = x <-> (is_nan double x -> x = 9221120237041090560).
Proof.
  unfold json_float. pose proof (nan_class x) as Hn. destruct (classify binary64 x) eqn:Hc.
  all: try (split; auto; intros _ H; apply Hn in H; discriminate).
  split; [intros H _; auto|]. intros H. symmetry. apply H. apply Hn. auto.
Qed.

Lemma float_settles x : json_float (json_float x) = json_float x.
Proof. unfold json_float. destruct (classify binary64 x) eqn:Hc; rewrite ?Hc; reflexivity. Qed.

(** ** Values *)
Definition json_items := fix go (l : list value) : res (list value) :=
  match l with
  | [] => Ok []
  | x :: l => do x' <- json_round x; do l' <- go l; Ok (x' :: l')
  end.
Definition json_entries := fix go (d : dict) : res dict :=
  match d with
  | [] => Ok []
  | (k, x) :: d => do x' <- json_round x; do d' <- go d; Ok ((k, x') :: d')
  end.
Lemma round_list l : json_round (VList l) = do l' <- json_items l; Ok (VList l').
Proof. reflexivity. Qed.
Lemma round_entries d : json_round (VDict d) = do d' <- json_entries d; Ok (VDict d').
Proof. reflexivity. Qed.

Lemma items_iff l l' : json_items l = Ok l' <-> Forall2 (fun x y => json_round x = Ok y) l l'.
Proof.
  revert l'. induction l as [|x l IH]; intros l'; cbn [json_items].
  - split; [intros [= <-]; auto|]. inversion 1; auto.
  - destruct (json_round x) as [y|e|] eqn:Hx; cbn [bind]; [|split; [discriminate|inversion 1 as [|? ? ? ? H1 H2]; subst; congruence]..].
    destruct (json_items l) as [ys|e|] eqn:Hl; cbn [bind].
    + split.
      * intros [= <-]. constructor; auto. apply IH. auto.
      * inversion 1 as [|? ? ? ? H1 H2]; subst. apply IH in H2. congruence.
    + split; [discriminate|]. inversion 1 as [|? ? ? ? H1 H2]; subst. apply IH in H2. discriminate.
    + split; [discriminate|]. inversion 1 as [|? ? ? ? H1 H2]; subst. apply IH in H2. discriminate.
Qed.

Lemma entries_iff d d' : json_entries d = Ok d' <->
  Forall2 (fun x y => fst x = fst y /\ json_round (snd x) = Ok (snd y)) d d'.
Proof.
  revert d'. induction d as [|[k x] d IH]; intros d'; cbn [json_entries].
  - split; [intros [= <-]; auto|]. inversion 1; auto.
  - destruct (json_round x) as [y|e|] eqn:Hx; cbn [bind].
    2,3: split; [discriminate|inversion 1 as [|? ? ? ? [H1 H2] H3]; cbn [snd] in H2; congruence].
    destruct (json_entries d) as [ys|e|] eqn:Hl; cbn [bind].
    + split.
      * intros [= <-]. constructor; auto. apply IH. auto.
      * inversion 1 as [|? [k' y'] ? ? [H1 H2] H3]; subst. apply IH in H3. cbn [fst snd] in H1, H2. rewrite Hx in H2. injection H2 as <-. injection H3 as <-. subst k'. reflexivity.
    + split; [discriminate|]. inversion 1 as [|? ? ? ? H1 H2]; subst. apply IH in H2. discriminate.
    + split; [discriminate|]. inversion 1 as [|? ? ? ? H1 H2]; subst. apply IH in H2. discriminate.
Qed.

Lemma data_inv R v : json_data R v ->
  match v with
  | VList l => Forall (json_data R) l
  | VDict d => Forall (fun kv => json_data R (snd kv)) d
  | VNone | VInt _ | VFloat _ | VStr _ => R v
  | _ => False
  end.
Proof. intros H. inversion H; subst; auto. destruct v; auto; contradiction. Qed.

Lemma data_mono (R R' : value -> Prop) v : (forall x, R x -> R' x) -> json_data R v -> json_data R' v.
Proof.
  intros HR. induction v as [v Hv|l IH|l IH|d IH|cid d IH] using value_induct; intros H; apply data_inv in H; try contradiction.
  - destruct v; try contradiction; apply json_scalar; auto; exact I.
  - apply json_list. rewrite Forall_forall in *. auto.
  - apply json_dict. rewrite Forall_forall in *. auto.
Qed.

Lemma round_int z : json_round (VInt z) = if Z.abs z <? digit_limit then Ok (VInt z) else Raise EValueErr.
Proof. reflexivity. Qed.

Lemma small_iff z : (Z.abs z <? digit_limit) = true <-> Z.abs z < 10 ^ 4300.
Proof. unfold digit_limit. apply Z.ltb_lt. Qed.

Lemma round_outcome v :
  ((exists w, json_round v = Ok w) <-> json_data writable v)
  /\ (json_round v = Raise ETypeErr -> ~ json_data any_scalar v)
  /\ (forall r, json_round v = r -> match r with Ok _ => True | Raise e => e = ETypeErr \/ e = EValueErr | OOF => False end).
Proof.
  induction v as [v Hv|l IH|l IH|d IH|cid d IH] using value_induct.
  - destruct v; try contradiction; try rewrite round_int.
    all: try (split; [split; [intros [w H]; discriminate|intros H; apply data_inv in H; contradiction]|];
              split; [intros _ H; apply data_inv in H; contradiction|intros r <-; cbn; auto]).
    + split; [split; [intros _; apply json_scalar; [exact I|discriminate]|cbn; eauto]|]. split; [discriminate|intros r <-; cbn; auto].
    + destruct (Z.abs z <? digit_limit) eqn:Hz.
      * split; [split; [intros _; apply json_scalar; [exact I|]|eauto]|split; [discriminate|intros r <-; exact I]].
        intros z' [= <-]. apply small_iff. auto.
      * split; [split; [intros [w Hw]; discriminate|]|split; [discriminate|intros r <-; auto]].
        intros H. apply data_inv in H. specialize (H z eq_refl). apply small_iff in H. congruence.
    + split; [split; [intros _; apply json_scalar; [exact I|discriminate]|cbn; eauto]|]. split; [discriminate|intros r <-; cbn; auto].
    + split; [split; [intros _; apply json_scalar; [exact I|discriminate]|cbn [json_round]; eauto]|]. split; [discriminate|intros r <-; cbn; auto].
  - rewrite round_list.
    assert (HI : ((exists w, json_items l = Ok w) <-> Forall (json_data writable) l)
      /\ (json_items l = Raise ETypeErr -> ~ Forall (json_data any_scalar) l)
      /\ (forall r, json_items l = r -> match r with Ok _ => True | Raise e => e = ETypeErr \/ e = EValueErr | OOF => False end)).
    { induction IH as [|x l (Hx1 & Hx2 & Hx3) _ (I1 & I2 & I3)]; cbn [json_items].
      - split; [split; eauto|]. split; [discriminate|]. intros r <-. exact I.
      - destruct (json_round x) as [y|e|] eqn:Hx; cbn [bind].
        + assert (Hy : json_data writable x) by (apply Hx1; eauto).
          destruct (json_items l) as [ys|e|] eqn:Hl; cbn [bind].
          * split; [split; [intros _; constructor; auto; apply I1; eauto|eauto]|]. split; [discriminate|]. intros r <-. exact I.
          * split; [split; [intros [w Hw]; discriminate|]|].
            { inversion 1; subst. destruct (proj2 I1) as [w Hw]; auto. discriminate. }
            split; [intros He; injection He as ->; inversion 1; subst; apply I2; auto|]. intros r <-. apply (I3 _ eq_refl).
          * destruct (I3 _ eq_refl).
        + split; [split; [intros [w Hw]; discriminate|]|].
          { inversion 1; subst. destruct (proj2 Hx1) as [w Hw]; auto. discriminate. }
          split; [intros He; injection He as ->; inversion 1; subst; apply Hx2; auto|]. intros r <-. apply (Hx3 _ eq_refl).
        + destruct (Hx3 _ eq_refl). }
    destruct HI as (I1 & I2 & I3). destruct (json_items l) as [ys|e|] eqn:Hl; cbn [bind].
    + split; [split; [intros _; apply json_list; apply I1; eauto|eauto]|]. split; [discriminate|intros r <-; exact I].
    + split; [split; [intros [w Hw]; discriminate|]|].
      { intros H. apply data_inv in H. destruct (proj2 I1 H) as [w Hw]. discriminate. }
      split; [intros He; injection He as ->; intros H; apply data_inv in H; apply I2; auto|]. intros r <-. apply (I3 _ eq_refl).
    + destruct (I3 _ eq_refl).
  - split; [split; [intros [w H]; discriminate|intros H; apply data_inv in H; contradiction]|].
    split; [intros _ H; apply data_inv in H; contradiction|intros r <-; cbn; auto].
  - rewrite round_entries.
    assert (HI : ((exists w, json_entries d = Ok w) <-> Forall (fun kv => json_data writable (snd kv)) d)
      /\ (json_entries d = Raise ETypeErr -> ~ Forall (fun kv => json_data any_scalar (snd kv)) d)
      /\ (forall r, json_entries d = r -> match r with Ok _ => True | Raise e => e = ETypeErr \/ e = EValueErr | OOF => False end)).
    { induction IH as [|[k x] l (Hx1 & Hx2 & Hx3) _ (I1 & I2 & I3)]; cbn [json_entries].
      - split; [split; eauto|]. split; [discriminate|]. intros r <-. exact I.
      - cbn [snd] in *. destruct (json_round x) as [y|e|] eqn:Hx; cbn [bind].
        + assert (Hy : json_data writable x) by (apply Hx1; eauto).
          destruct (json_entries l) as [ys|e|] eqn:Hl; cbn [bind].
          * split; [split; [intros _; constructor; auto; apply I1; eauto|eauto]|]. split; [discriminate|]. intros r <-. exact I.
          * split; [split; [intros [w Hw]; discriminate|]|].
            { inversion 1; subst. destruct (proj2 I1) as [w Hw]; auto. discriminate. }
            split; [intros He; injection He as ->; inversion 1; subst; apply I2; auto|]. intros r <-. apply (I3 _ eq_refl).
          * destruct (I3 _ eq_refl).
        + split; [split; [intros [w Hw]; discriminate|]|].
          { inversion 1; subst. destruct (proj2 Hx1) as [w Hw]; auto. discriminate. }
          split; [intros He; injection He as ->; inversion 1; subst; apply Hx2; auto|]. intros r <-. apply (Hx3 _ eq_refl).
        + destruct (Hx3 _ eq_refl). }
    destruct HI as (I1 & I2 & I3). destruct (json_entries d) as [ys|e|] eqn:Hl; cbn [bind].
    + split; [split; [intros _; apply json_dict; apply I1; eauto|eauto]|]. split; [discriminate|intros r <-; exact I].
    + split; [split; [intros [w Hw]; discriminate|]|].
      { intros H. apply data_inv in H. destruct (proj2 I1 H) as [w Hw]. discriminate. }
      split; [intros He; injection He as ->; intros H; apply data_inv in H; apply I2; auto|]. intros r <-. apply (I3 _ eq_refl).
    + destruct (I3 _ eq_refl).
  - split; [split; [intros [w H]; discriminate|intros H; apply data_inv in H; contradiction]|].
    split; [intros _ H; apply data_inv in H; contradiction|intros r <-; cbn; auto].
Qed.

Lemma round_same v : json_round v = Ok v <-> json_data exact_scalar v.
Proof.
  induction v as [v Hv|l IH|l IH|d IH|cid d IH] using value_induct.
  - destruct v; try contradiction; try rewrite round_int.
    all: try (split; [discriminate|intros H; apply data_inv in H; contradiction]).
    + split; [intros _; apply json_scalar; exact I|reflexivity].
    + split.
      * destruct (Z.abs z <? digit_limit) eqn:Hz; [|discriminate]. intros _. apply json_scalar; [exact I|]. apply small_iff. auto.
      * intros H. apply data_inv in H. apply small_iff in H. rewrite H. reflexivity.
    + cbn [json_round]. split.
      * intros H. apply json_scalar; [exact I|]. refine (proj1 (float_same bits) _). congruence.
      * intros H. apply data_inv in H. pose proof (proj2 (float_same bits) H) as H'. congruence.
    + cbn [json_round]. split.
      * intros H. apply json_scalar; [exact I|]. refine (proj1 (text_same cps) _). congruence.
      * intros H. apply data_inv in H. pose proof (proj2 (text_same cps) H) as H'. congruence.
  - rewrite round_list. split.
    + destruct (json_items l) as [ys|e|] eqn:Hl; cbn [bind]; try discriminate. intros [= ->]. apply items_iff in Hl.
      apply json_list. clear - IH Hl. remember l as l0 eqn:Heq in Hl at 2.
      assert (H : forall a b, Forall2 (fun x y => json_round x = Ok y) a b -> a = b ->
        Forall (fun v => json_round v = Ok v <-> json_data exact_scalar v) a -> Forall (json_data exact_scalar) a).
      { induction 1 as [|x y a b Hxy _ IHf]; intros He Ha; constructor; injection He as <- <-; inversion Ha; subst; auto; tauto. }
      eapply H; eauto.
    + intros H. apply data_inv in H. assert (Hi : json_items l = Ok l); [|rewrite Hi; reflexivity].
      apply items_iff. induction IH as [|x l Hx _ IHf]; inversion H; subst; constructor; auto. tauto.
  - split; [discriminate|intros H; apply data_inv in H; contradiction].
  - rewrite round_entries. split.
    + destruct (json_entries d) as [ys|e|] eqn:Hl; cbn [bind]; try discriminate. intros [= ->]. apply entries_iff in Hl.
      apply json_dict.
      assert (H : forall a b : dict, Forall2 (fun x y => fst x = fst y /\ json_round (snd x) = Ok (snd y)) a b -> a = b ->
        Forall (fun kv => json_round (snd kv) = Ok (snd kv) <-> json_data exact_scalar (snd kv)) a -> Forall (fun kv => json_data exact_scalar (snd kv)) a).
      { induction 1 as [|x y a b [_ Hxy] _ IHf]; intros He Ha; constructor; injection He as <- <-; inversion Ha; subst; auto; tauto. }
      eapply H; eauto.
    + intros H. apply data_inv in H. assert (Hi : json_entries d = Ok d); [|rewrite Hi; reflexivity].
      apply entries_iff. induction IH as [|x l Hx _ IHf]; inversion H; subst; constructor; auto. tauto.
  - split; [discriminate|intros H; apply data_inv in H; contradiction].
Qed.

Lemma round_settles v : forall w, json_round v = Ok w -> json_round w = Ok w.
Proof.
  induction v as [v Hv|l IH|l IH|d IH|cid d IH] using value_induct; intros w H.
  - destruct v; try contradiction; try rewrite round_int in H; try discriminate.
    + injection H as <-. reflexivity.
    + destruct (Z.abs z <? digit_limit) eqn:Hz; [|discriminate]. injection H as <-. rewrite round_int, Hz. reflexivity.
    + injection H as <-. cbn [json_round]. rewrite float_settles. reflexivity.
    + injection H as <-. cbn [json_round]. rewrite text_settles. reflexivity.
  - rewrite round_list in H. destruct (json_items l) as [ys|e|] eqn:Hl; try discriminate. injection H as <-. rewrite round_list.
    assert (Hi : json_items ys = Ok ys); [|rewrite Hi; reflexivity]. apply items_iff in Hl. apply items_iff.
    induction Hl; inversion IH; subst; constructor; auto.
  - discriminate.
  - rewrite round_entries in H. destruct (json_entries d) as [ys|e|] eqn:Hl; try discriminate. injection H as <-. rewrite round_entries.
    assert (Hi : json_entries ys = Ok ys); [|rewrite Hi; reflexivity]. apply entries_iff in Hl. apply entries_iff.
    induction Hl as [|x y a b [H1 H2] _ IHf]; inversion IH; subst; constructor; auto.
  - discriminate.
Qed.

(** The same keys in the same order. *)
Lemma round_keys d w : json_round (VDict d) = Ok w -> exists d', w = VDict d' /\ dkeys d' = dkeys d.
Proof.
  rewrite round_entries. destruct (json_entries d) as [ys|e|] eqn:Hl; try discriminate. intros [= <-]. exists ys. split; auto.
  apply entries_iff in Hl. unfold dkeys. induction Hl as [|x y a b [H1 H2] _ IHf]; cbn [map]; auto. congruence.
Qed.

(** ** Loading *)
Lemma from_stream_cases nr dl eqv c ctx d s s' v : unconditional c ->
  from_stream_with nr dl eqv c ctx d s = (s', Ok v) -> v = VNone \/ exists s0, forward s s0 /\ dl s0 = (s', Ok v).
Proof.
  intros Hu.
  set (lv := ldo v <- (fun s => match dl s with
                       | (s', Raise e) => (s', Raise (set_field (c_name c) e))
                       | x => x
                       end);
    ldo v <- llift (if allow_null c then
                      do b <- eqv v (c_null c); Ok (if b then VNone else v)
                    else Ok v);
    ldo _ <- llift (if negb (is_undefined (c_const c)) then
                      do b <- eqv v (c_const c);
                      if b then Ok tt else Raise (EValidation (c_name c))
                    else Ok tt);
    ldo _ <- llift (run_validators (c_validators c) v);
    lret v).
  assert (Hlv : forall s, lv s = (s', Ok v) -> v = VNone \/ dl s = (s', Ok v)).
  { intros s0 H. unfold lv, lbind, llift, lret in H. destruct (dl s0) as [s1 [a|e|]]; try discriminate.
    destruct (allow_null c).
    - destruct (eqv a (c_null c)) as [[|]|e|]; cbn [bind] in H; try discriminate.
      + destruct (if negb (is_undefined (c_const c)) then _ else _) as [[]|e|]; try discriminate.
        destruct (run_validators (c_validators c) VNone); try discriminate. injection H as _ <-. auto.
      + destruct (if negb (is_undefined (c_const c)) then _ else _) as [[]|e|]; try discriminate.
        destruct (run_validators (c_validators c) a); try discriminate. injection H as <- <-. auto.
    - destruct (if negb (is_undefined (c_const c)) then _ else _) as [[]|e|]; try discriminate.
      destruct (run_validators (c_validators c) a); try discriminate. injection H as <- <-. auto. }
  intros H. unfold from_stream_with in H. cbv zeta in H. fold lv in H. clearbody lv.
  unfold run_dict in H. rewrite Hu in H.
  assert (Hs : forall s0, forward s s0 -> lv s0 = (s', Ok v) -> v = VNone \/ exists s0, forward s s0 /\ dl s0 = (s', Ok v)).
  { intros s0 Hf Hv. destruct (Hlv _ Hv); eauto. }
  destruct (allow_null c); [|apply (Hs s); auto using forward_refl].
  destruct nr as [nb|e|]; try discriminate.
  - unfold peek_bytes in H. destruct (read s (zlen nb)) as [data s1] eqn:Hr. cbn [negb andb] in H.
    destruct (bytes_eqb data nb) eqn:Hb; [|apply (Hs s); auto using forward_refl].
    destruct (run_validators (c_validators c) VNone); try discriminate. injection H as _ <-. auto.
  - destruct (is_UnserializableValueError e); try discriminate.
    destruct (is_default (c_null c)); try discriminate. apply (Hs s); auto using forward_refl.
Qed.

Lemma ready_none (R : value -> Prop) (Q : nat -> Prop) : R VNone -> json_ready R Q VNone.
Proof. intros H. apply ready_scalar; auto. Qed.

Section Loading.
Variable E : env.
Variable R : value -> Prop.
Variable L : fconf -> fkind -> Prop.
Variable Q : nat -> Prop.
Hypothesis R_none : R VNone.
Hypothesis HL : forall c k g g0 s s' v, match k with KArray _ _ _ | KNested _ | KUnion _ _ _ => False | _ => True end ->
  L c k -> bytes_ok (rest s) -> leaf_load c k g g0 s = (s', Ok v) -> json_ready R Q v.
Hypothesis HC : json_classes E R L Q.

Lemma array_ready halt load1 : (forall s values b l, halt s values = Ok (b, l) -> incl l values) ->
  (forall s s' v, bytes_ok (rest s) -> load1 s = (s', Ok v) -> json_ready R Q v /\ forward s s') ->
  forall fuel values s s' v, bytes_ok (rest s) -> Forall (json_ready R Q) values ->
  array_load fuel halt load1 values s = (s', Ok v) -> json_ready R Q v.
Proof.
  intros Hh H1 fuel. induction fuel as [|fuel IH]; intros values s s' v Hb Hv H; [discriminate|]. cbn [array_load] in H.
  destruct (halt s values) as [[b l]|e|] eqn:He; try discriminate. apply Hh in He.
  assert (Hl : Forall (json_ready R Q) l) by (rewrite Forall_forall in *; auto).
  destruct b; [injection H as _ <-; apply ready_list; auto|].
  destruct (load1 s) as [s1 [w|e|]] eqn:Hs; try discriminate. destruct (H1 _ _ _ Hb Hs) as [Hw Hf].
  eapply IH; [| |exact H]; [eapply bytes_forward; eauto|].
  destruct (is_not_present w); auto. apply Forall_app. auto.
Qed.

Definition loads_ready (n : nat) : Prop := forall f ctx d s s' v, json_field L Q f -> bytes_ok (rest s) ->
  do_load E n f ctx d s = (s', Ok v) -> json_ready R Q v.

Lemma field_ready n : loads_ready n -> forall f ctx d s s' v, json_field L Q f -> unconditional (conf f) -> bytes_ok (rest s) ->
  field_from_stream E n f ctx d s = (s', Ok v) -> json_ready R Q v.
Proof.
  intros IH f ctx d s s' v Hf Hu Hb H. unfold field_from_stream, field_from_stream_with in H.
  apply from_stream_cases in H; auto. destruct H as [->|(s0 & Hs & H)]; [apply ready_none; auto|].
  eapply IH; [|eapply bytes_forward|]; eauto.
Qed.

Lemma struct_ready n : loads_ready n -> forall cid ctx s s' vals, Q cid -> bytes_ok (rest s) ->
  struct_from_stream E n cid ctx [] s = (s', Ok vals) -> Forall (fun kv => json_ready R Q (snd kv)) vals.
Proof.
  intros IH cid ctx s s' vals Hq Hb H. destruct (HC cid Hq) as [Hwf Hfs].
  apply struct_load_iff in H; auto; [|constructor]. destruct H as (d & Hl & _ & _ & ->).
  assert (Hgen : forall fs d0 s d s', loads E n ctx fs d0 s d s' -> bytes_ok (rest s) -> incl fs (k_comps (cls E cid)) ->
    (forall k v, In (k, v) d0 -> discarded (k_comps (cls E cid)) k = false -> json_ready R Q v) ->
    forall k v, In (k, v) d -> discarded (k_comps (cls E cid)) k = false -> json_ready R Q v).
  { clear - IH Hwf Hfs HL R_none. induction 1 as [d s|name f fs d s w s1 d' s' Hv Hl IHl]; intros Hb Hi Hd; auto.
    apply IHl.
    - eapply bytes_forward; [eapply field_load_forward; exact Hv|auto].
    - intros x Hx. apply Hi. right. auto.
    - intros k v Hin Hk. destruct (dmem d name); [eapply Hd; eauto|].
      apply in_app_or in Hin. destruct Hin as [Hin|[Hin|[]]]; [eapply Hd; eauto|]. injection Hin as <- <-.
      assert (Hc : In (name, f) (k_comps (cls E cid))) by (apply Hi; left; auto).
      destruct (Hfs _ _ Hc) as (Hu & _ & Hj).
      rewrite (discarded_iff _ _ _ (well_formed_bound _ Hwf) Hc) in Hk.
      eapply field_ready; eauto. }
  specialize (Hgen _ _ _ _ _ Hl Hb (incl_refl _)). rewrite Forall_forall. intros [k v] Hin. apply filter_In in Hin as [Hin Hk].
  cbn [fst snd] in *. apply (Hgen (fun _ _ F => match F with end) k v Hin). apply negb_true_iff. auto.
Qed.

Lemma load_ready : forall n, loads_ready n.
Proof.
  induction n as [|n IH]; intros f ctx d s s' v Hf Hb H.
  - inversion Hf; subst; cbn [do_load kind] in H; try discriminate.
    destruct k; try contradiction; eapply HL; eauto; exact I.
  - inversion Hf as [c k Hk Hl|c comp cnt halt Hc Hu Hh|c cid Hq|c choices ld dmp Hg Hq]; subst; cbn [do_load kind] in H.
    + destruct k; try contradiction; eapply HL; eauto; exact I.
    + eapply (array_ready (array_halt cnt halt (name_of (Field c (KArray comp cnt halt))) ctx d)); [| |exact Hb| |exact H]; [| |constructor].
      * intros s0 values b l He. unfold array_halt in He. destruct halt as [h|]; [exact (Hh h s0 values ctx d b l eq_refl He)|].
        destruct (should_halt cnt _ s0 values d); cbn [bind] in He; try discriminate. injection He as _ <-. apply incl_refl.
      * intros s0 s1 w Hb0 Hw. split; [eapply field_ready; eauto|].
        eapply field_load_forward. exact Hw.
    + unfold lbind, lret in H.
      destruct (struct_from_stream_with E (do_load E n) n cid ctx [] s) as [s1 [vals|e|]] eqn:Hs; try discriminate.
      injection H as _ <-. apply ready_struct; auto. eapply struct_ready; eauto.
    + destruct (ld s ctx d) as [i|e|]; try discriminate.
      destruct (nth_error choices i) as [[g|cid]|] eqn:Hn; try discriminate; apply nth_error_In in Hn.
      * apply (IH g ctx d s s' v (Hg g Hn) Hb H).
      * unfold lbind, lret in H.
        destruct (struct_from_stream_with E (do_load E n) n cid ctx [] s) as [s1 [vals|e|]] eqn:Hs; try discriminate.
        injection H as _ <-. apply ready_struct; auto. eapply struct_ready; eauto.
Qed.

(** ** to_dict *)
Lemma supplied c ctx mem get keys v : unconditional c -> supplies (json_ready R Q) c ->
  (forall x a, get x = Ok a -> json_ready R Q a) ->
  run_q mem get keys (compute_value_for_dump c ctx) = Ok v -> json_ready R Q v.
Proof.
  intros Hu (Hd & Hf & Hc) Hg. unfold compute_value_for_dump. rewrite run_qbind.
  destruct (run_q mem get keys (stored_or_fallback c)) as [w|e|] eqn:Hs; try discriminate.
  assert (Hw : w = VUndefined \/ json_ready R Q w).
  { assert (Hb : run_q mem get keys (fallback_value c) = Ok w -> w = VUndefined \/ json_ready R Q w).
    { unfold fallback_value, default_query. destruct (is_undefined (c_default c)); cbn [negb].
      - destruct (c_compute c) as [q|]; [|intros [= <-]; auto].
        intros Hq. right. eapply (run_q_returns (json_ready R Q) q); eauto.
      - destruct (c_factory c) as [[u|e]|]; cbn [run_q]; intros [= <-]; auto. }
    unfold stored_or_fallback in Hs. destruct (c_name c) as [nm|]; auto. cbn [run_q] in Hs.
    destruct (mem nm); auto. cbn [run_q] in Hs. destruct (get nm) as [u|e|] eqn:Hu'; try discriminate.
    cbn [run_q] in Hs. injection Hs as <-. eauto. }
  assert (Hnp : is_not_present w = false).
  { destruct Hw as [->|Hw]; auto. inversion Hw; subst; auto. destruct w; auto; contradiction. }
  rewrite Hnp, run_qbind, Hu. cbn [negb]. destruct Hw as [->|Hw]; [discriminate|].
  destruct (is_undefined w); cbn [run_q]; [discriminate|]. intros [= <-]. auto.
Qed.

Lemma get_ready n : forall cid vals name v, Q cid -> Forall (fun kv => json_ready R Q (snd kv)) vals ->
  struct_get E n cid vals name = Ok v -> json_ready R Q v.
Proof.
  induction n as [|n IH]; intros cid vals name v Hq Hv; cbn [struct_get];
    (destruct (assoc (comps E cid) name) as [f|] eqn:Ha; [|discriminate]);
    (destruct (oget vals (name_of f)) as [w|] eqn:Ho;
     [intros [= <-]; unfold oget in Ho; destruct (name_of f) as [nm|]; [|discriminate]; eapply (forall_dget (json_ready R Q)); eauto|]); [discriminate|].
  apply assoc_in in Ha. destruct (HC cid Hq) as [_ Hfs]. destruct (Hfs _ _ Ha) as (Hu & Hs & _).
  apply supplied; auto. intros x a. apply IH; auto.
Qed.

Lemma possible_ready n cid vals fs : Q cid -> Forall (fun kv => json_ready R Q (snd kv)) vals -> incl fs (comps E cid) ->
  forall dct d, Forall (fun kv => json_ready R Q (snd kv)) dct -> possible_values E n cid vals fs dct = Ok d ->
  Forall (fun kv => json_ready R Q (snd kv)) d.
Proof.
  intros Hq Hv. induction fs as [|[nm f] fs IH]; intros Hi dct d Hd H; cbn [possible_values] in H; [injection H as <-; auto|].
  assert (Hi' : incl fs (comps E cid)) by (intros x Hx; apply Hi; right; auto).
  destruct (run_struct E n cid vals (compute_value_for_dump (conf f) VNone)) as [v|e|] eqn:Hr; try discriminate.
  - eapply IH; [auto| |exact H]. apply forall_dset; auto. destruct (HC cid Hq) as [_ Hfs].
    destruct (Hfs nm f (Hi _ (or_introl eq_refl))) as (Hu & Hs & _). unfold run_struct in Hr.
    eapply supplied; [exact Hu|exact Hs| |exact Hr]. intros x a. apply get_ready; auto.
  - destruct (is_binobj_Error e); try discriminate. eapply IH; eauto.
Qed.

Lemma raw_ready n cid vals w u r keep : Q cid -> Forall (fun kv => json_ready R Q (snd kv)) vals ->
  to_dict_whatever_possible E n cid vals = Ok w -> missing_values (comps E cid) w = Ok u ->
  (if keep : bool then Ok (dupdate w u) else drop_discard (comps E cid) (dupdate w u)) = Ok r ->
  Forall (fun kv => json_ready R Q (snd kv)) r.
Proof.
  intros Hq Hv Hw Hu Hr.
  assert (Hw' : Forall (fun kv => json_ready R Q (snd kv)) w).
  { unfold to_dict_whatever_possible in Hw.
    destruct (possible_values E n cid vals (comps E cid) []) as [dct|e|] eqn:Hp; try discriminate. cbn [bind] in Hw.
    pose proof (possible_ready n cid vals (comps E cid) Hq Hv (incl_refl _) [] dct (Forall_nil _) Hp) as Hp'. clear Hp. rename Hp' into Hp.
    destruct (mapM _ (struct_keys vals)) as [first|e|] eqn:Hm; try discriminate. cbn [bind] in Hw. injection Hw as <-.
    apply Forall_app. split.
    - apply mapM_iff in Hm. clear - Hm Hp Hq Hv HC R_none. induction Hm as [|k kv ks kvs Hk _ IHm]; constructor; auto.
      destruct (dget dct k) as [v|] eqn:Hg; [injection Hk as <-; exact (forall_dget (json_ready R Q) dct k v Hp Hg)|].
      destruct (struct_get E n cid vals k) as [v|e|] eqn:Hs; try discriminate. injection Hk as <-. cbn [snd].
      exact (get_ready n cid vals k v Hq Hv Hs).
    - rewrite Forall_forall in *. intros x Hx. apply filter_In in Hx as [Hx _]. auto. }
  assert (Hu' : Forall (fun kv => json_ready R Q (snd kv)) u).
  { unfold missing_values in Hu. apply mapM_iff in Hu.
    assert (Hi : incl (filter (fun nf : string * field => negb (dmem w (cname (snd nf)))) (comps E cid)) (comps E cid)).
    { intros x Hx. apply filter_In in Hx. tauto. }
    revert Hi. generalize dependent (filter (fun nf : string * field => negb (dmem w (cname (snd nf)))) (comps E cid)).
    intros fs Hm. clear - Hm Hw' Hq HC R_none. induction Hm as [|[nm f] kv fs kvs Hk _ IHm]; intros Hi; constructor.
    - cbn [snd] in Hk. destruct (run_dict w (compute_value_for_dump (conf f) VNone)) as [v|e|] eqn:Hr; try discriminate.
      injection Hk as <-. cbn [snd]. destruct (HC cid Hq) as [_ Hfs].
      destruct (Hfs nm f (Hi _ (or_introl eq_refl))) as (Hu & Hs & _). unfold run_dict in Hr.
      eapply supplied; [exact Hu|exact Hs| |exact Hr]. intros x a Hx. unfold dget_res in Hx.
      destruct (dget w x) eqn:Hg; [injection Hx as <-|discriminate]. eapply (forall_dget (json_ready R Q)); eauto.
    - apply IHm. intros x Hx. apply Hi. right. auto. }
  pose proof (forall_dupdate (json_ready R Q) u w Hw' Hu') as Hall. destruct keep; [injection Hr as <-; auto|].
  destruct (HC cid Hq) as [Hwf _].
  generalize dependent (dupdate w u). clear - R_none. intros d0. revert d0. generalize (comps E cid).
  induction l as [|[nm f] fs IH]; intros d0 Hr Hall; cbn [drop_discard] in Hr; [injection Hr as <-; auto|].
  destruct (c_discard (conf f)); [|eapply IH; eauto].
  destruct (dmem d0 (cname f)); try discriminate. eapply IH; [exact Hr|].
  clear - Hall. induction Hall as [|[k w] d0 Hw Hd IHd]; cbn [ddel]; auto. destruct (String.eqb k (cname f)); auto.
Qed.

Lemma recursive_json n : forall v w, json_ready R Q v -> recursive_to_dicts E n v = Ok w -> json_data R w.
Proof.
  induction n as [|n IH]; intros v w Hv H; [discriminate|].
  assert (Hd : forall d d', Forall (fun kv => json_ready R Q (snd kv)) d -> mapM (fun kv : string * value =>
      do v <- recursive_to_dicts E n (snd kv); Ok (fst kv, v)) d = Ok d' ->
      Forall (fun kv => json_data R (snd kv)) d').
  { intros d d' Hr Hm. apply mapM_iff in Hm. induction Hm as [|kv kv' d d' Hk _ IHm]; inversion Hr; subst; constructor; auto.
    destruct (recursive_to_dicts E n (snd kv)) as [u|e|] eqn:Hw; try discriminate.
    injection Hk as <-. cbn [snd]. eauto. }
  inversion Hv as [v0 Hs HR|l Hl|d Hl|cid d Hq Hl]; subst; cbn [recursive_to_dicts] in H.
  - destruct v; try contradiction; injection H as <-; apply json_scalar; auto; exact I.
  - destruct (mapM (recursive_to_dicts E n) l) as [l'|e|] eqn:Hm; try discriminate.
    injection H as <-. apply json_list. apply mapM_iff in Hm. clear - Hm Hl IH.
    induction Hm; inversion Hl; subst; constructor; eauto.
  - destruct (mapM _ d) as [d'|e|] eqn:Hm; try discriminate. injection H as <-. apply json_dict. eauto.
  - destruct (to_dict_whatever_possible E n cid d) as [w0|e|] eqn:Hw; try discriminate. cbn [bind] in H.
    destruct (missing_values (comps E cid) w0) as [u|e|] eqn:Hu; try discriminate. cbn [bind] in H.
    destruct (drop_discard (comps E cid) (dupdate w0 u)) as [r|e|] eqn:Hr; try discriminate. cbn [bind] in H.
    destruct (mapM _ r) as [d'|e|] eqn:Hm; try discriminate. injection H as <-. apply json_dict.
    eapply Hd; [|exact Hm]. eapply (raw_ready n cid d w0 u r false); eauto.
Qed.

Lemma instance_json n cid vals keep d : Q cid -> Forall (fun kv => json_ready R Q (snd kv)) vals ->
  to_dict E n cid vals keep = Ok d -> json_data R (VDict d).
Proof.
  intros Hq Hv H. unfold to_dict in H.
  destruct (to_dict_whatever_possible E n cid vals) as [w0|e|] eqn:Hw; try discriminate. cbn [bind] in H.
  destruct (missing_values (comps E cid) w0) as [u|e|] eqn:Hu; try discriminate. cbn [bind] in H.
  destruct (if keep then Ok (dupdate w0 u) else drop_discard (comps E cid) (dupdate w0 u)) as [r|e|] eqn:Hr; try discriminate.
  cbn [bind] in H. pose proof (raw_ready _ _ _ _ _ _ _ Hq Hv Hw Hu Hr) as Hall. unfold dicts_of in H. apply mapM_iff in H.
  apply json_dict. clear - H Hall HC R_none. induction H as [|kv kv' a b Hk _ IHm]; inversion Hall; subst; constructor; auto.
  destruct (recursive_to_dicts E n (snd kv)) as [x|e|] eqn:Hx; try discriminate.
  injection Hk as <-. cbn [snd]. eapply recursive_json; eauto.
Qed.

Lemma loaded_json n m cid ctx s s' vals keep d : Q cid -> bytes_ok (rest s) ->
  struct_from_stream E n cid ctx [] s = (s', Ok vals) -> to_dict E m cid vals keep = Ok d -> json_data R (VDict d).
Proof. intros Hq Hb H. apply instance_json; auto. eapply struct_ready; eauto. apply load_ready. Qed.
End Loading.

(** ** The three kinds of leaves *)
Lemma text_leaf cd pad c g g0 s s' v : leaf_load c (KString cd pad) g g0 s = (s', Ok v) \/ leaf_load c (KStringZ cd pad) g g0 s = (s', Ok v) ->
  exists t, v = VStr t.
Proof.
  intros [H|H]; cbn [leaf_load] in H.
  - unfold lbind, lret, llift in H. destruct (read_exact_size c g s) as [s1 [b|?|]]; try discriminate.
    destruct (decode cd b); try discriminate. injection H as _ <-. eauto.
  - assert (Hz : forall fuel nm cd mx nr buf acc s s',
      stringz_loop fuel nm cd mx nr buf acc s = (s', Ok v) -> exists t, v = VStr t).
    { clear. induction fuel as [|fuel IH]; intros nm cd mx nr buf acc s s' H; [discriminate|].
      cbn [stringz_loop] in H. destruct (iter_next mx nr s) as [[b s1]|].
      - destruct (dec_step cd (buf ++ [b])) as [cp| | |cd'|]; try discriminate; eauto.
        destruct (cp =? 0); eauto. injection H as _ <-. eauto.
      - destruct (forgiven cd buf); discriminate. }
    destruct g as [m|x|]; try discriminate; eauto.
    destruct (is_UndefinedSizeError x); try discriminate; eauto.
Qed.

Lemma int_leaf c sg e g g0 s s' v : leaf_load c (KInt sg e) g g0 s = (s', Ok v) ->
  exists n z, c_size c = SInt n /\ v = VInt z /\ read_int n sg e s = (s', Ok z).
Proof.
  cbn [leaf_load]. unfold lbind, lret, lraise. intros H. destruct (c_size c) as [|n|x]; try discriminate.
  destruct (read_int n sg e s) as [s1 [z|y|]] eqn:Hr; try discriminate. injection H as <- <-. exists n, z. auto.
Qed.

Lemma float_leaf c fmt e g g0 s s' v : leaf_load c (KFloat fmt e) g g0 s = (s', Ok v) -> exists x, v = VFloat x.
Proof.
  cbn [leaf_load]. unfold lbind, lret, llift, lraise. intros H.
  destruct (read_exact_size c g0 s) as [s1 [b|?|]]; try discriminate.
  destruct (zlen b =? ff_bytes fmt); try discriminate. injection H as _ <-. eauto.
Qed.

Lemma power_limit : 2 ^ (8 * 1785) <= 10 ^ 4300.
Proof. apply Z.leb_le. vm_compute. reflexivity. Qed.

Lemma int_small n sg e s s' z : 0 <= n <= 1785 -> bytes_ok (rest s) -> read_int n sg e s = (s', Ok z) -> Z.abs z < 10 ^ 4300.
Proof.
  intros Hn Hb H. unfold read_int in H. destruct (read s n) as [data s2] eqn:Hr.
  destruct (zlen data <? n) eqn:Hl; try discriminate. injection H as <- <-.
  destruct (read_full _ _ _ _ (proj1 Hn) Hr Hl) as (Hz & suf & Hs & _).
  rewrite Hs in Hb. apply bytes_ok_app in Hb. destruct Hb as [Hb _].
  pose proof (py_from_bytes_fits data e sg Hb) as Hf. rewrite Hz in Hf.
  assert (Hp : 2 ^ (8 * n) <= 2 ^ (8 * 1785)) by (apply Z.pow_le_mono_r; lia).
  pose proof power_limit as Hq. assert (Hpos : 0 < 2 ^ (8 * n)) by (apply Z.pow_pos_nonneg; lia).
  generalize dependent (10 ^ 4300). generalize dependent (2 ^ (8 * 1785)).
  unfold fits in Hf. generalize dependent (2 ^ (8 * n)). intros P Hf Hpos P' H1 P'' H2.
  destruct sg; lia.
Qed.

Lemma leaf_any (Q : nat -> Prop) c k g g0 s s' v : match k with KArray _ _ _ | KNested _ | KUnion _ _ _ => False | _ => True end ->
  numbers_and_text c k -> bytes_ok (rest s) -> leaf_load c k g g0 s = (s', Ok v) -> json_ready any_scalar Q v.
Proof.
  intros _ Hk _ H. destruct k; try contradiction.
  - apply int_leaf in H. destruct H as (n & z & _ & -> & _). apply ready_scalar; exact I.
  - cbn [leaf_load] in H. unfold lbind, lret in H. destruct (vli_decode fmt s) as [s1 [z|?|]]; try discriminate.
    injection H as _ <-. apply ready_scalar; exact I.
  - apply float_leaf in H. destruct H as [x ->]. apply ready_scalar; exact I.
  - edestruct text_leaf as [t ->]; [left; exact H|]. apply ready_scalar; exact I.
  - edestruct text_leaf as [t ->]; [right; exact H|]. apply ready_scalar; exact I.
Qed.

Lemma leaf_writable (Q : nat -> Prop) c k g g0 s s' v : match k with KArray _ _ _ | KNested _ | KUnion _ _ _ => False | _ => True end ->
  limited_numbers c k -> bytes_ok (rest s) -> leaf_load c k g g0 s = (s', Ok v) -> json_ready writable Q v.
Proof.
  intros _ Hk Hb H. destruct k; try contradiction.
  - apply int_leaf in H. destruct H as (n & z & Hn & -> & Hr). destruct Hk as (n' & Hn' & Hlim). rewrite Hn in Hn'. injection Hn' as <-.
    apply ready_scalar; [exact I|]. intros z' [= <-]. eapply int_small; eauto.
  - apply float_leaf in H. destruct H as [x ->]. apply ready_scalar; [exact I|discriminate].
  - edestruct text_leaf as [t ->]; [left; exact H|]. apply ready_scalar; [exact I|discriminate].
  - edestruct text_leaf as [t ->]; [right; exact H|]. apply ready_scalar; [exact I|discriminate].
Qed.

Definition plain_char (cp : Z) : Prop := ~ (55296 <= cp <= 57343).

Lemma plain_unsplit s : Forall plain_char s -> ~ split_pair s.
Proof.
  intros H (a & hi & lo & b & -> & Hh & _). apply Forall_app in H as [_ H]. inversion H as [|? ? H1 _]; subst. unfold plain_char in H1. lia.
Qed.

Lemma utf8_plain buf cp : bytes_ok buf -> dec_utf8 buf = DChar cp -> plain_char cp.
Proof.
  intros Hb H. apply utf8_canonical in H; auto. unfold utf8_char in H. destruct (is_scalar cp) eqn:Hs; [|discriminate].
  apply is_scalar_iff in Hs. unfold plain_char. tauto.
Qed.

Lemma utf16_plain e buf cp : dec_utf16 e buf = DChar cp -> plain_char cp.
Proof.
  unfold plain_char. destruct buf as [|b0 [|b1 [|b2 [|b3 [|b4 r]]]]]; cbn [dec_utf16]; try discriminate; cbv zeta.
  - generalize (le_value (order e [b0; b1])). intros u.
    destruct ((55296 <=? u) && (u <=? 56319)) eqn:H1; [discriminate|].
    destruct ((56320 <=? u) && (u <=? 57343)) eqn:H2; [discriminate|]. intros [= <-]. lia.
  - generalize (le_value (order e [b0; b1])) (le_value (order e [b2; b3])). intros u u'.
    destruct (_ && _) eqn:H1; [|discriminate]. intros H. apply (f_equal (fun r => match r with DChar x => x | _ => 0 end)) in H. cbv beta iota in H. lia.
Qed.

Lemma utf32_plain e buf cp : dec_utf32 e buf = DChar cp -> plain_char cp.
Proof.
  unfold plain_char. destruct buf as [|b0 [|b1 [|b2 [|b3 [|b4 r]]]]]; cbn [dec_utf32]; try discriminate; cbv zeta.
  generalize (le_value (order e [b0; b1; b2; b3])). intros u. destruct (is_scalar u) eqn:Hs; [|discriminate].
  intros [= <-]. apply is_scalar_iff in Hs. tauto.
Qed.

Lemma byte_plain b : byte_ok b -> plain_char b.
Proof. unfold byte_ok, plain_char. lia. Qed.

Lemma step_plain cd buf : no_surrogates cd -> bytes_ok buf ->
  match dec_step cd buf with DChar cp => plain_char cp | DBom cd' => no_surrogates cd' | _ => True end.
Proof.
  intros Hc Hb. destruct cd; cbn [dec_step].
  - destruct buf as [|b [|b' r]]; auto. destruct (b <? 128); auto. apply byte_plain. inversion Hb; auto.
  - destruct buf as [|b [|b' r]]; auto. apply byte_plain. inversion Hb; auto.
  - destruct (dec_utf8 buf) eqn:H; auto; [eapply utf8_plain; eauto|]. pose proof (LoadProofs.dec_utf8_marks buf) as Hm. rewrite H in Hm. contradiction.
  - destruct (dec_utf16 e buf) eqn:H; auto; [eapply utf16_plain; eauto|]. pose proof (LoadProofs.dec_utf16_marks e buf) as Hm. rewrite H in Hm. contradiction.
  - destruct (dec_utf32 e buf) eqn:H; auto; [eapply utf32_plain; eauto|]. pose proof (LoadProofs.dec_utf32_marks e buf) as Hm. rewrite H in Hm. contradiction.
  - destruct buf as [|b [|b' r]]; auto. destruct (page_char t b) as [cp|] eqn:H; auto. unfold page_char in H.
    destruct (b =? 0); [injection H as <-; unfold plain_char; lia|]. destruct (_ && _); [|discriminate].
    assert (Hin : In (Some cp) t); [|exact (Hc cp Hin)].
    destruct (Nat.ltb_spec (Z.to_nat (b - 1)) (length t)); [rewrite <- H; apply nth_In; auto|].
    rewrite nth_overflow in H by auto. discriminate.
  - destruct (bytes_eqb buf _); [exact I|]. destruct (dec_utf8 buf) eqn:H; auto; [eapply utf8_plain; eauto|].
    pose proof (LoadProofs.dec_utf8_marks buf) as Hm. rewrite H in Hm. contradiction.
  - destruct (bytes_eqb buf _); [exact I|]. destruct (bytes_eqb buf _); [exact I|].
    pose proof (LoadProofs.dec_utf16_marks native buf) as Hm. destruct (dec_utf16 native buf); try contradiction; exact I.
  - destruct (bytes_eqb buf _); [exact I|]. destruct (bytes_eqb buf _); [exact I|].
    pose proof (LoadProofs.dec_utf32_marks native buf) as Hm. destruct (dec_utf32 native buf); try contradiction; exact I.
Qed.

Lemma from_plain cd bs : no_surrogates cd -> bytes_ok bs -> forall buf t, bytes_ok buf -> decode_from cd buf bs = Ok t -> Forall plain_char t.
Proof.
  intros Hc Hb. induction Hb as [|b bs Hb1 Hb IH]; intros buf t Hbuf H; cbn [decode_from] in H.
  - destruct buf; [injection H as <-; constructor|discriminate].
  - assert (Hbb : bytes_ok (buf ++ [b])) by (apply Forall_app; auto).
    pose proof (step_plain cd (buf ++ [b]) Hc Hbb) as Hs. destruct (dec_step cd (buf ++ [b])) as [cp| | |cd'|]; try discriminate.
    + destruct (decode_from cd [] bs) as [s|e|] eqn:Hd; try discriminate. injection H as <-. constructor; auto. apply (IH [] s); auto. constructor.
    + eapply IH; [exact Hbb|exact H].
Qed.

Lemma skipn_ok n bs : bytes_ok bs -> bytes_ok (skipn n bs).
Proof. intros H. rewrite <- (firstn_skipn n bs) in H. apply Forall_app in H. tauto. Qed.

Lemma strip_plain cd bs : no_surrogates cd -> bytes_ok bs ->
  no_surrogates (fst (strip_bom cd bs)) /\ bytes_ok (snd (strip_bom cd bs)).
Proof.
  intros Hc Hb. destruct cd; cbn [strip_bom];
    repeat match goal with |- context [if ?b then _ else _] => destruct b end;
    cbn [fst snd]; split; auto using skipn_ok; exact I.
Qed.

Lemma decode_plain cd bs t : no_surrogates cd -> bytes_ok bs -> decode cd bs = Ok t -> Forall plain_char t.
Proof.
  intros Hc Hb H. unfold decode in H. pose proof (strip_plain cd bs Hc Hb) as [H1 H2].
  destruct (strip_bom cd bs) as [c' r]. cbn [fst snd] in *. eapply from_plain; [| | |exact H]; auto. constructor.
Qed.

Lemma started_plain cd : no_surrogates cd -> no_surrogates (started cd).
Proof. destruct cd; auto. Qed.

Lemma iter_byte mx nr s b s1 : iter_next mx nr s = Some (b, s1) -> bytes_ok (rest s) -> byte_ok b.
Proof.
  unfold iter_next. intros H Hb. destruct (match mx with Some _ => _ | None => _ end); try discriminate.
  destruct (read s 1) as [data s2] eqn:Hr. apply read_spec in Hr. destruct Hr as (suf & Hr & _). rewrite Hr in Hb.
  destruct data as [|x data]; try discriminate. injection H as <- _. inversion Hb; auto.
Qed.

Lemma stringz_plain fuel : forall nm cd mx nr buf acc s s' v, no_surrogates cd -> bytes_ok (rest s) -> bytes_ok buf -> Forall plain_char acc ->
  stringz_loop fuel nm cd mx nr buf acc s = (s', Ok v) -> exists t, v = VStr t /\ Forall plain_char t.
Proof.
  induction fuel as [|fuel IH]; intros nm cd mx nr buf acc s s' v Hc Hb Hbuf Ha H; [discriminate|].
  cbn [stringz_loop] in H. destruct (iter_next mx nr s) as [[b s1]|] eqn:Hi; [|destruct (forgiven cd buf); discriminate].
  pose proof (iter_byte _ _ _ _ _ Hi Hb) as Hb1. pose proof (bytes_forward _ _ (forward_iter _ _ _ _ _ Hi) Hb) as Hb2.
  assert (Hbb : bytes_ok (buf ++ [b])) by (apply Forall_app; auto).
  pose proof (step_plain cd (buf ++ [b]) Hc Hbb) as Hs. destruct (dec_step cd (buf ++ [b])) as [cp| | |cd'|]; try discriminate.
  - destruct (cp =? 0); [injection H as _ <-; exists (rev acc); split; auto; apply Forall_rev; auto|].
    eapply IH; [| | | |exact H]; auto using started_plain. constructor.
  - eapply IH; [| | | |exact H]; auto.
  - eapply IH; [| | | |exact H]; auto. constructor.
Qed.

Lemma leaf_exact (Q : nat -> Prop) c k g g0 s s' v : match k with KArray _ _ _ | KNested _ | KUnion _ _ _ => False | _ => True end ->
  exact_leaves c k -> bytes_ok (rest s) -> leaf_load c k g g0 s = (s', Ok v) -> json_ready exact_scalar Q v.
Proof.
  intros _ Hk Hb H. destruct k; try contradiction; cbn [exact_leaves] in Hk.
  - apply int_leaf in H. destruct H as (n & z & Hn & -> & Hr). destruct Hk as (n' & Hn' & Hlim). rewrite Hn in Hn'. injection Hn' as <-.
    apply ready_scalar; [exact I|]. unfold exact_scalar. eapply int_small; eauto.
  - cbn [leaf_load] in H. unfold lbind, lret, llift in H. unfold read_exact_size in H. destruct g as [n|?|]; try discriminate.
    destruct (read s n) as [data s1] eqn:Hr. destruct (zlen data <? n); try discriminate.
    apply read_spec in Hr. destruct Hr as (suf & Hr & _). rewrite Hr in Hb. apply bytes_ok_app in Hb as [Hb _].
    destruct (decode c0 data) as [t|?|] eqn:Hd; try discriminate. injection H as _ <-.
    apply ready_scalar; [exact I|]. apply plain_unsplit. eapply decode_plain; eauto.
  - cbn [leaf_load] in H.
    assert (Hv : exists t, v = VStr t /\ Forall plain_char t).
    { destruct g as [m|x|]; try discriminate; [|destruct (is_UndefinedSizeError x); try discriminate];
        (eapply stringz_plain; [| | | |exact H]; auto; constructor). }
    destruct Hv as (t & -> & Ht). apply ready_scalar; [exact I|]. apply plain_unsplit. auto.
Qed.

(** ** Loaded instances *)
Lemma loaded_no_type_error E Q n m cid ctx s s' vals keep d : json_classes E any_scalar numbers_and_text Q -> Q cid ->
  bytes_ok (rest s) -> struct_from_stream E n cid ctx [] s = (s', Ok vals) -> to_dict E m cid vals keep = Ok d ->
  json_round (VDict d) <> Raise ETypeErr.
Proof.
  intros HC Hq Hb H Hd He. apply (proj1 (proj2 (round_outcome (VDict d)))) in He. apply He.
  eapply (loaded_json E any_scalar numbers_and_text Q I); eauto. intros. eapply leaf_any; eauto.
Qed.

Lemma loaded_writable E Q n m cid ctx s s' vals keep d : json_classes E writable limited_numbers Q -> Q cid ->
  bytes_ok (rest s) -> struct_from_stream E n cid ctx [] s = (s', Ok vals) -> to_dict E m cid vals keep = Ok d ->
  exists d', json_round (VDict d) = Ok (VDict d') /\ dkeys d' = dkeys d.
Proof.
  intros HC Hq Hb H Hd. assert (Hj : json_data writable (VDict d)).
  { eapply (loaded_json E writable limited_numbers Q); eauto; [discriminate|]. intros. eapply leaf_writable; eauto. }
  apply round_outcome in Hj. destruct Hj as [w Hw]. destruct (round_keys _ _ Hw) as (d' & -> & Hk). eauto.
Qed.

Lemma loaded_exact E Q n m cid ctx s s' vals keep d : json_classes E exact_scalar exact_leaves Q -> Q cid ->
  bytes_ok (rest s) -> struct_from_stream E n cid ctx [] s = (s', Ok vals) -> to_dict E m cid vals keep = Ok d ->
  json_round (VDict d) = Ok (VDict d).
Proof.
  intros HC Hq Hb H Hd. apply round_same.
  eapply (loaded_json E exact_scalar exact_leaves Q); eauto; [exact I|]. intros. eapply leaf_exact; eauto.
Qed.

Lemma instance_writable E Q m cid vals keep d : json_classes E writable (fun _ _ => True) Q -> Q cid ->
  Forall (fun kv => json_ready writable Q (snd kv)) vals -> to_dict E m cid vals keep = Ok d ->
  exists d', json_round (VDict d) = Ok (VDict d') /\ dkeys d' = dkeys d.
Proof.
  intros HC Hq Hv Hd. assert (Hj : json_data writable (VDict d)) by (eapply instance_json; eauto; discriminate).
  apply round_outcome in Hj. destruct Hj as [w Hw]. destruct (round_keys _ _ Hw) as (d' & -> & Hk). eauto.
Qed.

(** ** Back again *)
Lemma restored_through E n cid vals d ctx : instance_of E cid vals -> to_dict E n cid vals false = Ok d ->
  (forall name f x, In (name, f) (k_comps (cls E cid)) -> dget d name = Some x ->
     x <> VNotPresent -> run_struct E n cid d (c_present (conf f) VNone None) = Ok true) ->
  (forall name f, In (name, f) (k_comps (cls E cid)) -> c_discard (conf f) = true ->
     exists v, run_struct E n cid d (compute_value_for_dump (conf f) VNone) = Ok v) ->
  validated E n cid vals -> validated E n cid d -> json_data exact_scalar (VDict d) ->
  exists d', json_round (VDict d) = Ok (VDict d') /\ struct_init E cid d' = Ok d'
    /\ struct_to_stream E n cid d' ctx = struct_to_stream E n cid vals ctx.
Proof.
  intros Hi Ht Hp Hd Hv Hv' Hj. exists d. split; [apply round_same; auto|]. split; [eapply rebuilt_init; eauto|].
  eapply rebuilt_dump; eauto.
Qed.

Lemma loaded_restored E Q n m cid ctx ctx' s s' vals d : json_classes E exact_scalar exact_leaves Q -> Q cid ->
  (forall name f, In (name, f) (k_comps (cls E cid)) -> c_discard (conf f) = false) ->
  bytes_ok (rest s) -> struct_from_stream E m cid ctx [] s = (s', Ok vals) -> to_dict E n cid vals false = Ok d ->
  validated E n cid vals -> validated E n cid d ->
  exists d', json_round (VDict d) = Ok (VDict d') /\ struct_init E cid d' = Ok d'
    /\ struct_to_stream E n cid d' ctx' = struct_to_stream E n cid vals ctx'.
Proof.
  intros HC Hq Hnd Hb Hl Ht Hv Hv'. destruct (HC cid Hq) as [Hwf Hfs]. apply restored_through; auto.
  - eapply load_instance; eauto. constructor.
  - intros name f x Hin _ _. destruct (Hfs _ _ Hin) as (Hu & _). apply Hu.
  - intros name f Hin Hd. rewrite (Hnd _ _ Hin) in Hd. discriminate.
  - apply round_same. eapply loaded_exact; eauto.
Qed.

Lemma round_errors v r : json_round v = r ->
  match r with
  | Ok _ => True
  | Raise e => (e = ETypeErr /\ ~ json_data any_scalar v) \/ e = EValueErr
  | OOF => False
  end.
Proof.
  intros H. destruct (round_outcome v) as (_ & H2 & H3). specialize (H3 r H). destruct r as [w|e|]; auto.
  destruct H3 as [ -> | -> ]; auto.
Qed.
