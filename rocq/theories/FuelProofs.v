(** More fuel never changes an answer: every fuelled function either ran out of fuel or
    already gives the result it gives with any larger amount. *)
From Verif Require Import Tac.
From Verif Require Export StructProofs.

Definition rle {A} (a b : res A) : Prop := a = OOF \/ a = b.
Definition dle {A} (a b : dumped A) : Prop := snd a = OOF \/ a = b.
Definition lle {A} (a b : loader A) : Prop := forall s, snd (a s) = OOF \/ a s = b s.

Lemma rle_refl {A} (a : res A) : rle a a. Proof. right; auto. Qed.
Lemma rle_oof {A} (a : res A) : rle OOF a. Proof. left; auto. Qed.
Lemma dle_refl {A} (a : dumped A) : dle a a. Proof. right; auto. Qed.
Lemma lle_refl {A} (a : loader A) : lle a a. Proof. right; auto. Qed.
Lemma rle_trans {A} (a b c : res A) : rle a b -> rle b c -> rle a c.
Proof. intros [->| ->]; [left; auto|auto]. Qed.

Lemma rle_ok {A} (a b : res A) x : rle a b -> a = Ok x -> b = Ok x.
Proof. intros [H|H] Ha; congruence. Qed.

Lemma rle_bind {A B} (m m' : res A) (k k' : A -> res B) :
  rle m m' -> (forall a, rle (k a) (k' a)) -> rle (bind m k) (bind m' k').
Proof.
  intros [->| ->] Hk; [left; auto|]. destruct m'; cbn [bind]; auto using rle_refl.
Qed.

Lemma rle_mapM {A B} (f f' : A -> res B) l : (forall a, rle (f a) (f' a)) ->
  rle (mapM f l) (mapM f' l).
Proof.
  intros Hf. induction l as [|x l IH]; cbn [mapM]; [apply rle_refl|].
  apply rle_bind; auto. intros y. apply rle_bind; auto. intros ys. apply rle_refl.
Qed.

Lemma dle_bind {A B} (m m' : dumped A) (k k' : A -> dumped B) :
  dle m m' -> (forall a, dle (k a) (k' a)) -> dle (dbind m k) (dbind m' k').
Proof.
  intros [Hm| ->] Hk.
  - left. destruct m as [o r]. cbn [snd] in Hm. subst r. reflexivity.
  - destruct m' as [o [a|e|]]; cbn [dbind]; [|right; auto|right; auto].
    destruct (Hk a) as [H|H].
    + left. destruct (k a). cbn [snd] in *. auto.
    + right. rewrite H. auto.
Qed.

Lemma dle_lift {A} (a b : res A) : rle a b -> dle (dlift a) (dlift b).
Proof. intros [->| ->]; [left|right]; reflexivity. Qed.

Lemma lle_bind {A B} (m m' : loader A) (k k' : A -> loader B) :
  lle m m' -> (forall a, lle (k a) (k' a)) -> lle (lbind m k) (lbind m' k').
Proof.
  intros Hm Hk s. unfold lbind. destruct (Hm s) as [H|H].
  - left. destruct (m s) as [s' r]. cbn [snd] in H. subst r. reflexivity.
  - rewrite H. destruct (m' s) as [s' [a|e|]]; auto. apply (Hk a s').
Qed.

Lemma lle_lift {A} (a b : res A) : rle a b -> lle (llift a) (llift b).
Proof. intros [->| ->] s; [left|right]; reflexivity. Qed.

Section Fuel.
Variable E : env.

Lemma run_q_mono {A} mem get get' keys (q : query A) : (forall x, rle (get x) (get' x)) ->
  rle (run_q mem get keys q) (run_q mem get' keys q).
Proof.
  intros Hg. induction q as [a|e|nm k IH|nm k IH|k IH]; cbn [run_q]; auto using rle_refl.
  destruct (Hg nm) as [->| ->]; [left; auto|]. destruct (get' nm); auto using rle_refl.
Qed.

Lemma struct_get_mono n : forall m cid vals name, (n <= m)%nat ->
  rle (struct_get E n cid vals name) (struct_get E m cid vals name).
Proof.
  induction n as [|n IH]; intros m cid vals name Hle.
  - destruct m; cbn [struct_get]; (destruct (assoc (comps E cid) name) as [f|]; [|apply rle_refl]);
      (destruct (oget vals (name_of f)); [apply rle_refl|left; auto]).
  - destruct m as [|m]; [lia|]. cbn [struct_get].
    destruct (assoc (comps E cid) name) as [f|]; [|apply rle_refl].
    destruct (oget vals (name_of f)); [apply rle_refl|]. apply run_q_mono. intros. apply IH. lia.
Qed.

Lemma run_struct_mono {A} n m cid vals (q : query A) : (n <= m)%nat ->
  rle (run_struct E n cid vals q) (run_struct E m cid vals q).
Proof. intros. apply run_q_mono. intros. apply struct_get_mono; auto. Qed.

Lemma validate_contents_mono n m cid vals : (n <= m)%nat ->
  rle (validate_contents E n cid vals) (validate_contents E m cid vals).
Proof.
  intros Hle. unfold validate_contents. apply rle_bind.
  - generalize (k_fvals (cls E cid)). intros fvs. induction fvs as [|[nm ms] fvs IH]; cbn [validate_fields]; [apply rle_refl|].
    destruct (assoc (comps E cid) nm); [|apply rle_refl].
    apply rle_bind; [apply struct_get_mono; auto|]. intros v.
    apply rle_bind; [apply rle_refl|]. intros _.
    apply rle_bind; [|auto].
    induction ms as [|q ms IHm]; cbn [run_method_validators]; [apply rle_refl|].
    apply rle_bind; auto. apply run_struct_mono; auto.
  - intros _. generalize (k_svals (cls E cid)). intros qs.
    induction qs as [|q qs IH]; cbn [run_struct_validators]; [apply rle_refl|].
    apply rle_bind; auto. apply run_struct_mono; auto.
Qed.

Lemma possible_values_mono n m cid vals fs : (n <= m)%nat -> forall dct,
  rle (possible_values E n cid vals fs dct) (possible_values E m cid vals fs dct).
Proof.
  intros Hle. induction fs as [|[nm f] fs IH]; intros dct; cbn [possible_values]; [apply rle_refl|].
  destruct (run_struct_mono n m cid vals (compute_value_for_dump (conf f) VNone) Hle) as [->| ->];
    [left; auto|].
  destruct (run_struct E m cid vals _) as [v|e|]; auto using rle_refl.
  destruct (is_binobj_Error e); auto using rle_refl.
Qed.

Lemma whatever_mono n m cid vals : (n <= m)%nat ->
  rle (to_dict_whatever_possible E n cid vals) (to_dict_whatever_possible E m cid vals).
Proof.
  intros Hle. unfold to_dict_whatever_possible. apply rle_bind; [apply possible_values_mono; auto|].
  intros dct. apply rle_bind; [|intros; apply rle_refl]. apply rle_mapM. intros k.
  destruct (dget dct k); [apply rle_refl|].
  apply rle_bind; [apply struct_get_mono; auto|]. intros; apply rle_refl.
Qed.

Lemma recursive_mono n : forall m v, (n <= m)%nat ->
  rle (recursive_to_dicts E n v) (recursive_to_dicts E m v).
Proof.
  induction n as [|n IH]; intros m v Hle; [left; reflexivity|].
  destruct m as [|m]; [lia|]. cbn [recursive_to_dicts].
  assert (Hd : forall d : dict, rle (mapM (fun kv => do v <- recursive_to_dicts E n (snd kv); Ok (fst kv, v)) d)
                             (mapM (fun kv => do v <- recursive_to_dicts E m (snd kv); Ok (fst kv, v)) d)).
  { intros d. apply rle_mapM. intros kv. apply rle_bind; [apply IH; lia|]. intros; apply rle_refl. }
  destruct v; try apply rle_refl.
  - apply rle_bind; [|intros; apply rle_refl]. apply rle_mapM. intros. apply IH. lia.
  - apply rle_bind; [apply Hd|intros; apply rle_refl].
  - apply rle_bind; [|intros; apply rle_refl]. apply rle_bind; [apply whatever_mono; lia|].
    intros dct. apply rle_bind; [apply rle_refl|]. intros upd.
    apply rle_bind; [apply rle_refl|]. intros. apply Hd.
Qed.

Lemma dicts_of_mono n m d : (n <= m)%nat -> rle (dicts_of E n d) (dicts_of E m d).
Proof.
  intros Hle. apply rle_mapM. intros kv. apply rle_bind; [apply recursive_mono; auto|].
  intros; apply rle_refl.
Qed.

Lemma to_dict_mono n m cid vals keep : (n <= m)%nat ->
  rle (to_dict E n cid vals keep) (to_dict E m cid vals keep).
Proof.
  intros Hle. unfold to_dict. apply rle_bind; [apply whatever_mono; auto|].
  intros dct. apply rle_bind; [apply rle_refl|]. intros upd.
  apply rle_bind; [apply rle_refl|]. intros. apply dicts_of_mono; auto.
Qed.

(** ** Dumping *)
Lemma ges_with_mono dd dd' c k d : (forall v, dle (dd v) (dd' v)) ->
  rle (get_expected_size_with dd c k d) (get_expected_size_with dd' c k d).
Proof.
  intros H. unfold get_expected_size_with. destruct (c_size c); try apply rle_refl.
  unfold expected_unsized. apply rle_bind; [apply rle_refl|]. intros v.
  destruct (is_none v); [|apply rle_refl]. unfold unsized_null_len.
  assert (Hx : forall w, rle (match dd w with (out, Ok _) => Ok (zlen out) | (_, Raise e) => Raise e
                                         | (_, OOF) => OOF end)
                           (match dd' w with (out, Ok _) => Ok (zlen out) | (_, Raise e) => Raise e
                                         | (_, OOF) => OOF end)).
  { intros w. destruct (H w) as [Hw| ->]; [|apply rle_refl]. left. destruct (dd w). cbn [snd] in Hw.
    subst. auto. }
  destruct (c_null c); try apply rle_refl; destruct k; try apply rle_refl; apply Hx.
Qed.

Lemma ges_with_ext dd dd' c k d : (forall v, dd v = dd' v) ->
  get_expected_size_with dd c k d = get_expected_size_with dd' c k d.
Proof.
  intros H. unfold get_expected_size_with. destruct (c_size c); auto.
  unfold expected_unsized. destruct (match oget d (c_name c) with Some _ => _ | None => _ end); auto.
  cbn [bind]. destruct (is_none a); auto. unfold unsized_null_len.
  destruct (c_null c); auto; destruct k; auto; rewrite H; auto.
Qed.

Lemma null_with_mono dd dd' g g' c : (forall v, dle (dd v) (dd' v)) -> rle g g' ->
  rle (null_repr_with dd g c) (null_repr_with dd' g' c).
Proof.
  intros H Hg. unfold null_repr_with.
  assert (Hx : forall w, rle (match dd w with (out, Ok _) => Ok out | (_, Raise e) => Raise e
                                         | (_, OOF) => OOF end)
                           (match dd' w with (out, Ok _) => Ok out | (_, Raise e) => Raise e
                                         | (_, OOF) => OOF end)).
  { intros w. destruct (H w) as [Hw| ->]; [|apply rle_refl]. left. destruct (dd w). cbn [snd] in Hw.
    subst. auto. }
  destruct (c_null c); try apply rle_refl; try apply Hx;
    (destruct Hg as [->| ->]; [left; auto|apply rle_refl]).
Qed.

Lemma to_stream_mono nr nr' dd dd' g g' c k v : rle nr nr' -> (forall v, dle (dd v) (dd' v)) ->
  rle g g' -> dle (to_stream_with nr dd g c k v) (to_stream_with nr' dd' g' c k v).
Proof.
  intros Hn Hd Hg. unfold to_stream_with. apply dle_bind; [apply dle_refl|]. intros w.
  destruct (is_undefined w || is_default w); [apply dle_refl|].
  apply dle_bind; [apply dle_refl|]. intros _. destruct (is_none w).
  - apply dle_bind; [apply dle_lift; auto|]. intros; apply dle_refl.
  - destruct (Hd w) as [Hw|Hw].
    + left. destruct (dd w) as [o r]. cbn [snd] in Hw. subst r. reflexivity.
    + rewrite Hw. destruct (dd' w) as [o r]. apply dle_bind; [apply dle_refl|]. intros _.
      apply dle_bind; [apply dle_lift; destruct (c_size c); auto using rle_refl|].
      intros; apply dle_refl.
Qed.

Definition dmono (dd dd' : dumper) : Prop := forall f v ctx d, dle (dd f v ctx d) (dd' f v ctx d).

Lemma ges_mono dd dd' f d : dmono dd dd' -> rle (ges dd f d) (ges dd' f d).
Proof. intros H. apply ges_with_mono. intros; apply H. Qed.

Lemma null_repr_mono dd dd' f d : dmono dd dd' -> rle (null_repr dd f d) (null_repr dd' f d).
Proof. intros H. apply null_with_mono; [intros; apply H|apply ges_mono; auto]. Qed.

Lemma fts_mono dd dd' f v ctx d : dmono dd dd' ->
  dle (field_to_stream_with dd f v ctx d) (field_to_stream_with dd' f v ctx d).
Proof.
  intros H. apply to_stream_mono; [apply null_repr_mono; auto|intros; apply H|apply ges_mono; auto].
Qed.

Lemma dump_fields_mono dd dd' fs ctx d : dmono dd dd' ->
  dle (dump_fields dd fs ctx d) (dump_fields dd' fs ctx d).
Proof.
  intros H. induction fs as [|[nm f] fs IH]; cbn [dump_fields]; [apply dle_refl|].
  apply dle_bind; [apply dle_refl|]. intros v. apply dle_bind; [|auto].
  destruct (is_not_present v); [apply dle_refl|apply fts_mono; auto].
Qed.

Lemma sts_mono dd dd' n m cid vals ctx : dmono dd dd' -> (n <= m)%nat ->
  dle (struct_to_stream_with E dd n cid vals ctx) (struct_to_stream_with E dd' m cid vals ctx).
Proof.
  intros H Hle. unfold struct_to_stream_with.
  apply dle_bind; [apply dle_lift; apply validate_contents_mono; auto|]. intros _.
  apply dle_bind; [apply dle_lift; apply to_dict_mono; auto|]. intros d.
  apply dump_fields_mono; auto.
Qed.

Lemma array_dump_mono d1 d2 name cnt v d : (forall x, dle (d1 x) (d2 x)) ->
  dle (array_dump d1 name cnt v d) (array_dump d2 name cnt v d).
Proof.
  intros H. unfold array_dump. apply dle_bind; [apply dle_refl|]. intros ne.
  assert (Hi : forall l, dle (dump_items d1 l) (dump_items d2 l)).
  { induction l as [|x l IH]; cbn [dump_items]; [apply dle_refl|]. apply dle_bind; auto. }
  assert (Hu : forall l nw, dle (dump_unsized d1 name ne nw l) (dump_unsized d2 name ne nw l)).
  { induction l as [|x l IH]; intros nw; cbn [dump_unsized]; [apply dle_refl|].
    destruct (match ne with Some _ => _ | None => false end); [apply dle_refl|].
    apply dle_bind; auto. }
  destruct (sized_items v).
  - destruct ne; auto. destruct (negb _); auto using dle_refl.
  - destruct v; auto using dle_refl.
Qed.

Lemma do_dump_mono n : forall m, (n <= m)%nat -> dmono (do_dump E n) (do_dump E m).
Proof.
  induction n as [|n IH]; intros m Hle [c k] v ctx d; destruct (leaf_kind k) eqn:Hk.
  - rewrite !do_dump_leaf by auto. apply dle_refl.
  - left. destruct k; try discriminate; reflexivity.
  - rewrite !do_dump_leaf by auto. apply dle_refl.
  - destruct m as [|m]; [lia|]. assert (Hm : dmono (do_dump E n) (do_dump E m)) by (apply IH; lia).
    destruct k; try discriminate; cbn [do_dump kind].
    + apply array_dump_mono. intros. apply fts_mono; auto.
    + destruct v; auto using dle_refl.
      * apply dle_bind; [apply dle_refl|]. intros. apply sts_mono; auto. lia.
      * apply sts_mono; auto. lia.
    + apply dle_bind; [apply dle_refl|]. intros i. destruct (nth_error choices i) as [[g|cid]|].
      * apply fts_mono; auto.
      * destruct v; auto using dle_refl. apply dle_bind; [apply dle_refl|]. intros.
        apply sts_mono; auto. lia.
      * apply dle_refl.
Qed.

Lemma field_to_stream_mono n m f v ctx d : (n <= m)%nat ->
  dle (field_to_stream E n f v ctx d) (field_to_stream E m f v ctx d).
Proof. intros. apply fts_mono. apply do_dump_mono; auto. Qed.

Lemma struct_to_stream_mono n m cid vals ctx : (n <= m)%nat ->
  dle (struct_to_stream E n cid vals ctx) (struct_to_stream E m cid vals ctx).
Proof. intros. apply sts_mono; auto. apply do_dump_mono; auto. Qed.

Lemma bytes_of_mono a b : dle a b -> rle (bytes_of a) (bytes_of b).
Proof.
  intros [H| ->]; [|apply rle_refl]. left. destruct a. cbn [snd] in H. subst. reflexivity.
Qed.

(** ** Sizes and equality *)
Lemma struct_len_mono n m cid vals : (n <= m)%nat ->
  rle (struct_len E n cid vals) (struct_len E m cid vals).
Proof.
  intros Hle. unfold struct_len. apply rle_bind; [apply whatever_mono; auto|]. intros cur.
  apply rle_bind; [|intros; apply rle_refl].
  generalize (comps E cid). intros fs. induction fs as [|[nm f] fs IH]; cbn [len_fields]; [apply rle_refl|].
  apply rle_bind; [|intros; apply rle_bind; auto; intros; apply rle_refl].
  assert (Hx : rle (match get_expected_size E n f cur with
              | Raise e => if is_binobj_Error e then
                  do v <- run_dict cur (compute_value_for_dump (conf f) VNone);
                  do bs <- field_to_bytes E n f v VNone []; Ok (zlen bs) else Raise e
              | r => r end)
            (match get_expected_size E m f cur with
              | Raise e => if is_binobj_Error e then
                  do v <- run_dict cur (compute_value_for_dump (conf f) VNone);
                  do bs <- field_to_bytes E m f v VNone []; Ok (zlen bs) else Raise e
              | r => r end)).
  { destruct (ges_mono _ _ f cur (do_dump_mono n m Hle)) as [H|H];
      unfold get_expected_size; rewrite H; [left; auto|].
    destruct (ges (do_dump E m) f cur) as [z|e|]; try apply rle_refl.
    destruct (is_binobj_Error e); [|apply rle_refl].
    apply rle_bind; [apply rle_refl|]. intros v. apply rle_bind; [|intros; apply rle_refl].
    apply bytes_of_mono. apply field_to_stream_mono; auto. }
  destruct (c_size (conf f)); auto using rle_refl.
Qed.

Lemma defined_values_mono n m cid vals : (n <= m)%nat ->
  rle (defined_values E n cid vals) (defined_values E m cid vals).
Proof.
  intros Hle. unfold defined_values. apply rle_bind.
  - destruct (struct_len_mono n m cid vals Hle) as [->| ->]; [left; auto|apply rle_refl].
  - intros _. apply rle_bind; [|intros; apply dicts_of_mono; auto].
    apply rle_mapM. intros k. apply rle_bind; [apply struct_get_mono; auto|]. intros; apply rle_refl.
Qed.

Lemma list_eq_mono e1 e2 a : (forall x y, rle (e1 x y) (e2 x y)) -> forall b,
  rle (list_eq_with e1 a b) (list_eq_with e2 a b).
Proof.
  intros H. induction a as [|x a IH]; intros [|y b]; cbn [list_eq_with]; auto using rle_refl.
  apply rle_bind; auto. intros [|]; auto using rle_refl.
Qed.

Lemma dict_eq_mono e1 e2 a b : (forall x y, rle (e1 x y) (e2 x y)) ->
  rle (dict_eq_with e1 a b) (dict_eq_with e2 a b).
Proof.
  intros H. induction a as [|[k x] a IH]; cbn [dict_eq_with]; auto using rle_refl.
  destruct (dget b k); auto using rle_refl. apply rle_bind; auto. intros [|]; auto using rle_refl.
Qed.

Lemma py_eq_mono n : forall m a b, (n <= m)%nat -> rle (py_eq E n a b) (py_eq E m a b).
Proof.
  induction n as [|n IH]; intros m a b Hle; [left; reflexivity|].
  destruct m as [|m]; [lia|]. assert (Hle' : (n <= m)%nat) by lia.
  assert (Hdv : forall cid vals, rle (defined_values E n cid vals) (defined_values E m cid vals))
    by (intros; apply defined_values_mono; auto).
  assert (Hdo : forall d, rle (dicts_of E n d) (dicts_of E m d)) by (intros; apply dicts_of_mono; auto).
  assert (Heq : forall x y, rle (py_eq E n x y) (py_eq E m x y)) by (intros; apply IH; auto).
  cbn [py_eq].
  destruct a, b; try apply rle_refl;
    try (apply rle_bind; [apply Hdv|]; intros; apply rle_refl);
    try (apply rle_bind; [apply Hdv|]; intros; apply rle_bind; [first [apply Hdv|apply Hdo]|];
         intros; apply Heq).
  - destruct (negb _); [apply rle_refl|]. apply list_eq_mono; auto.
  - destruct (negb _); [apply rle_refl|]. apply dict_eq_mono; auto.
Qed.

(** ** Loading *)
Lemma from_stream_mono nr nr' dl dl' e1 e2 c ctx d :
  rle nr nr' -> lle dl dl' -> (forall x y, rle (e1 x y) (e2 x y)) ->
  lle (from_stream_with nr dl e1 c ctx d) (from_stream_with nr' dl' e2 c ctx d).
Proof.
  intros Hn Hl He.
  set (lv := fun (dl : loader value) (eqv : value -> value -> res bool) =>
    ldo v <- (fun s => match dl s with
                       | (s', Raise e) => (s', Raise (set_field (c_name c) e))
                       | x => x
                       end);
    ldo v <- llift (if allow_null c then
                      do b <- eqv v (c_null c); Ok (if b then VNone else v)
                    else Ok v);
    ldo _ <- llift (if negb (is_undefined (c_const c)) then
                      do b <- eqv v (c_const c);
                      if b then Ok tt else Raise (EValidation (c_name c))
                    else Ok tt);
    ldo _ <- llift (run_validators (c_validators c) v);
    lret v).
  assert (Hlv : lle (lv dl e1) (lv dl' e2)).
  { unfold lv. apply lle_bind.
    - intros s. destruct (Hl s) as [H| ->]; [left|right; auto].
      destruct (dl s) as [s' r]. cbn [snd] in H. subst r. reflexivity.
    - intros v. apply lle_bind.
      + apply lle_lift. destruct (allow_null c); [|apply rle_refl].
        apply rle_bind; auto. intros; apply rle_refl.
      + intros w. apply lle_bind; [|intros; apply lle_refl].
        apply lle_lift. destruct (negb _); [|apply rle_refl]. apply rle_bind; auto. intros; apply rle_refl. }
  intros s. unfold from_stream_with. cbv zeta. fold (lv dl e1). fold (lv dl' e2). clearbody lv.
  destruct (run_dict d (c_present c ctx (Some s))) as [[|]|e|]; auto.
  destruct (allow_null c); auto.
  destruct Hn as [->| ->]; [left; auto|].
  destruct nr' as [nb|e|]; auto.
  - destruct (peek_bytes (zlen nb) true s) as [s1 [p|e|]]; auto.
    destruct (bytes_eqb p nb); auto.
  - destruct (is_UnserializableValueError e); auto. destruct (is_default (c_null c)); auto.
Qed.

Definition lmono (a b : floader) : Prop := forall f ctx d, lle (a f ctx d) (b f ctx d).

Lemma ffs_mono dl dl' n m f ctx d : lmono dl dl' -> (n <= m)%nat ->
  lle (field_from_stream_with E dl n f ctx d) (field_from_stream_with E dl' m f ctx d).
Proof.
  intros H Hle. apply from_stream_mono; [|apply H|intros; apply py_eq_mono; auto].
  apply null_repr_mono. apply do_dump_mono; auto.
Qed.

Lemma load_fields_mono dl dl' n m fs ctx : lmono dl dl' -> (n <= m)%nat -> forall d,
  lle (load_fields E dl n fs ctx d) (load_fields E dl' m fs ctx d).
Proof.
  intros H Hle. induction fs as [|[nm f] fs IH]; intros d; cbn [load_fields]; [apply lle_refl|].
  apply lle_bind; auto. apply ffs_mono; auto.
Qed.

Lemma sfs_mono dl dl' n m cid ctx kw : lmono dl dl' -> (n <= m)%nat ->
  lle (struct_from_stream_with E dl n cid ctx kw) (struct_from_stream_with E dl' m cid ctx kw).
Proof.
  intros H Hle. unfold struct_from_stream_with. apply lle_bind; [apply load_fields_mono; auto|].
  intros res. apply lle_bind; [apply lle_refl|]. intros vals.
  apply lle_bind; [|intros; apply lle_refl]. apply lle_lift. apply validate_contents_mono; auto.
Qed.

Lemma array_load_mono n halt l1 l2 : lle l1 l2 -> forall m vs, (n <= m)%nat ->
  lle (array_load n halt l1 vs) (array_load m halt l2 vs).
Proof.
  intros H. induction n as [|n IH]; intros m vs Hle s; [left; reflexivity|].
  destruct m as [|m]; [lia|]. cbn [array_load].
  destruct (halt s vs) as [[[|] vs']|e|]; auto.
  destruct (H s) as [Hs| ->].
  - left. destruct (l1 s) as [s' r]. cbn [snd] in Hs. subst r. reflexivity.
  - destruct (l2 s) as [s' [v|e|]]; auto. apply IH. lia.
Qed.

Lemma do_load_mono n : forall m, (n <= m)%nat -> lmono (do_load E n) (do_load E m).
Proof.
  induction n as [|n IH]; intros m Hle [c k] ctx d; destruct (leaf_kind k) eqn:Hk.
  1, 3: intros s; right; rewrite !do_load_leaf by auto;
    f_equal; apply ges_with_ext; intros; rewrite !do_dump_leaf by auto; reflexivity.
  - intros s; left. destruct k; try discriminate; reflexivity.
  - destruct m as [|m]; [lia|]. assert (Hm : lmono (do_load E n) (do_load E m)) by (apply IH; lia).
    assert (Hle' : (n <= m)%nat) by lia.
    destruct k; try discriminate; cbn [do_load kind].
    + apply array_load_mono; auto. apply ffs_mono; auto.
    + apply lle_bind; [apply sfs_mono; auto|]. intros; apply lle_refl.
    + intros s. destruct (load_decider s ctx d) as [i|e|]; auto.
      destruct (nth_error choices i) as [[g|cid]|]; auto.
      * apply Hm.
      * apply (lle_bind _ _ (fun vals => lret (VStruct cid vals)) (fun vals => lret (VStruct cid vals)));
          [apply sfs_mono; auto|]. intros; apply lle_refl.
Qed.

Lemma field_from_stream_mono n m f ctx d : (n <= m)%nat ->
  lle (field_from_stream E n f ctx d) (field_from_stream E m f ctx d).
Proof. intros. apply ffs_mono; auto. apply do_load_mono; auto. Qed.

Lemma struct_from_stream_mono n m cid ctx kw : (n <= m)%nat ->
  lle (struct_from_stream E n cid ctx kw) (struct_from_stream E m cid ctx kw).
Proof. intros. apply sfs_mono; auto. apply do_load_mono; auto. Qed.

End Fuel.
