(** Proofs about hosts with different byte orders (C101). *)
From Coq Require Import Lia.
From Verif Require Import Tac FieldProofs FieldMore StructProofs SizeProofs Decl.
From Verif Require Export SpecHosts.
Open Scope list_scope.
Open Scope Z_scope.

(** ** One byte has no order *)
Lemma order_one {A} (e e' : endian) (l : list A) : (length l <= 1)%nat -> order e l = order e' l.
Proof. destruct l as [|a [|b l]]; cbn [length]; try lia; intros _; destruct e, e'; reflexivity. Qed.

Lemma write_one v sg e e' : write_int v 1 sg e = write_int v 1 sg e'.
Proof.
  unfold write_int, py_to_bytes. destruct (1 <? 0); [reflexivity|]. destruct (fits sg 1 v); [|reflexivity].
  rewrite (order_one e e'); [reflexivity|]. change (Z.to_nat 1) with 1%nat. cbn [le_bytes length]. lia.
Qed.

Lemma read_one sg e e' s : read_int 1 sg e s = read_int 1 sg e' s.
Proof.
  unfold read_int. destruct (read s 1) as [data s'] eqn:Hr. destruct (zlen data <? 1); [reflexivity|]. do 2 f_equal.
  unfold py_from_bytes. rewrite (order_one e e'); [reflexivity|].
  unfold read in Hr. cbn in Hr. injection Hr as <- _. rewrite firstn_length. lia.
Qed.

(** ** Functions of equal arguments *)
Lemma run_q_same {A} mem (get get' : string -> res value) keys (q : query A) : (forall nm, get nm = get' nm) -> run_q mem get keys q = run_q mem get' keys q.
Proof.
  intros H. induction q as [a|e|nm k IH|nm k IH|k IH]; cbn [run_q]; auto.
  rewrite <- H. destruct (get nm); auto.
Qed.

Lemma mapM_same {A B} (f g : A -> res B) l : (forall a, f a = g a) -> mapM f l = mapM g l.
Proof. intros H. induction l as [|a l IH]; [reflexivity|]. cbn [mapM]. rewrite H, IH. reflexivity. Qed.

Lemma bind_same {A B} (m m' : res A) (k k' : A -> res B) : m = m' -> (forall a, k a = k' a) -> (do x <- m; k x) = (do x <- m'; k' x).
Proof. intros -> H. destruct m'; cbn [bind]; auto. Qed.

Lemma dbind_same {A B} (m m' : dumped A) (k k' : A -> dumped B) : m = m' -> (forall a, k a = k' a) -> dbind m k = dbind m' k'.
Proof. intros -> H. destruct m' as [o [a|e|]]; cbn; [rewrite H|..]; reflexivity. Qed.

Lemma lbind_same {A B} (m m' : loader A) (k k' : A -> loader B) s : m s = m' s -> (forall a s1, k a s1 = k' a s1) -> lbind m k s = lbind m' k' s.
Proof. intros Hm H. unfold lbind. rewrite Hm. destruct (m' s) as [s1 [a|e|]]; auto. Qed.

Lemma from_stream_same nr nr' (dl dl' : loader value) eqv eqv' c ctx d s :
  nr = nr' -> (forall s, dl s = dl' s) -> (forall a b, eqv a b = eqv' a b) -> from_stream_with nr dl eqv c ctx d s = from_stream_with nr' dl' eqv' c ctx d s.
Proof.
  intros -> Hd He. unfold from_stream_with. cbv zeta.
  assert (Hl : forall s1,
    (ldo v <- (fun s => match dl s with (s', Raise e) => (s', Raise (set_field (c_name c) e)) | x => x end);
     ldo v <- llift (if allow_null c then do b <- eqv v (c_null c); Ok (if b then VNone else v) else Ok v);
     ldo _ <- llift (if negb (is_undefined (c_const c)) then do b <- eqv v (c_const c); if b then Ok tt else Raise (EValidation (c_name c)) else Ok tt);
     ldo _ <- llift (run_validators (c_validators c) v); lret v) s1 =
    (ldo v <- (fun s => match dl' s with (s', Raise e) => (s', Raise (set_field (c_name c) e)) | x => x end);
     ldo v <- llift (if allow_null c then do b <- eqv' v (c_null c); Ok (if b then VNone else v) else Ok v);
     ldo _ <- llift (if negb (is_undefined (c_const c)) then do b <- eqv' v (c_const c); if b then Ok tt else Raise (EValidation (c_name c)) else Ok tt);
     ldo _ <- llift (run_validators (c_validators c) v); lret v) s1).
  { intros s1. apply lbind_same; [rewrite Hd; reflexivity|]. intros v s2. apply lbind_same; [unfold llift; rewrite He; reflexivity|]. intros w s3.
    apply lbind_same; [unfold llift; rewrite He; reflexivity|]. reflexivity. }
  destruct (run_dict d (c_present c ctx (Some s))) as [[|]|e|]; try reflexivity.
  destruct (allow_null c); [|apply Hl].
  destruct nr' as [bs|e|]; try reflexivity.
  - destruct (peek_bytes (zlen bs) true s) as [s1 [p|e|]]; try reflexivity. destruct (bytes_eqb p bs); [reflexivity|]. apply Hl.
  - destruct (is_UnserializableValueError e); [|reflexivity]. destruct (is_default (c_null c)); [reflexivity|]. apply Hl.
Qed.

Lemma array_load_same halt (load1 load1' : loader value) : (forall s, load1 s = load1' s) ->
  forall fuel vs s, array_load fuel halt load1 vs s = array_load fuel halt load1' vs s.
Proof.
  intros H. induction fuel as [|fuel IH]; intros vs s; [reflexivity|]. cbn [array_load]. destruct (halt s vs) as [[[|] vs']|e|]; try reflexivity.
  rewrite H. destruct (load1' s) as [s1 [v|e|]]; auto.
Qed.

Lemma array_dump_same (dump dump' : value -> dumped unit) nm cnt v d : (forall x, dump x = dump' x) -> array_dump dump nm cnt v d = array_dump dump' nm cnt v d.
Proof.
  intros H. unfold array_dump. apply dbind_same; [reflexivity|]. intros n_elems.
  assert (Hi : forall l, dump_items dump l = dump_items dump' l).
  { induction l as [|x l IH]; [reflexivity|]. cbn [dump_items]. rewrite H, IH. reflexivity. }
  destruct (sized_items v) as [l|].
  - rewrite Hi. reflexivity.
  - destruct v; try reflexivity. match goal with |- dump_unsized _ _ _ ?w ?l = _ => generalize w end.
    induction l as [|x l IH]; intros w; [reflexivity|]. cbn [dump_unsized]. rewrite H, IH. reflexivity.
Qed.

Section Hosts.
Variables h h' : endian.
Notation port := (ported h h').

Lemma port_conf f f' : port f f' -> conf f = conf f'.
Proof. intros H. destruct H; reflexivity. Qed.

Lemma port_name f f' : port f f' -> name_of f = name_of f'.
Proof. intros H. unfold name_of. rewrite (port_conf f f' H). reflexivity. Qed.

Lemma port_cname f f' : port f f' -> cname f = cname f'.
Proof. intros H. unfold cname. rewrite (port_name f f' H). reflexivity. Qed.

(** Numbers of the same size, the order of their bytes the same or immaterial. *)
Lemma given_same (given : option endian) : given <> None -> field_endian h given = field_endian h' given.
Proof. destruct given; [reflexivity|congruence]. Qed.

Lemma port_ges dd dd' f f' d : port f f' -> (forall v, dd v = dd' v) -> get_expected_size_with dd (conf f) (kind f) d = get_expected_size_with dd' (conf f') (kind f') d.
Proof.
  intros Hp Hd. rewrite <- (port_conf f f' Hp). unfold get_expected_size_with. destruct (c_size (conf f)) as [|z|nm] eqn:Hs; try reflexivity.
  unfold expected_unsized. apply bind_same; [reflexivity|]. intros v. destruct (is_none v).
  - unfold unsized_null_len. destruct (c_null (conf f)); try reflexivity; destruct Hp; cbn [kind]; try match goal with |- context [kind (Field _ ?k)] => destruct k end; rewrite ?Hd; reflexivity.
  - unfold size_for_value. destruct Hp; cbn [kind]; reflexivity.
Qed.

Lemma port_field_with dd dd' f f' v ctx d : port f f' -> (forall x c e, dd f x c e = dd' f' x c e) ->
  field_to_stream_with dd f v ctx d = field_to_stream_with dd' f' v ctx d.
Proof.
  intros Hp Hd. pose proof (port_conf f f' Hp) as Hc.
  assert (Hg : ges dd f d = ges dd' f' d). { unfold ges. apply port_ges; auto. }
  assert (Hn : null_repr dd f d = null_repr dd' f' d).
  { unfold null_repr, null_repr_with. rewrite <- Hg, <- Hc. destruct (c_null (conf f)); rewrite ?Hd; reflexivity. }
  unfold field_to_stream_with, to_stream_with. rewrite <- Hg, <- Hn, <- Hc. apply dbind_same; [reflexivity|]. intros x.
  destruct (is_undefined x || is_default x); [reflexivity|]. apply dbind_same; [reflexivity|]. intros _.
  destruct (is_none x); [reflexivity|]. rewrite Hd. destruct (dd' f' x ctx d) as [sv r]. apply dbind_same; [reflexivity|]. intros _.
  apply dbind_same; [reflexivity|]. intros es. cbv zeta. destruct (0 <? zlen sv - es); [reflexivity|]. destruct (zlen sv - es <? 0); [|reflexivity].
  apply dbind_same; [|reflexivity]. f_equal. unfold add_padding. destruct Hp; reflexivity.
Qed.

Definition is_leaf (k : fkind) : Prop := match k with KArray _ _ _ | KNested _ | KUnion _ _ _ => False | _ => True end.

Lemma leaf_or_not k : is_leaf k \/ ~ is_leaf k.
Proof. destruct k; cbn; auto. Qed.

Lemma port_leaf f f' : port f f' -> is_leaf (kind f) -> is_leaf (kind f').
Proof. intros Hp. destruct Hp; cbn; auto. Qed.

Lemma port_leaf_dump f f' g v : port f f' -> is_leaf (kind f) -> (c_size (conf f) = SInt 1 -> g = Ok 1) ->
  leaf_dump (conf f) (kind f) g v = leaf_dump (conf f') (kind f') g v.
Proof.
  intros Hp Hk Hg. destruct Hp as [c sg given Hsz|c fmt given Hsz|c r tz sg given Hsz|c k Hk'|c comp comp' cnt halt Hc|c chs chs' ld dmp Hc]; try destruct Hk; cbn [conf kind] in *; unfold integer_on, float_on, timestamp_on.
  - destruct Hsz as [Hn|Hs]; [rewrite (given_same given Hn); reflexivity|]. cbn [leaf_dump]. rewrite Hs. destruct v; try reflexivity.
    rewrite (write_one _ sg _ (field_endian h' given)). reflexivity.
  - rewrite (given_same given Hsz). reflexivity.
  - destruct Hsz as [Hn|Hs]; [rewrite (given_same given Hn); reflexivity|]. cbn [leaf_dump]. rewrite (Hg Hs). destruct v; try reflexivity.
    apply dbind_same; [reflexivity|]. intros t. unfold dbind, dlift. rewrite (write_one _ sg _ (field_endian h' given)). reflexivity.
  - reflexivity.
Qed.

Lemma port_leaf_load f f' g g0 s : port f f' -> is_leaf (kind f) -> (c_size (conf f) = SInt 1 -> g = Ok 1) ->
  leaf_load (conf f) (kind f) g g0 s = leaf_load (conf f') (kind f') g g0 s.
Proof.
  intros Hp Hk Hg. destruct Hp as [c sg given Hsz|c fmt given Hsz|c r tz sg given Hsz|c k Hk'|c comp comp' cnt halt Hc|c chs chs' ld dmp Hc]; try destruct Hk; cbn [conf kind] in *; unfold integer_on, float_on, timestamp_on.
  - destruct Hsz as [Hn|Hs]; [rewrite (given_same given Hn); reflexivity|]. cbn [leaf_load]. rewrite Hs. apply lbind_same; [apply read_one|reflexivity].
  - rewrite (given_same given Hsz). reflexivity.
  - destruct Hsz as [Hn|Hs]; [rewrite (given_same given Hn); reflexivity|]. cbn [leaf_load]. rewrite (Hg Hs). unfold lbind, llift.
    rewrite (read_one sg _ (field_endian h' given)). reflexivity.
  - reflexivity.
Qed.

Section Env.
Variables E E' : env.
Hypothesis HE : ported_env h h' E E'.
Notation both := (Forall2 (fun nf nf' => fst nf = fst nf' /\ port (snd nf) (snd nf'))).

Lemma port_class cid : ported_class h h' (cls E cid) (cls E' cid).
Proof.
  assert (H0 : ported_class h h' empty_class empty_class). { split; [apply Forall2_nil|split; reflexivity]. }
  unfold cls. pose proof HE as H. clear HE. unfold ported_env in H. revert cid. induction H as [|k k' E0 E0' Hk _ IH]; intros [|cid]; cbn [nth]; auto.
Qed.

Lemma port_comps cid : both (comps E cid) (comps E' cid).
Proof. apply port_class. Qed.

Lemma both_assoc nm fs fs' : both fs fs' -> match assoc fs nm, assoc fs' nm with Some f, Some f' => port f f' | None, None => True | _, _ => False end.
Proof.
  induction 1 as [|[k f] [k' f'] fs fs' [Hk Hf] _ IH]; [exact I|]. cbn [fst snd] in *. subst k'. cbn [assoc]. destruct (String.eqb k nm); [exact Hf|exact IH].
Qed.

Lemma port_get vals cid : forall n nm, struct_get E n cid vals nm = struct_get E' n cid vals nm.
Proof.
  induction n as [|n IH]; intros nm; cbn [struct_get]; pose proof (both_assoc nm _ _ (port_comps cid)) as Ha;
    destruct (assoc (comps E cid) nm) as [f|], (assoc (comps E' cid) nm) as [f'|]; try (exfalso; exact Ha); try reflexivity;
    [rewrite (port_name _ _ Ha)|rewrite (port_name _ _ Ha), (port_conf _ _ Ha)]; (destruct (oget vals (name_of f')); [reflexivity|]); [reflexivity|].
  apply run_q_same. apply IH.
Qed.

Lemma port_run {A} n cid vals (q : query A) : run_struct E n cid vals q = run_struct E' n cid vals q.
Proof. apply run_q_same. intros. apply port_get. Qed.

Lemma port_init cid vals : struct_init E cid vals = struct_init E' cid vals.
Proof.
  unfold struct_init.
  replace (filter (fun k => match assoc (comps E' cid) k with Some _ => false | None => true end) (dkeys vals))
    with (filter (fun k => match assoc (comps E cid) k with Some _ => false | None => true end) (dkeys vals)); [reflexivity|].
  apply filter_ext. intros k. pose proof (both_assoc k _ _ (port_comps cid)) as Ha.
  destruct (assoc (comps E cid) k), (assoc (comps E' cid) k); try (exfalso; exact Ha); reflexivity.
Qed.

Lemma port_contents n cid vals : validate_contents E n cid vals = validate_contents E' n cid vals.
Proof.
  unfold validate_contents. destruct (port_class cid) as (_ & Hf & Hs). rewrite <- Hf, <- Hs. apply bind_same.
  - generalize (k_fvals (cls E cid)). induction l as [|[nm vs] l IH]; [reflexivity|]. cbn [validate_fields].
    pose proof (both_assoc nm _ _ (port_comps cid)) as Ha.
    destruct (assoc (comps E cid) nm) as [f|], (assoc (comps E' cid) nm) as [f'|]; try (exfalso; exact Ha); try reflexivity.
    rewrite (port_conf _ _ Ha). apply bind_same; [apply port_get|]. intros v. apply bind_same; [reflexivity|]. intros _. apply bind_same; [|auto].
    induction vs as [|q vs IHv]; [reflexivity|]. cbn [run_method_validators]. rewrite port_run, IHv. reflexivity.
  - intros _. generalize (k_svals (cls E cid)). induction l as [|q l IH]; [reflexivity|]. cbn [run_struct_validators]. rewrite port_run, IH. reflexivity.
Qed.

Lemma port_possible n cid vals fs fs' : both fs fs' -> forall dct, possible_values E n cid vals fs dct = possible_values E' n cid vals fs' dct.
Proof.
  induction 1 as [|[k f] [k' f'] fs fs' [_ Hf] _ IH]; intros dct; [reflexivity|]. cbn [fst snd] in *. cbn [possible_values].
  rewrite (port_conf _ _ Hf), (port_cname _ _ Hf), port_run. destruct (run_struct E' n cid vals _) as [v|e|]; auto. destruct (is_binobj_Error e); auto.
Qed.

Lemma port_whatever n cid vals : to_dict_whatever_possible E n cid vals = to_dict_whatever_possible E' n cid vals.
Proof.
  unfold to_dict_whatever_possible. apply bind_same; [apply port_possible; apply port_comps|]. intros dct. apply bind_same; [|reflexivity].
  apply mapM_same. intros k. rewrite port_get. reflexivity.
Qed.

Lemma port_missing fs fs' dct : both fs fs' -> missing_values fs dct = missing_values fs' dct.
Proof.
  unfold missing_values. induction 1 as [|[k f] [k' f'] fs fs' [_ Hf] _ IH]; [reflexivity|]. cbn [fst snd] in *. cbn [filter snd]. rewrite (port_cname _ _ Hf).
  destruct (negb (dmem dct (cname f'))); [|exact IH]. cbn [mapM snd]. rewrite (port_conf _ _ Hf), (port_cname _ _ Hf), IH. reflexivity.
Qed.

Lemma port_drop fs fs' : both fs fs' -> forall dct, drop_discard fs dct = drop_discard fs' dct.
Proof.
  induction 1 as [|[k f] [k' f'] fs fs' [_ Hf] _ IH]; intros dct; [reflexivity|]. cbn [fst snd] in *. cbn [drop_discard].
  rewrite (port_conf _ _ Hf), (port_cname _ _ Hf), !IH. reflexivity.
Qed.

Lemma port_delete fs fs' : both fs fs' -> forall vals, delete_discard fs vals = delete_discard fs' vals.
Proof.
  induction 1 as [|[k f] [k' f'] fs fs' [_ Hf] _ IH]; intros vals; [reflexivity|]. cbn [fst snd] in *. cbn [delete_discard].
  rewrite (port_conf _ _ Hf), (port_cname _ _ Hf), !IH. reflexivity.
Qed.

Lemma port_recursive : forall n v, recursive_to_dicts E n v = recursive_to_dicts E' n v.
Proof.
  induction n as [|n IH]; intros v; [reflexivity|].
  assert (Hm : forall d : dict, mapM (fun kv => do v <- recursive_to_dicts E n (snd kv); Ok (fst kv, v)) d = mapM (fun kv => do v <- recursive_to_dicts E' n (snd kv); Ok (fst kv, v)) d).
  { intros d. apply mapM_same. intros kv. rewrite IH. reflexivity. }
  cbn [recursive_to_dicts]. destruct v; try reflexivity.
  - rewrite (mapM_same _ _ l IH). reflexivity.
  - rewrite Hm. reflexivity.
  - apply bind_same; [|reflexivity]. apply bind_same; [apply port_whatever|]. intros dct. rewrite (port_missing _ _ dct (port_comps cid)).
    apply bind_same; [reflexivity|]. intros upd. rewrite (port_drop _ _ (port_comps cid)). apply bind_same; [reflexivity|]. exact Hm.
Qed.

Lemma port_dicts n d : dicts_of E n d = dicts_of E' n d.
Proof. apply mapM_same. intros kv. rewrite port_recursive. reflexivity. Qed.

Lemma port_to_dict n cid vals keep : to_dict E n cid vals keep = to_dict E' n cid vals keep.
Proof.
  unfold to_dict. apply bind_same; [apply port_whatever|]. intros dct. rewrite (port_missing _ _ dct (port_comps cid)).
  apply bind_same; [reflexivity|]. intros upd. cbv zeta. rewrite (port_drop _ _ (port_comps cid)). apply bind_same; [reflexivity|]. apply port_dicts.
Qed.

(** ** Dumping *)
Definition same_dump (dd dd' : dumper) : Prop := forall f f' v ctx d, port f f' -> dd f v ctx d = dd' f' v ctx d.

Lemma port_dump_fields dd dd' fs fs' ctx d : same_dump dd dd' -> both fs fs' -> dump_fields dd fs ctx d = dump_fields dd' fs' ctx d.
Proof.
  intros Hd. induction 1 as [|[k f] [k' f'] fs fs' [_ Hf] _ IH]; [reflexivity|]. cbn [fst snd] in *. cbn [dump_fields].
  rewrite (port_conf _ _ Hf). apply dbind_same; [reflexivity|]. intros v. apply dbind_same; [|auto]. destruct (is_not_present v); [reflexivity|].
  apply port_field_with; auto.
Qed.

Lemma port_struct_with dd dd' n cid vals ctx : same_dump dd dd' -> struct_to_stream_with E dd n cid vals ctx = struct_to_stream_with E' dd' n cid vals ctx.
Proof.
  intros Hd. unfold struct_to_stream_with. rewrite port_contents. apply dbind_same; [reflexivity|]. intros _. rewrite port_to_dict. apply dbind_same; [reflexivity|].
  intros d. apply port_dump_fields; auto. apply port_comps.
Qed.

Lemma port_dump : forall n, same_dump (do_dump E n) (do_dump E' n).
Proof.
  assert (Hl : forall f f' n n' v ctx d, port f f' -> is_leaf (kind f) -> do_dump E n f v ctx d = do_dump E' n' f' v ctx d).
  { intros f f' n n' v ctx d Hp Hk. transitivity (leaf_dump (conf f) (kind f) (get_expected_size_with (fun _ => draise ETypeErr) (conf f) (kind f) d) v).
    - destruct n; cbn [do_dump]; destruct (kind f); try (exfalso; exact Hk); reflexivity.
    - transitivity (leaf_dump (conf f') (kind f') (get_expected_size_with (fun _ => draise ETypeErr) (conf f') (kind f') d) v).
      + rewrite <- (port_ges (fun _ => draise ETypeErr) (fun _ => draise ETypeErr) f f' d Hp (fun _ => eq_refl)). apply port_leaf_dump; auto.
        intros Hs. unfold get_expected_size_with. rewrite Hs. reflexivity.
      + pose proof (port_leaf _ _ Hp Hk) as Hk'. destruct n'; cbn [do_dump]; destruct (kind f'); try (exfalso; exact Hk'); reflexivity. }
  induction n as [|n IH]; intros f f' v ctx d Hp; (destruct (leaf_or_not (kind f)) as [Hk|Hk]; [apply Hl; auto|]); destruct Hp; try (exfalso; apply Hk; exact I).
  - destruct k; try (exfalso; apply Hk; exact I); try (exfalso; assumption). reflexivity.
  - reflexivity.
  - reflexivity.
  - destruct k; try (exfalso; apply Hk; exact I); try (exfalso; assumption). cbn [do_dump kind]. destruct v; try reflexivity.
    + apply dbind_same; [rewrite port_init; reflexivity|]. intros vals. apply port_struct_with; auto.
    + apply port_struct_with; auto.
  - cbn [do_dump kind]. apply array_dump_same. intros x. apply port_field_with; auto.
  - cbn [do_dump kind]. apply dbind_same; [reflexivity|]. intros i.
    assert (Hn : match nth_error chs i, nth_error chs' i with Some a, Some b => ported_choice h h' a b | None, None => True | _, _ => False end).
    { clear - H. revert i. induction H as [|a b chs chs' Hab _ IH]; intros [|i]; cbn [nth_error]; auto. apply IH. }
    destruct (nth_error chs i) as [a|], (nth_error chs' i) as [b|]; try (exfalso; exact Hn); [|reflexivity].
    destruct Hn as [g g' Hg|cid]; [apply port_field_with; auto|]. destruct v; try reflexivity.
    apply dbind_same; [rewrite port_init; reflexivity|]. intros vals. apply port_struct_with; auto.
Qed.

Lemma port_to_stream n cid vals ctx : struct_to_stream E n cid vals ctx = struct_to_stream E' n cid vals ctx.
Proof. apply port_struct_with. apply port_dump. Qed.

(** ** Equality *)
Lemma port_expected n f f' d : port f f' -> get_expected_size E n f d = get_expected_size E' n f' d.
Proof. intros Hp. unfold get_expected_size, ges. apply port_ges; auto. intros. apply port_dump; auto. Qed.

Lemma port_len_fields n fs fs' cur : both fs fs' -> len_fields E n fs cur = len_fields E' n fs' cur.
Proof.
  induction 1 as [|[k f] [k' f'] fs fs' [_ Hf] _ IH]; [reflexivity|]. cbn [fst snd] in *. cbn [len_fields].
  rewrite (port_conf _ _ Hf), (port_expected n f f' cur Hf), IH. apply bind_same; [|reflexivity].
  destruct (c_size (conf f')); try reflexivity; (destruct (get_expected_size E' n f' cur) as [z|e|]; try reflexivity; destruct (is_binobj_Error e); [|reflexivity]);
    (apply bind_same; [reflexivity|]; intros v; apply bind_same; [|reflexivity]; unfold field_to_bytes, field_to_stream; f_equal; apply port_field_with; auto; intros; apply port_dump; auto).
Qed.

Lemma port_len n cid vals : struct_len E n cid vals = struct_len E' n cid vals.
Proof. unfold struct_len. rewrite port_whatever. apply bind_same; [reflexivity|]. intros cur. rewrite (port_len_fields n _ _ cur (port_comps cid)). reflexivity. Qed.

Lemma port_defined n cid vals : defined_values E n cid vals = defined_values E' n cid vals.
Proof.
  unfold defined_values. rewrite port_len. apply bind_same; [reflexivity|]. intros _. apply bind_same; [|intros; apply port_dicts].
  apply mapM_same. intros k. rewrite port_get. reflexivity.
Qed.

Lemma list_eq_same (e e' : value -> value -> res bool) : (forall a b, e a b = e' a b) -> forall a b, list_eq_with e a b = list_eq_with e' a b.
Proof. intros H. induction a as [|x a IH]; intros [|y b]; try reflexivity. cbn [list_eq_with]. rewrite H, IH. reflexivity. Qed.

Lemma dict_eq_same (e e' : value -> value -> res bool) b : (forall a b, e a b = e' a b) -> forall a, dict_eq_with e a b = dict_eq_with e' a b.
Proof. intros H. induction a as [|[k x] a IH]; try reflexivity. cbn [dict_eq_with]. destruct (dget b k); [|reflexivity]. rewrite H, IH. reflexivity. Qed.

Lemma port_eq : forall n a b, py_eq E n a b = py_eq E' n a b.
Proof.
  induction n as [|n IH]; intros a b; [reflexivity|].
  assert (Hl : forall x y, list_eq_with (py_eq E n) x y = list_eq_with (py_eq E' n) x y) by (apply list_eq_same; exact IH).
  assert (Hd : forall x y, dict_eq_with (py_eq E n) x y = dict_eq_with (py_eq E' n) x y) by (intros; apply dict_eq_same; exact IH).
  cbn [py_eq]. destruct a, b; try reflexivity; rewrite ?Hl, ?Hd, ?port_defined, ?port_dicts; try reflexivity;
    (apply bind_same; [reflexivity|]; intros mine; rewrite ?port_defined, ?port_dicts; apply bind_same; [reflexivity|]; intros theirs; apply IH).
Qed.

(** ** Loading *)
Definition same_load (dl dl' : floader) : Prop := forall f f' ctx d s, port f f' -> dl f ctx d s = dl' f' ctx d s.

Lemma port_from_with dl dl' n f f' ctx d s : same_load dl dl' -> port f f' ->
  field_from_stream_with E dl n f ctx d s = field_from_stream_with E' dl' n f' ctx d s.
Proof.
  intros Hd Hp. unfold field_from_stream_with. rewrite <- (port_conf _ _ Hp). apply from_stream_same.
  - unfold null_repr, null_repr_with, ges. rewrite (port_ges (fun v => do_dump E n f v VNone d) (fun v => do_dump E' n f' v VNone d) f f' d Hp), <- (port_conf _ _ Hp).
    + destruct (c_null (conf f)); try reflexivity; rewrite (port_dump n f f' _ VNone d Hp); reflexivity.
    + intros v. apply port_dump; auto.
  - intros s1. apply Hd; auto.
  - apply port_eq.
Qed.

Lemma port_load_fields dl dl' n fs fs' ctx : same_load dl dl' -> both fs fs' -> forall results s, load_fields E dl n fs ctx results s = load_fields E' dl' n fs' ctx results s.
Proof.
  intros Hd. induction 1 as [|[k f] [k' f'] fs fs' [Hk Hf] _ IH]; intros results s; [reflexivity|]. cbn [fst snd] in *. subst k'. cbn [load_fields].
  apply lbind_same; [apply port_from_with; auto|]. intros v s1. apply IH.
Qed.

Lemma port_from_struct dl dl' n cid ctx kw s : same_load dl dl' -> struct_from_stream_with E dl n cid ctx kw s = struct_from_stream_with E' dl' n cid ctx kw s.
Proof.
  intros Hd. unfold struct_from_stream_with. apply lbind_same; [apply port_load_fields; auto; apply port_comps|]. intros results s1.
  apply lbind_same; [unfold llift; rewrite port_init; reflexivity|]. intros vals s2. apply lbind_same; [unfold llift; rewrite port_contents; reflexivity|].
  intros _ s3. rewrite (port_delete _ _ (port_comps cid)). reflexivity.
Qed.

Lemma port_load : forall n, same_load (do_load E n) (do_load E' n).
Proof.
  assert (Hl : forall f f' n ctx d s, port f f' -> is_leaf (kind f) -> do_load E n f ctx d s = do_load E' n f' ctx d s).
  { intros f f' n ctx d s Hp Hk.
    transitivity (leaf_load (conf f) (kind f) (get_expected_size_with (fun v => do_dump E n f v VNone d) (conf f) (kind f) d) (get_expected_size_with (fun v => do_dump E n f v VNone []) (conf f) (kind f) []) s).
    - destruct n; cbn [do_load]; destruct (kind f); try (exfalso; exact Hk); reflexivity.
    - transitivity (leaf_load (conf f') (kind f') (get_expected_size_with (fun v => do_dump E' n f' v VNone d) (conf f') (kind f') d) (get_expected_size_with (fun v => do_dump E' n f' v VNone []) (conf f') (kind f') []) s).
      + rewrite <- (port_ges (fun v => do_dump E n f v VNone d) (fun v => do_dump E' n f' v VNone d) f f' d Hp) by (intros; apply port_dump; auto).
        rewrite <- (port_ges (fun v => do_dump E n f v VNone []) (fun v => do_dump E' n f' v VNone []) f f' [] Hp) by (intros; apply port_dump; auto).
        apply port_leaf_load; auto. intros Hs. unfold get_expected_size_with. rewrite Hs. reflexivity.
      + pose proof (port_leaf _ _ Hp Hk) as Hk'. destruct n; cbn [do_load]; destruct (kind f'); try (exfalso; exact Hk'); reflexivity. }
  induction n as [|n IH]; intros f f' ctx d s Hp; (destruct (leaf_or_not (kind f)) as [Hk|Hk]; [apply Hl; auto|]); destruct Hp; try (exfalso; apply Hk; exact I).
  - destruct k; try (exfalso; apply Hk; exact I); try (exfalso; assumption). reflexivity.
  - reflexivity.
  - reflexivity.
  - destruct k; try (exfalso; apply Hk; exact I); try (exfalso; assumption). cbn [do_load kind]. apply lbind_same; [apply port_from_struct; auto|]. reflexivity.
  - cbn [do_load kind]. apply array_load_same. intros s1. apply port_from_with; auto.
  - cbn [do_load kind]. destruct (ld s ctx d) as [i|e|]; try reflexivity.
    assert (Hn : match nth_error chs i, nth_error chs' i with Some a, Some b => ported_choice h h' a b | None, None => True | _, _ => False end).
    { clear - H. revert i. induction H as [|a b chs chs' Hab _ IH]; intros [|i]; cbn [nth_error]; auto. apply IH. }
    destruct (nth_error chs i) as [a|], (nth_error chs' i) as [b|]; try (exfalso; exact Hn); [|reflexivity].
    destruct Hn as [g g' Hg|cid]; [apply IH; auto|]. apply lbind_same; [apply port_from_struct; auto|]. reflexivity.
Qed.

Lemma port_from_stream n cid ctx kw s : struct_from_stream E n cid ctx kw s = struct_from_stream E' n cid ctx kw s.
Proof. apply port_from_struct. apply port_load. Qed.

(** ** Parts of structs *)
Lemma port_partial_dump n cid vals last ctx : partial_dump E n cid vals last ctx = partial_dump E' n cid vals last ctx.
Proof.
  unfold partial_dump. pose proof (port_comps cid) as H. induction H as [|[k f] [k' f'] fs fs' [_ Hf] _ IH]; [reflexivity|]. cbn [fst snd] in *. cbn [partial_dump_fields].
  rewrite (port_conf _ _ Hf), (port_cname _ _ Hf), (port_name _ _ Hf). apply dbind_same; [reflexivity|]. intros dv. cbv zeta.
  destruct (is_undefined _ && _); [reflexivity|]. destruct (is_undefined _ && _); [reflexivity|].
  apply dbind_same; [apply port_field_with; auto; intros; apply port_dump; auto|]. intros _. rewrite IH. reflexivity.
Qed.

Lemma port_from_field n f f' ctx d s : port f f' -> field_from_stream E n f ctx d s = field_from_stream E' n f' ctx d s.
Proof. intros Hp. apply port_from_with; auto. apply port_load. Qed.

Lemma port_to_field n f f' v ctx d : port f f' -> field_to_stream E n f v ctx d = field_to_stream E' n f' v ctx d.
Proof. intros Hp. apply port_field_with; auto. intros. apply port_dump; auto. Qed.

Lemma port_partial_load n cid last ctx s : partial_load E n cid last ctx s = partial_load E' n cid last ctx s.
Proof.
  assert (Hl : forall fs fs', both fs fs' -> forall result s, partial_load_fields E n fs last ctx result s = partial_load_fields E' n fs' last ctx result s).
  { induction 1 as [|[k f] [k' f'] fs fs' [_ Hf] _ IH]; intros result s1; [reflexivity|]. cbn [fst snd] in *. cbn [partial_load_fields].
    rewrite (port_conf _ _ Hf), (port_cname _ _ Hf), (port_from_field n f f' ctx result s1 Hf). destruct (field_from_stream E' n f' ctx result s1) as [s2 [v|e|]]; auto.
    destruct (match last with Some l => String.eqb (cname f') l | None => false end); auto. }
  unfold partial_load.
  assert (Ha : forall l, match assoc (comps E cid) l with Some _ => false | None => true end = match assoc (comps E' cid) l with Some _ => false | None => true end).
  { intros l. pose proof (both_assoc l _ _ (port_comps cid)) as Ha. destruct (assoc (comps E cid) l), (assoc (comps E' cid) l); try (exfalso; exact Ha); reflexivity. }
  replace (match last with Some l => match assoc (comps E' cid) l with Some _ => false | None => true end | None => false end)
    with (match last with Some l => match assoc (comps E cid) l with Some _ => false | None => true end | None => false end)
    by (destruct last; [apply Ha|reflexivity]).
  destruct (match last with Some l => _ | None => false end); [reflexivity|].
  apply lbind_same; [apply Hl; apply port_comps|]. intros r s1. unfold llift. rewrite port_init. reflexivity.
Qed.

Lemma port_get_field n cid nm ctx s : get_field E n cid nm ctx s = get_field E' n cid nm ctx s.
Proof.
  unfold get_field. pose proof (both_assoc nm _ _ (port_comps cid)) as Ha.
  destruct (assoc (comps E cid) nm) as [f|], (assoc (comps E' cid) nm) as [f'|]; try (exfalso; exact Ha); [|reflexivity].
  rewrite (port_conf _ _ Ha). cbv zeta. destruct (c_offset (conf f')) as [off|].
  - destruct (seek s _) as [s1 [u|e|]]; try reflexivity. rewrite (port_from_field n f f' ctx [] s1 Ha). reflexivity.
  - rewrite port_partial_load. destruct (partial_load E' n cid (Some nm) ctx s) as [s1 [vals|e|]]; try reflexivity. rewrite port_get. reflexivity.
Qed.

End Env.
End Hosts.

(** ** Where the byte order is not given *)
Lemma to_bytes_rev v n sg bs : py_to_bytes v n Little sg = Ok bs -> py_to_bytes v n Big sg = Ok (rev bs).
Proof.
  unfold py_to_bytes. destruct (n <? 0); [discriminate|]. destruct (fits sg n v); [|discriminate]. cbn [order]. intros H. injection H as <-. reflexivity.
Qed.

Lemma integer_dump E n c sg e z ctx d : field_to_stream E n (Field c (KInt sg e)) (VInt z) ctx d =
  match run_validators (c_validators c) (VInt z), c_size c with
  | Ok _, SInt w =>
    match py_to_bytes z w e sg with
    | Ok bs => if 0 <? zlen bs - w then draise (EValueSize (c_name c)) else if zlen bs - w <? 0 then draise (EValueSize (c_name c)) else (bs, Ok tt)
    | Raise x => draise (if is_ValueError_or_OverflowError x then EUnserializable (c_name c) else x)
    | OOF => ([], OOF)
    end
  | Ok _, _ => draise (EUndefinedSize (c_name c))
  | Raise x, _ => draise x
  | OOF, _ => ([], OOF)
  end.
Proof.
  unfold field_to_stream, field_to_stream_with, to_stream_with. cbn [conf kind].
  assert (Hd : forall d, do_dump E n (Field c (KInt sg e)) (VInt z) ctx d = leaf_dump c (KInt sg e) (Raise ETypeErr) (VInt z)) by (intros; destruct n; reflexivity).
  unfold dbind at 1. cbn -[zlen Z.sub Z.ltb py_to_bytes write_int run_validators null_repr ges do_dump dbind]. rewrite Hd.
  destruct (run_validators (c_validators c) (VInt z)) as [u|x|] eqn:Hr; unfold dbind at 1; cbn -[zlen Z.sub Z.ltb py_to_bytes write_int null_repr ges dbind]; try reflexivity.
  destruct (c_size c) as [|w|nm] eqn:Hs; try reflexivity.
  unfold write_int. destruct (py_to_bytes z w e sg) as [bs|x|] eqn:Hb; cbn -[zlen Z.sub Z.ltb]; try reflexivity.
  - destruct (0 <? zlen bs - w) eqn:H1; [reflexivity|]. destruct (zlen bs - w <? 0) eqn:H2; reflexivity.
  - destruct (is_ValueError_or_OverflowError x); reflexivity.
Qed.

Lemma reversed_integer E n c sg z ctx d out : field_to_stream E n (Field c (integer_on Little sg None)) (VInt z) ctx d = (out, Ok tt) ->
  field_to_stream E n (Field c (integer_on Big sg None)) (VInt z) ctx d = (rev out, Ok tt).
Proof.
  unfold integer_on. cbn [field_endian]. rewrite !integer_dump. destruct (run_validators (c_validators c) (VInt z)); try discriminate.
  destruct (c_size c) as [|w|nm]; try discriminate. destruct (py_to_bytes z w Little sg) as [bs|e|] eqn:Hb; try discriminate.
  rewrite (to_bytes_rev _ _ _ _ Hb). replace (zlen (rev bs)) with (zlen bs) by (unfold zlen; rewrite rev_length; reflexivity).
  destruct (0 <? zlen bs - w); [discriminate|]. destruct (zlen bs - w <? 0); [discriminate|]. intros H. injection H as <-. reflexivity.
Qed.

Lemma bind_hosts h h' defaults nm i o class c sg : assoc defaults (class ++ "__endian")%string <> None \/ assoc defaults "endian"%string <> None ->
  bind_to_container defaults nm i o (mkDecl class false (Field c (integer_on h sg None))) = bind_to_container defaults nm i o (mkDecl class false (Field c (integer_on h' sg None))).
Proof.
  intros H. unfold bind_to_container, integer_on, endian_default. cbn [d_field d_endian_given d_class]. cbn [append].
  change ("__" ++ "endian")%string with "__endian"%string.
  destruct (assoc defaults (class ++ "__endian")); [reflexivity|]. destruct (assoc defaults "endian"); [reflexivity|]. destruct H; congruence.
Qed.
