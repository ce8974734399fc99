(** Proofs about warnings that are errors (C99). *)
From Coq Require Import Lia.
From Verif Require Import Tac FieldProofs FieldMore StructProofs SizeProofs.
From Verif Require Export SpecWarn.
Open Scope list_scope.
Open Scope Z_scope.

Notation warned := (Raise deprecation).

(** ** The same, or a warning *)
Definition sow {A} (s l : dumped A) : Prop := s = l \/ exists out rest, s = (out, warned) /\ fst l = out ++ rest.
Definition rsow {A} (s l : res A) : Prop := s = l \/ s = warned.

Lemma sow_refl {A} (m : dumped A) : sow m m.
Proof. left. reflexivity. Qed.

Lemma fst_dbind {A B} (m : dumped A) (k : A -> dumped B) : exists rest, fst (dbind m k) = fst m ++ rest.
Proof.
  unfold dbind. destruct m as [o [a|e|]]; cbn [fst]; [|exists []; rewrite app_nil_r; reflexivity|exists []; rewrite app_nil_r; reflexivity].
  destruct (k a) as [o2 r]. exists o2. reflexivity.
Qed.

Lemma sow_bind {A B} (m m' : dumped A) (k k' : A -> dumped B) : sow m m' -> (forall a, sow (k a) (k' a)) -> sow (dbind m k) (dbind m' k').
Proof.
  intros [->|(o & r & -> & Hf)] Hk.
  - destruct m' as [o [a|e|]]; try (left; reflexivity). destruct (Hk a) as [Ha|(o2 & r2 & Ha & Hf)].
    + left. unfold dbind. rewrite Ha. reflexivity.
    + right. unfold dbind. rewrite Ha. destruct (k' a) as [o3 r3]. cbn [fst] in *. subst o3. exists (o ++ o2), r2. split; [reflexivity|]. rewrite app_assoc. reflexivity.
  - right. destruct (fst_dbind m' k') as (r' & Hr). exists o, (r ++ r'). split; [reflexivity|]. rewrite Hr, Hf, app_assoc. reflexivity.
Qed.

Lemma sow_lift {A} (s l : res A) : rsow s l -> sow (dlift s) (dlift l).
Proof. intros [->| ->]; [left; reflexivity|]. right. exists [], (fst (dlift l)). split; reflexivity. Qed.

Lemma rsow_bind {A B} (m m' : res A) (k k' : A -> res B) : rsow m m' -> (forall a, rsow (k a) (k' a)) -> rsow (do x <- m; k x) (do x <- m'; k' x).
Proof. intros [->| ->] Hk; [|right; reflexivity]. destruct m' as [a|e|]; cbn [bind]; [apply Hk|left; reflexivity|left; reflexivity]. Qed.

Lemma rsow_refl {A} (m : res A) : rsow m m.
Proof. left. reflexivity. Qed.

Lemma rsow_mapM {A B} (f g : A -> res B) l : (forall a, rsow (f a) (g a)) -> rsow (mapM f l) (mapM g l).
Proof.
  intros H. induction l as [|a l IH]; [apply rsow_refl|]. cbn [mapM]. apply rsow_bind; [auto|]. intros b. apply rsow_bind; [auto|]. intros. apply rsow_refl.
Qed.

Definition agrees (dd dd' : dumper) : Prop := forall f v ctx d, sow (dd f v ctx d) (dd' f v ctx d).

Lemma agree_ges dd dd' f d : agrees dd dd' -> rsow (ges dd f d) (ges dd' f d).
Proof.
  intros H. unfold ges, get_expected_size_with. destruct (c_size (conf f)) as [|z|nm]; try apply rsow_refl.
  unfold expected_unsized. apply rsow_bind; [apply rsow_refl|]. intros v. destruct (is_none v); [|apply rsow_refl].
  unfold unsized_null_len. destruct (c_null (conf f)); try apply rsow_refl;
    destruct (kind f); try apply rsow_refl;
    match goal with |- rsow (match dd f ?x ?c d with _ => _ end) _ => destruct (H f x c d) as [->|(o & r & -> & _)]; [apply rsow_refl|right; reflexivity] end.
Qed.

Lemma agree_null dd dd' f d : agrees dd dd' -> rsow (null_repr dd f d) (null_repr dd' f d).
Proof.
  intros H. unfold null_repr, null_repr_with.
  destruct (c_null (conf f)); try apply rsow_refl;
    try match goal with |- rsow (match dd f ?x ?c d with _ => _ end) _ => destruct (H f x c d) as [->|(o & r & -> & _)]; [apply rsow_refl|right; reflexivity] end;
    destruct (agree_ges dd dd' f d H) as [->| ->]; try apply rsow_refl; right; reflexivity.
Qed.

Lemma agree_field dd dd' f v ctx d : agrees dd dd' -> sow (field_to_stream_with dd f v ctx d) (field_to_stream_with dd' f v ctx d).
Proof.
  intros H. unfold field_to_stream_with, to_stream_with. apply sow_bind; [apply sow_refl|]. intros x.
  destruct (is_undefined x || is_default x); [apply sow_refl|]. apply sow_bind; [apply sow_refl|]. intros _.
  destruct (is_none x); [apply sow_bind; [apply sow_lift; apply agree_null; auto|intros; apply sow_refl]|].
  destruct (H f x ctx d) as [->|(o & r & -> & _)].
  - destruct (dd' f x ctx d) as [sv r]. apply sow_bind; [apply sow_refl|]. intros _. apply sow_bind; [|intros; apply sow_refl].
    apply sow_lift. destruct (c_size (conf f)); [apply rsow_refl|apply rsow_refl|apply agree_ges; auto].
  - right. exists []. eexists. split; reflexivity.
Qed.

Lemma agree_fields dd dd' fs ctx d : agrees dd dd' -> sow (dump_fields dd fs ctx d) (dump_fields dd' fs ctx d).
Proof.
  intros H. induction fs as [|[nm f] fs IH]; [apply sow_refl|]. cbn [dump_fields]. apply sow_bind; [apply sow_refl|]. intros v.
  apply sow_bind; [|auto]. destruct (is_not_present v); [apply sow_refl|apply agree_field; auto].
Qed.

Lemma agree_array dump dump' nm cnt v d : (forall x, sow (dump x) (dump' x)) -> sow (array_dump dump nm cnt v d) (array_dump dump' nm cnt v d).
Proof.
  intros H. unfold array_dump. apply sow_bind; [apply sow_refl|]. intros n_elems.
  assert (Hi : forall l, sow (dump_items dump l) (dump_items dump' l)).
  { induction l as [|x l IH]; [apply sow_refl|]. cbn [dump_items]. apply sow_bind; auto. }
  destruct (sized_items v) as [l|].
  - destruct n_elems as [c|]; [|apply Hi]. destruct (negb _); [apply sow_refl|apply Hi].
  - destruct v; try apply sow_refl. match goal with |- sow (dump_unsized _ _ _ ?w ?l) _ => generalize w end.
    induction l as [|x l IH]; intros w; [apply sow_refl|]. cbn [dump_unsized].
    destruct (match n_elems with Some c => count_is c w | None => false end); [apply sow_refl|]. apply sow_bind; auto.
Qed.

Section Env.
Variable E : env.

Lemma strict_possible n cid vals fs : forall dct, rsow (s_possible_values E n cid vals fs dct) (possible_values E n cid vals fs dct).
Proof.
  induction fs as [|[nm f] fs IH]; intros dct; [apply rsow_refl|]. cbn [s_possible_values possible_values].
  destruct (run_struct E n cid vals (compute_value_for_dump (conf f) VNone)) as [v|e|]; [auto| |apply rsow_refl].
  destruct (ignored_silently e) eqn:Hi.
  - replace (is_binobj_Error e) with true; [auto|]. symmetry. unfold ignored_silently in Hi. destruct e; try discriminate; reflexivity.
  - destruct (is_binobj_Error e); [right; reflexivity|apply rsow_refl].
Qed.

Lemma strict_whatever n cid vals : rsow (s_to_dict_whatever_possible E n cid vals) (to_dict_whatever_possible E n cid vals).
Proof. apply rsow_bind; [apply strict_possible|]. intros. apply rsow_refl. Qed.

Lemma strict_recursive : forall n v, rsow (s_recursive_to_dicts E n v) (recursive_to_dicts E n v).
Proof.
  induction n as [|n IH]; intros v; [apply rsow_refl|].
  assert (Hm : forall d : dict, rsow (mapM (fun kv => do v <- s_recursive_to_dicts E n (snd kv); Ok (fst kv, v)) d) (mapM (fun kv => do v <- recursive_to_dicts E n (snd kv); Ok (fst kv, v)) d)).
  { intros d. apply rsow_mapM. intros kv. apply rsow_bind; [apply IH|]. intros. apply rsow_refl. }
  cbn [s_recursive_to_dicts recursive_to_dicts]. destruct v; try apply rsow_refl.
  - apply rsow_bind; [apply rsow_mapM; auto|intros; apply rsow_refl].
  - apply rsow_bind; [apply Hm|intros; apply rsow_refl].
  - apply rsow_bind; [|intros; apply rsow_refl]. apply rsow_bind; [apply strict_whatever|]. intros dct.
    apply rsow_bind; [apply rsow_refl|]. intros upd. apply rsow_bind; [apply rsow_refl|]. intros d'. apply Hm.
Qed.

Lemma strict_to_dict n cid vals keep : rsow (s_to_dict E n cid vals keep) (to_dict E n cid vals keep).
Proof.
  unfold s_to_dict, to_dict. apply rsow_bind; [apply strict_whatever|]. intros dct. apply rsow_bind; [apply rsow_refl|]. intros upd. cbv zeta.
  apply rsow_bind; [apply rsow_refl|]. intros d'. apply rsow_mapM. intros kv. apply rsow_bind; [apply strict_recursive|]. intros. apply rsow_refl.
Qed.

Lemma strict_struct_with dd dd' n cid vals ctx : agrees dd dd' -> sow (s_struct_to_stream_with E dd n cid vals ctx) (struct_to_stream_with E dd' n cid vals ctx).
Proof.
  intros H. unfold s_struct_to_stream_with, struct_to_stream_with. apply sow_bind; [apply sow_refl|]. intros _.
  apply sow_bind; [apply sow_lift; apply strict_to_dict|]. intros d. apply agree_fields; auto.
Qed.

Lemma strict_dump : forall n, agrees (s_do_dump E n) (do_dump E n).
Proof.
  assert (Hl : forall n f v ctx d, match kind f with KArray _ _ _ | KNested _ | KUnion _ _ _ => False | _ => True end -> sow (s_do_dump E n f v ctx d) (do_dump E n f v ctx d)).
  { intros n f v ctx d Hk. destruct n; cbn [s_do_dump do_dump]; destruct (kind f); try destruct Hk;
      (destruct (zone_mismatch _ v); [right; exists []; eexists; split; reflexivity|apply sow_refl]). }
  induction n as [|n IH]; intros f v ctx d.
  - destruct (kind f) eqn:Hk; try (apply Hl; rewrite Hk; exact I); cbn [s_do_dump do_dump]; rewrite Hk; apply sow_refl.
  - destruct (kind f) eqn:Hk; try (apply Hl; rewrite Hk; exact I); cbn [s_do_dump do_dump]; rewrite Hk.
    + apply agree_array. intros x. apply agree_field; auto.
    + destruct v; try apply sow_refl; [apply sow_bind; [apply sow_refl|intros]|]; apply strict_struct_with; auto.
    + apply sow_bind; [apply sow_refl|]. intros i. destruct (nth_error choices i) as [[g|c]|]; [apply agree_field; auto| |apply sow_refl].
      destruct v; try apply sow_refl. apply sow_bind; [apply sow_refl|intros]. apply strict_struct_with; auto.
Qed.

Lemma strict_struct n cid vals ctx : same_or_warned (s_struct_to_stream E n cid vals ctx) (struct_to_stream E n cid vals ctx).
Proof. exact (strict_struct_with _ _ n cid vals ctx (strict_dump n)). Qed.

Lemma strict_field n f v ctx d : same_or_warned (s_field_to_stream E n f v ctx d) (field_to_stream E n f v ctx d).
Proof. exact (agree_field _ _ f v ctx d (strict_dump n)). Qed.

(** ** No warnings *)
Lemma meek_bind {A B} (q : query A) (k : A -> query B) : meek q -> (forall a, meek (k a)) -> meek (qbind q k).
Proof. intros Hq Hk. induction Hq; cbn [qbind]; try constructor; auto. Qed.

Lemma meek_run {A} mem get keys (q : query A) : (forall name e, get name = Raise e -> loud e = false) -> meek q ->
  forall e, run_q mem get keys q = Raise e -> loud e = false.
Proof.
  intros Hg Hq. induction Hq as [a|e0 He|name k _ IH|name k _ IH1 _ IH2|k _ IH]; intros e; cbn [run_q]; try discriminate; try (intros [= ->]; exact He); eauto.
  destruct (get name) as [v|e1|] eqn:H1; [eauto|eauto|discriminate].
Qed.

Lemma meek_compute f ctx : meek_field f -> meek (compute_value_for_dump (conf f) ctx).
Proof.
  intros (Hp & Hc & Hf). unfold compute_value_for_dump. apply meek_bind.
  - assert (Hfb : meek (fallback_value (conf f))).
    { unfold fallback_value. destruct (negb (is_undefined (c_default (conf f)))).
      - unfold default_query, default_of. destruct (c_factory (conf f)) as [[v|e]|]; constructor; auto.
      - destruct (c_compute (conf f)); [auto|constructor]. }
    unfold stored_or_fallback. destruct (c_name (conf f)); [|auto]. constructor. intros []; [|auto]. constructor; intros; constructor; auto.
  - intros v. destruct (is_not_present v); [constructor|]. apply meek_bind; [apply Hp|]. intros p.
    destruct (negb p); [constructor|]. destruct (is_undefined v); constructor. reflexivity.
Qed.

Hypothesis Hmeek : meek_env E.

Lemma meek_comps cid name f : In (name, f) (comps E cid) -> meek_field f.
Proof.
  unfold comps, cls. intros H. unfold meek_env in Hmeek. destruct (nth_in_or_default cid E empty_class) as [Hn|Hn].
  - rewrite Forall_forall in Hmeek. specialize (Hmeek _ Hn). rewrite Forall_forall in Hmeek. exact (Hmeek _ H).
  - rewrite Hn in H. destruct H.
Qed.

Lemma meek_get cid vals : forall n name e, struct_get E n cid vals name = Raise e -> loud e = false.
Proof.
  induction n as [|n IH]; intros name e; cbn [struct_get]; destruct (assoc (comps E cid) name) as [f|] eqn:Hf; try (intros [= <-]; reflexivity);
    destruct (oget vals (name_of f)); try discriminate.
  apply meek_run; [auto|]. apply meek_compute. apply assoc_in in Hf. eapply meek_comps; eauto.
Qed.

Lemma quiet_possible n cid vals fs : incl fs (comps E cid) -> forall dct, s_possible_values E n cid vals fs dct = possible_values E n cid vals fs dct.
Proof.
  induction fs as [|[nm f] fs IH]; intros Hi dct; [reflexivity|]. cbn [s_possible_values possible_values].
  assert (Hi' : incl fs (comps E cid)) by (intros x Hx; apply Hi; right; auto).
  destruct (run_struct E n cid vals (compute_value_for_dump (conf f) VNone)) as [v|e|] eqn:Hr; [auto| |reflexivity].
  assert (Hl : loud e = false).
  { unfold run_struct in Hr. eapply meek_run; [|apply meek_compute|exact Hr]; [apply meek_get|]. apply (meek_comps cid nm). apply Hi. left. auto. }
  unfold loud in Hl. fold (ignored_silently e) in Hl. rewrite IH by auto.
  destruct (ignored_silently e) eqn:Hs; [|destruct (is_binobj_Error e); [discriminate|reflexivity]].
  replace (is_binobj_Error e) with true; [reflexivity|]. symmetry. unfold ignored_silently in Hs. destruct e; try discriminate; reflexivity.
Qed.

Lemma mapM_ext {A B} (f g : A -> res B) l : (forall a, f a = g a) -> mapM f l = mapM g l.
Proof. intros H. induction l as [|a l IH]; [reflexivity|]. cbn [mapM]. rewrite H, IH. reflexivity. Qed.

Lemma quiet_whatever n cid vals : s_to_dict_whatever_possible E n cid vals = to_dict_whatever_possible E n cid vals.
Proof. unfold s_to_dict_whatever_possible, to_dict_whatever_possible. rewrite quiet_possible by apply incl_refl. reflexivity. Qed.

Lemma quiet_recursive : forall n v, s_recursive_to_dicts E n v = recursive_to_dicts E n v.
Proof.
  induction n as [|n IH]; intros v; [reflexivity|].
  assert (Hm : forall d : dict, mapM (fun kv => do v <- s_recursive_to_dicts E n (snd kv); Ok (fst kv, v)) d = mapM (fun kv => do v <- recursive_to_dicts E n (snd kv); Ok (fst kv, v)) d).
  { intros d. apply mapM_ext. intros kv. rewrite IH. reflexivity. }
  cbn [s_recursive_to_dicts recursive_to_dicts]. destruct v; try reflexivity.
  - rewrite (mapM_ext _ _ l IH). reflexivity.
  - rewrite Hm. reflexivity.
  - rewrite quiet_whatever. destruct (to_dict_whatever_possible E n cid d) as [dct|e|]; cbn [bind]; [|reflexivity|reflexivity].
    destruct (missing_values (comps E cid) dct) as [upd|e|]; cbn [bind]; [|reflexivity|reflexivity].
    destruct (drop_discard (comps E cid) (dupdate dct upd)) as [d'|e|]; cbn [bind]; [|reflexivity|reflexivity]. rewrite Hm. reflexivity.
Qed.

Lemma quiet_to_dict n cid vals keep : s_to_dict E n cid vals keep = to_dict E n cid vals keep.
Proof.
  unfold s_to_dict, to_dict, dicts_of. rewrite quiet_whatever. destruct (to_dict_whatever_possible E n cid vals) as [dct|e|]; cbn [bind]; [|reflexivity|reflexivity].
  destruct (missing_values (comps E cid) dct) as [upd|e|]; cbn [bind]; [|reflexivity|reflexivity].
  destruct (if keep then Ok (dupdate dct upd) else drop_discard (comps E cid) (dupdate dct upd)) as [d'|e|]; cbn [bind]; [|reflexivity|reflexivity].
  apply mapM_ext. intros kv. rewrite quiet_recursive. reflexivity.
Qed.

Lemma eq_ges (dd dd' : dumper) f d : (forall v ctx d, dd f v ctx d = dd' f v ctx d) -> ges dd f d = ges dd' f d.
Proof.
  intros H. unfold ges, get_expected_size_with. destruct (c_size (conf f)); try reflexivity. unfold expected_unsized.
  match goal with |- bind ?m _ = _ => destruct m as [v|e|] end; cbn [bind]; try reflexivity. destruct (is_none v); [|reflexivity].
  unfold unsized_null_len. destruct (c_null (conf f)); try reflexivity; destruct (kind f); try reflexivity; rewrite H; reflexivity.
Qed.

Lemma eq_field (dd dd' : dumper) f v ctx d : (forall v ctx d, dd f v ctx d = dd' f v ctx d) -> field_to_stream_with dd f v ctx d = field_to_stream_with dd' f v ctx d.
Proof.
  intros H. unfold field_to_stream_with, to_stream_with. rewrite (eq_ges dd dd' f d H).
  assert (Hn : null_repr dd f d = null_repr dd' f d).
  { unfold null_repr, null_repr_with. rewrite (eq_ges dd dd' f d H). destruct (c_null (conf f)); try reflexivity; rewrite H; reflexivity. }
  rewrite Hn. destruct (if is_default v then default_of (conf f) else Ok v) as [x|e|]; try reflexivity. rewrite !dbind_ok.
  destruct (is_undefined x || is_default x); [reflexivity|]. destruct (run_validators (c_validators (conf f)) x) as [[]|e|]; try reflexivity. rewrite !dbind_ok.
  destruct (is_none x); [reflexivity|]. rewrite H. reflexivity.
Qed.

Lemma eq_fields (dd dd' : dumper) fs ctx d : (forall name f, In (name, f) fs -> forall v ctx d, dd f v ctx d = dd' f v ctx d) -> dump_fields dd fs ctx d = dump_fields dd' fs ctx d.
Proof.
  induction fs as [|[nm f] fs IH]; intros H; [reflexivity|]. cbn [dump_fields].
  destruct (run_dict d (compute_value_for_dump (conf f) ctx)) as [v|e|]; try reflexivity. rewrite !dbind_ok.
  rewrite IH by (intros nm' g Hg; apply (H nm' g); right; auto). rewrite (eq_field dd dd' f v ctx d (H nm f (or_introl eq_refl))). reflexivity.
Qed.

Lemma eq_array (dump dump' : value -> dumped unit) nm cnt v d : (forall x, dump x = dump' x) -> array_dump dump nm cnt v d = array_dump dump' nm cnt v d.
Proof.
  intros H. unfold array_dump.
  assert (Hi : forall l, dump_items dump l = dump_items dump' l).
  { induction l as [|x l IH]; [reflexivity|]. cbn [dump_items]. rewrite H, IH. reflexivity. }
  assert (Hu : forall n_elems l w, dump_unsized dump nm n_elems w l = dump_unsized dump' nm n_elems w l).
  { intros n_elems. induction l as [|x l IH]; intros w; [reflexivity|]. cbn [dump_unsized]. rewrite H, IH. reflexivity. }
  destruct (get_final_element_count cnt d) as [n_elems|e|]; try reflexivity. rewrite !dbind_ok.
  destruct (sized_items v) as [l|]; [rewrite Hi; reflexivity|]. destruct v; try reflexivity. apply Hu.
Qed.

Hypothesis Hdates : dateless_env E.

Lemma dateless_comps cid name f : In (name, f) (comps E cid) -> dateless f = true.
Proof.
  unfold comps, cls. intros H. unfold dateless_env in Hdates. destruct (nth_in_or_default cid E empty_class) as [Hn|Hn].
  - rewrite Forall_forall in Hdates. specialize (Hdates _ Hn). rewrite Forall_forall in Hdates. exact (Hdates _ H).
  - rewrite Hn in H. destruct H.
Qed.

Lemma quiet_struct_with (dd dd' : dumper) n cid vals ctx : (forall f v ctx d, dateless f = true -> dd f v ctx d = dd' f v ctx d) ->
  s_struct_to_stream_with E dd n cid vals ctx = struct_to_stream_with E dd' n cid vals ctx.
Proof.
  intros H. unfold s_struct_to_stream_with, struct_to_stream_with. rewrite quiet_to_dict.
  destruct (validate_contents E n cid vals) as [[]|e|]; try reflexivity. rewrite !dbind_ok.
  destruct (to_dict E n cid vals false) as [d|e|]; try reflexivity. rewrite !dbind_ok. apply eq_fields.
  intros nm f Hf v c d'. apply H. eapply dateless_comps; eauto.
Qed.

Lemma quiet_dump : forall n f v ctx d, dateless f = true -> s_do_dump E n f v ctx d = do_dump E n f v ctx d.
Proof.
  assert (Hl : forall n f v ctx d, dateless f = true -> match kind f with KArray _ _ _ | KNested _ | KUnion _ _ _ => False | _ => True end -> s_do_dump E n f v ctx d = do_dump E n f v ctx d).
  { intros n [c k] v ctx d Hd Hk. cbn [kind] in Hk. destruct n; cbn [s_do_dump do_dump kind]; destruct k; try destruct Hk; try discriminate Hd; reflexivity. }
  induction n as [|n IH]; intros f v ctx d Hd.
  - destruct (kind f) eqn:Hk; try (apply Hl; [exact Hd|rewrite Hk; exact I]); cbn [s_do_dump do_dump]; rewrite Hk; reflexivity.
  - destruct (kind f) as [sg e|fmt mx|fmt e|r tz sg e| |cd pad|cd pad|fmt|comp cnt halt|cid|choices ld dmp] eqn:Hk;
      try (apply Hl; [exact Hd|rewrite Hk; exact I]); cbn [s_do_dump do_dump]; rewrite Hk.
    + assert (Hc : dateless comp = true) by (destruct f as [c k]; cbn [kind] in Hk; subst k; exact Hd).
      apply eq_array. intros x. apply eq_field. intros. apply IH. exact Hc.
    + destruct v; try reflexivity.
      * destruct (struct_init E cid d0) as [vals|e|]; try reflexivity. rewrite !dbind_ok. apply quiet_struct_with. auto.
      * apply quiet_struct_with. auto.
    + assert (Hc : forall i g, nth_error choices i = Some (CField g) -> dateless g = true).
      { intros i g Hi. destruct f as [c k]; cbn [kind] in Hk; subst k. cbn [dateless kind] in Hd. rewrite forallb_forall in Hd.
        apply nth_error_In in Hi. exact (Hd _ Hi). }
      destruct (dmp v ctx d) as [i|e|]; try reflexivity. rewrite !dbind_ok. destruct (nth_error choices i) as [[g|cid]|] eqn:Hi; [|  |reflexivity].
      * apply eq_field. intros. apply IH. eapply Hc; eauto.
      * destruct v; try reflexivity. destruct (struct_init E cid d0) as [vals|e|]; try reflexivity. rewrite !dbind_ok. apply quiet_struct_with. auto.
Qed.

Lemma quiet_struct n cid vals ctx : s_struct_to_stream E n cid vals ctx = struct_to_stream E n cid vals ctx.
Proof. apply quiet_struct_with. intros. apply quiet_dump. auto. Qed.
End Env.

(** ** Dates *)
Lemma date_dump E n c r tz sg e us aware ctx d :
  s_do_dump E n (Field c (KTime r tz sg e)) (VTime us aware) ctx d
  = if Bool.eqb aware tz then do_dump E n (Field c (KTime r tz sg e)) (VTime us aware) ctx d else ([], warned).
Proof. destruct n; cbn [s_do_dump do_dump kind conf zone_mismatch]; destruct (Bool.eqb aware tz); reflexivity. Qed.

Lemma date_field E n c r tz sg e us aware ctx d : run_validators (c_validators c) (VTime us aware) = Ok tt -> aware <> tz ->
  s_field_to_stream E n (Field c (KTime r tz sg e)) (VTime us aware) ctx d = ([], warned).
Proof.
  intros Hv Hne. unfold s_field_to_stream, field_to_stream_with, to_stream_with. cbn [is_default is_undefined is_none conf kind orb]. rewrite dbind_ok, Hv, dbind_ok.
  rewrite date_dump. replace (Bool.eqb aware tz) with false by (destruct aware, tz; try reflexivity; destruct Hne; reflexivity). reflexivity.
Qed.

Lemma date_field_same E n c r tz sg e us ctx d :
  s_field_to_stream E n (Field c (KTime r tz sg e)) (VTime us tz) ctx d = field_to_stream E n (Field c (KTime r tz sg e)) (VTime us tz) ctx d.
Proof.
  unfold s_field_to_stream, field_to_stream, field_to_stream_with, to_stream_with. cbn [is_default is_undefined is_none conf kind orb]. rewrite !dbind_ok.
  rewrite date_dump, Bool.eqb_reflx.
  replace (ges (s_do_dump E n) (Field c (KTime r tz sg e)) d) with (ges (do_dump E n) (Field c (KTime r tz sg e)) d); [reflexivity|].
  unfold ges, get_expected_size_with. cbn [conf kind]. destruct (c_size c); reflexivity.
Qed.

Lemma date_loaded E n c r tz sg e ctx d s s' v : field_from_stream E n (Field c (KTime r tz sg e)) ctx d s = (s', Ok v) ->
  v = c_npv c \/ v = VNone \/ exists us, v = VTime us tz.
Proof.
  unfold field_from_stream, field_from_stream_with, from_stream_with. cbn [conf].
  set (dl := do_load E n (Field c (KTime r tz sg e)) ctx d).
  assert (Hdl : forall s s' v, dl s = (s', Ok v) -> exists us, v = VTime us tz).
  { intros s0 s0' v0 H. assert (H' : leaf_load c (KTime r tz sg e) (ges (do_dump E n) (Field c (KTime r tz sg e)) d) (ges (do_dump E n) (Field c (KTime r tz sg e)) []) s0 = (s0', Ok v0)
      \/ exists g g0, leaf_load c (KTime r tz sg e) g g0 s0 = (s0', Ok v0)) by (right; unfold dl in H; destruct n; cbn [do_load kind conf] in H; eauto).
    assert (exists g g0, leaf_load c (KTime r tz sg e) g g0 s0 = (s0', Ok v0)) as (g & g0 & H2) by (destruct H'; eauto). clear H H'. cbn [leaf_load] in H2.
    apply lbind_inv in H2 as (s1 & z1 & _ & H2). apply lbind_inv in H2 as (s2 & z2 & _ & H2). apply lbind_inv in H2 as (s3 & us & _ & H2).
    injection H2 as _ <-. eauto. }
  clearbody dl.
  set (lv := ldo v0 <- (fun s0 => match dl s0 with (s1, Raise e0) => (s1, Raise (set_field (c_name c) e0)) | x => x end); _).
  assert (Hlv : forall s s' v, lv s = (s', Ok v) -> v = VNone \/ exists us, v = VTime us tz).
  { intros s0 s0' v0 H. unfold lv in H. apply lbind_inv in H as (s1 & v1 & H1 & H). destruct (dl s0) as [s2 [v2|e2|]] eqn:Hd; try discriminate. injection H1 as -> ->.
    destruct (Hdl _ _ _ Hd) as (us & ->). apply lbind_inv in H as (s3 & v3 & H3 & H). apply lbind_inv in H as (s4 & u4 & _ & H). apply lbind_inv in H as (s5 & u5 & _ & H).
    injection H as _ <-. unfold llift in H3. injection H3 as _ H3. destruct (allow_null c); [|injection H3 as <-; eauto].
    destruct (py_eq E n (VTime us tz) (c_null c)) as [[]|e3|]; cbn [bind] in H3; try discriminate; injection H3 as <-; eauto. }
  clearbody lv. intros H. destruct (run_dict d (c_present c ctx (Some s))) as [[]|e0|]; try discriminate; [|injection H as _ <-; auto].
  destruct (allow_null c); [|right; eauto]. destruct (null_repr (do_dump E n) (Field c (KTime r tz sg e)) d) as [nr|e0|]; try discriminate.
  - destruct (peek_bytes (zlen nr) true s) as [s1 [bs|e0|]]; try discriminate. destruct (bytes_eqb bs nr); [|right; eauto].
    destruct (run_validators (c_validators c) VNone) as [u|e0|]; try discriminate. injection H as _ <-. auto.
  - destruct (is_UnserializableValueError e0); [|discriminate]. destruct (is_default (c_null c)); [discriminate|right; eauto].
Qed.

Lemma loaded_quiet E n c r tz sg e ctx d s s' us aware : c_npv c <> VTime us aware ->
  field_from_stream E n (Field c (KTime r tz sg e)) ctx d s = (s', Ok (VTime us aware)) ->
  forall ctx' d', s_field_to_stream E n (Field c (KTime r tz sg e)) (VTime us aware) ctx' d'
                  = field_to_stream E n (Field c (KTime r tz sg e)) (VTime us aware) ctx' d'.
Proof.
  intros Hn H ctx' d'. destruct (date_loaded _ _ _ _ _ _ _ _ _ _ _ _ H) as [Hv|[Hv|(us' & Hv)]]; [congruence|discriminate|].
  injection Hv as <- ->. apply date_field_same.
Qed.
