(** Lemmas for C107. *)
From Coq Require Import String Lia List.
From Verif Require Import Tac.
From Verif Require Export SpecConstructors.
From Verif Require Import ContainedProofs NestedProofs ToDictProofs FuelProofs SizeProofs MoodProofs SpecScribbles.
Import ListNotations.

(** ** Dumpers and loaders that agree *)
Lemma ges_agree (dd dd' : dumper) f d : (forall v ctx, dd f v ctx d = dd' f v ctx d) -> ges dd f d = ges dd' f d.
Proof. intros H. unfold ges. apply ges_with_ext. intros v. apply H. Qed.

Lemma nr_agree (dd dd' : dumper) f d : (forall v ctx, dd f v ctx d = dd' f v ctx d) -> null_repr dd f d = null_repr dd' f d.
Proof. intros H. unfold null_repr. rewrite (ges_agree dd dd' f d H). apply null_repr_ext; auto. Qed.

Lemma fts_agree (dd dd' : dumper) f d v ctx : (forall v ctx, dd f v ctx d = dd' f v ctx d) ->
  field_to_stream_with dd f v ctx d = field_to_stream_with dd' f v ctx d.
Proof.
  intros H. unfold field_to_stream_with. apply to_stream_ext; auto.
  - apply nr_agree; auto.
  - intros _ _. apply ges_agree; auto.
Qed.

Lemma df_agree (dd dd' : dumper) fs ctx d : (forall nm f v ctx, In (nm, f) fs -> dd f v ctx d = dd' f v ctx d) ->
  dump_fields dd fs ctx d = dump_fields dd' fs ctx d.
Proof.
  intros H. induction fs as [|[nm f] fs IH]; cbn [dump_fields]; auto.
  destruct (run_dict d (compute_value_for_dump (conf f) ctx)) as [v|e|]; cbn [dlift dbind]; auto.
  assert (Hf : (if is_not_present v then dret tt else field_to_stream_with dd f v ctx d)
             = (if is_not_present v then dret tt else field_to_stream_with dd' f v ctx d)).
  { destruct (is_not_present v); auto. apply fts_agree. intros v' ctx'. apply (H nm). left. auto. }
  rewrite Hf, IH; auto. intros nm' g v' ctx' Hg. apply (H nm'). right. auto.
Qed.

Lemma sts_agree E (dd dd' : dumper) n cid vals ctx :
  (forall nm f v ctx d, In (nm, f) (comps E cid) -> dd f v ctx d = dd' f v ctx d) ->
  struct_to_stream_with E dd n cid vals ctx = struct_to_stream_with E dd' n cid vals ctx.
Proof.
  intros H. unfold struct_to_stream_with.
  destruct (validate_contents E n cid vals) as [[]|e|]; cbn [dlift dbind]; auto.
  destruct (to_dict E n cid vals false) as [d|e|]; cbn [dlift dbind]; auto.
  rewrite (df_agree dd dd'); auto. intros nm f v ctx' Hf. apply (H nm); auto.
Qed.

Lemma array_dump_any d1 d2 name cnt v d : (forall v, d1 v = d2 v) -> array_dump d1 name cnt v d = array_dump d2 name cnt v d.
Proof.
  intros H. unfold array_dump. destruct (get_final_element_count cnt d) as [ne|e|]; cbn [dlift dbind]; auto.
  destruct (sized_items v) as [l|].
  - rewrite (dump_items_ext d1 d2) by auto. auto.
  - destruct v; auto. rewrite (dump_unsized_ext d1 d2) by auto. auto.
Qed.

Section Agree.
Variable E : env.
Variable K : constructors.
Hypothesis HT : own_constructors_on_top E K.

Lemma on_top_dump : forall n f v ctx d, constructs (ordinary E K) f -> k_do_dump E K n f v ctx d = do_dump E n f v ctx d.
Proof.
  assert (Hs : forall n cid vals ctx,
    (forall f v ctx d, constructs (ordinary E K) f -> k_do_dump E K n f v ctx d = do_dump E n f v ctx d) ->
    struct_to_stream_with E (k_do_dump E K n) n cid vals ctx = struct_to_stream_with E (do_dump E n) n cid vals ctx).
  { intros n cid vals ctx H. apply sts_agree. intros nm f v ctx' d Hf. apply H. exact (HT cid nm f Hf). }
  induction n as [|n IH]; intros f v ctx d Hf.
  { inversion Hf as [c k Hk|c comp cnt halt Hc|c cid Hp|c choices ld dmp Hg Hp]; subst; try reflexivity.
    all: destruct k; try contradiction; reflexivity. }
  inversion Hf as [c k Hk|c comp cnt halt Hc|c cid Hp|c choices ld dmp Hg Hp]; subst.
  - destruct k; try contradiction; reflexivity.
  - cbn [k_do_dump do_dump kind]. apply array_dump_any. intros x. apply fts_agree. intros v' ctx'. apply IH; auto.
  - cbn [k_do_dump do_dump kind]. destruct v; auto.
    rewrite (Hp d0). destruct (struct_init E cid d0) as [vals|e|]; cbn [dlift dbind]; auto. rewrite Hs; auto.
  - cbn [k_do_dump do_dump kind]. destruct (dmp v ctx d) as [i|e|]; cbn [dlift dbind]; auto.
    destruct (nth_error choices i) as [[g|cid]|] eqn:Hi; auto; apply nth_error_In in Hi.
    + rewrite (fts_agree (k_do_dump E K n) (do_dump E n)); auto.
    + destruct v; auto. rewrite (Hp cid Hi d0). destruct (struct_init E cid d0) as [vals|e|]; cbn [dlift dbind]; auto.
      rewrite Hs; auto.
Qed.

Lemma on_top_with (dl dl' : floader) n f ctx d s : constructs (ordinary E K) f -> (forall s, dl f ctx d s = dl' f ctx d s) ->
  k_field_from_stream_with E K dl n f ctx d s = field_from_stream_with E dl' n f ctx d s.
Proof.
  intros Hf Hl. unfold k_field_from_stream_with, field_from_stream_with. apply from_stream_ext; auto.
  apply nr_agree. intros v ctx'. apply on_top_dump; auto.
Qed.

Lemma on_top_fields (dl dl' : floader) n ctx : forall fs, (forall nm f, In (nm, f) fs -> constructs (ordinary E K) f) ->
  (forall nm f d s, In (nm, f) fs -> dl f ctx d s = dl' f ctx d s) -> forall d s,
  k_load_fields E K dl n fs ctx d s = load_fields E dl' n fs ctx d s.
Proof.
  induction fs as [|[nm f] fs IH]; intros Hf Hl d s; cbn [k_load_fields load_fields]; auto.
  unfold lbind. rewrite (on_top_with dl dl'); [|apply (Hf nm); left; auto|intros s0; apply (Hl nm); left; auto].
  destruct (field_from_stream_with E dl' n f ctx d s) as [s1 [v|e|]]; auto.
  apply IH; intros; [apply (Hf nm0)|apply (Hl nm0)]; right; auto.
Qed.

Lemma on_top_load : forall n f ctx d s, constructs (ordinary E K) f -> k_do_load E K n f ctx d s = do_load E n f ctx d s.
Proof.
  assert (Hs : forall n cid ctx s, ordinary E K cid ->
    (forall f ctx d s, constructs (ordinary E K) f -> k_do_load E K n f ctx d s = do_load E n f ctx d s) ->
    k_struct_from_stream_with E K (k_do_load E K n) n cid ctx [] s = struct_from_stream_with E (do_load E n) n cid ctx [] s).
  { intros n cid ctx s Ho H. unfold k_struct_from_stream_with, struct_from_stream_with, lbind.
    rewrite (on_top_fields (k_do_load E K n) (do_load E n)); [|exact (HT cid)|intros nm f d s0 Hf; apply H, (HT cid nm f Hf)].
    destruct (load_fields E (do_load E n) n (comps E cid) ctx [] s) as [s1 [d|e|]]; auto. rewrite (Ho d). auto. }
  induction n as [|n IH]; intros f ctx d s Hf.
  { inversion Hf as [c k Hk|c comp cnt halt Hc|c cid Hp|c choices ld dmp Hg Hp]; subst; try reflexivity.
    all: destruct k; try contradiction; reflexivity. }
  inversion Hf as [c k Hk|c comp cnt halt Hc|c cid Hp|c choices ld dmp Hg Hp]; subst.
  - destruct k; try contradiction; reflexivity.
  - cbn [k_do_load do_load kind]. apply array_load_ext; auto. intros s0. apply on_top_with; auto.
  - cbn [k_do_load do_load kind]. unfold lbind. rewrite (Hs n cid ctx s Hp IH). auto.
  - cbn [k_do_load do_load kind]. destruct (ld s ctx d) as [i|e|]; auto.
    destruct (nth_error choices i) as [[g|cid]|] eqn:Hi; auto; apply nth_error_In in Hi; auto.
    unfold lbind. rewrite (Hs n cid ctx s (Hp cid Hi) IH). auto.
Qed.

Lemma on_top_field_load n f ctx d s : constructs (ordinary E K) f ->
  k_field_from_stream E K n f ctx d s = field_from_stream E n f ctx d s.
Proof. intros Hf. apply on_top_with; auto. intros s0. apply on_top_load; auto. Qed.

Lemma on_top_field_dump n f v ctx d : constructs (ordinary E K) f ->
  k_field_to_stream E K n f v ctx d = field_to_stream E n f v ctx d.
Proof. intros Hf. apply fts_agree. intros v' ctx'. apply on_top_dump; auto. Qed.

Lemma on_top_struct_dump n cid vals ctx : k_struct_to_stream E K n cid vals ctx = struct_to_stream E n cid vals ctx.
Proof. apply sts_agree. intros nm f v ctx' d Hf. apply on_top_dump, (HT cid nm f Hf). Qed.

Lemma on_top_results n cid ctx kw s :
  k_load_fields E K (k_do_load E K n) n (comps E cid) ctx kw s = load_fields E (do_load E n) n (comps E cid) ctx kw s.
Proof. apply on_top_fields; [exact (HT cid)|]. intros nm f d s0 Hf. apply on_top_load, (HT cid nm f Hf). Qed.

Lemma on_top_partial_fields n last ctx : forall fs, (forall nm f, In (nm, f) fs -> constructs (ordinary E K) f) -> forall d s,
  k_partial_load_fields E K n fs last ctx d s = partial_load_fields E n fs last ctx d s.
Proof.
  induction fs as [|[nm f] fs IH]; intros Hf d s; cbn [k_partial_load_fields partial_load_fields]; auto.
  rewrite on_top_field_load by (apply (Hf nm); left; auto).
  destruct (field_from_stream E n f ctx d s) as [s1 [v|e|]]; auto.
  rewrite IH by (intros nm' g Hg; apply (Hf nm'); right; auto). auto.
Qed.
End Agree.

(** ** Everything ordinary *)
Lemma ordinary_constructs E K : (forall cid, ordinary E K cid) -> forall f, constructs (ordinary E K) f.
Proof.
  intros H. fix IH 1. intros [c k]. destruct k as [sg e|fmt mx|fmt e|r tz sg e| |cd pad|cd pad|fmt|comp cnt halt|cid|choices ld dmp];
    try (apply constructs_leaf; exact I).
  - apply constructs_array, IH.
  - apply constructs_nested, H.
  - apply constructs_union; [|auto]. induction choices as [|[g|cid] choices IHc]; intros g' Hg; [destruct Hg| |].
    + destruct Hg as [Hg|Hg]; [injection Hg as <-; apply IH|apply IHc, Hg].
    + destruct Hg as [Hg|Hg]; [discriminate|apply IHc, Hg].
Qed.

Lemma ordinary_on_top E K : (forall cid, ordinary E K cid) -> own_constructors_on_top E K.
Proof. intros H cid nm f _. apply ordinary_constructs, H. Qed.

Lemma ordinary_struct_load E K n cid ctx kw s : own_constructors_on_top E K -> ordinary E K cid ->
  k_struct_from_stream E K n cid ctx kw s = struct_from_stream E n cid ctx kw s.
Proof.
  intros HT Ho. unfold k_struct_from_stream, k_struct_from_stream_with, struct_from_stream, struct_from_stream_with, lbind.
  rewrite on_top_results by auto. destruct (load_fields E (do_load E n) n (comps E cid) ctx kw s) as [s1 [d|e|]]; auto.
  rewrite (Ho d). auto.
Qed.

Lemma ordinary_partial E K n cid last ctx s : own_constructors_on_top E K -> ordinary E K cid ->
  k_partial_load E K n cid last ctx s = partial_load E n cid last ctx s.
Proof.
  intros HT Ho. unfold k_partial_load, partial_load, lbind.
  destruct (match last with Some l => match assoc (comps E cid) l with Some _ => false | None => true end | None => false end); auto.
  rewrite on_top_partial_fields by (auto; exact (HT cid)).
  destruct (partial_load_fields E n (comps E cid) last ctx [] s) as [s1 [d|e|]]; auto. rewrite (Ho d). auto.
Qed.

Lemma ordinary_get E K n cid name ctx s : own_constructors_on_top E K -> ordinary E K cid ->
  k_get_field E K n cid name ctx s = get_field E n cid name ctx s.
Proof.
  intros HT Ho. unfold k_get_field, get_field. destruct (assoc (comps E cid) name) as [f|] eqn:Hf; auto.
  destruct (c_offset (conf f)) as [off|].
  - destruct (seek s (Z.of_nat (s_pos s) + off)) as [s1 [z|e|]]; auto.
    rewrite on_top_field_load by (auto; exact (HT cid name f (assoc_in _ _ _ Hf))). auto.
  - rewrite ordinary_partial by auto. auto.
Qed.

(** ** What a constructor gets and what becomes of it *)
Lemma without_get names d x : dget (without names d) x = if existsb (String.eqb x) names then None else dget d x.
Proof.
  unfold without. rewrite (dget_filter_key (fun k => negb (existsb (String.eqb k) names))).
  destruct (existsb (String.eqb x) names); reflexivity.
Qed.

Lemma without_app names d e : without names (d ++ e) = without names d ++ without names e.
Proof. apply filter_app. Qed.

Lemma existsb_in x names : existsb (String.eqb x) names = true <-> In x names.
Proof.
  rewrite existsb_exists. split.
  - intros (y & Hy & He). apply String.eqb_eq in He. subst y. exact Hy.
  - intros H. exists x. rewrite String.eqb_refl. auto.
Qed.

Lemma existsb_out x names : ~ In x names -> existsb (String.eqb x) names = false.
Proof. intros H. destruct (existsb (String.eqb x) names) eqn:He; auto. apply existsb_in in He. contradiction. Qed.

Lemma without_keys names d x : In x (dkeys (without names d)) <-> In x (dkeys d) /\ ~ In x names.
Proof.
  rewrite <- !dmem_in. unfold dmem. rewrite without_get. destruct (existsb (String.eqb x) names) eqn:He.
  - apply existsb_in in He. split; [discriminate|tauto].
  - assert (~ In x names) by (intros H; apply existsb_in in H; congruence). tauto.
Qed.

Lemma dget_app_l (d e : dict) x v : dget d x = Some v -> dget (d ++ e) x = Some v.
Proof.
  induction d as [|[k w] d IH]; [discriminate|]. cbn [app dget]. destruct (String.eqb k x); auto.
Qed.

Lemma results_given E K dl n ctx : forall fs d s s' r, k_load_fields E K dl n fs ctx d s = (s', Ok r) ->
  (forall x v, dget d x = Some v -> dget r x = Some v)
  /\ forall x, In x (dkeys r) <-> In x (dkeys d) \/ In x (map fst fs).
Proof.
  induction fs as [|[nm f] fs IH]; intros d s s' r H; cbn [k_load_fields] in H.
  - injection H as <- <-. split; auto. intros x. cbn. tauto.
  - apply lbind_inv in H. destruct H as (s1 & v & _ & H). apply IH in H. destruct H as [Hg Hk]. split.
    + intros x w Hx. apply Hg. destruct (dmem d nm); auto. apply dget_app_l. exact Hx.
    + intros x. rewrite Hk. cbn [map fst In]. destruct (dmem d nm) eqn:Hm.
      * apply dmem_in in Hm. split; [tauto|]. intros [H|[<-|H]]; tauto.
      * unfold dkeys. rewrite map_app, in_app_iff. cbn [map fst In]. tauto.
Qed.

Lemma struct_load_inv E K n cid ctx kw s s' vals : k_struct_from_stream E K n cid ctx kw s = (s', Ok vals) <->
  exists results stored, k_load_fields E K (k_do_load E K n) n (comps E cid) ctx kw s = (s', Ok results)
    /\ K cid results = Ok stored /\ validated E n cid stored /\ vals = delete_discard (comps E cid) stored.
Proof.
  unfold k_struct_from_stream, k_struct_from_stream_with. split.
  - intros H. apply lbind_inv in H. destruct H as (s1 & results & H1 & H). unfold lbind, llift in H.
    destruct (K cid results) as [stored|e|] eqn:Hs; try discriminate.
    destruct (validate_contents E n cid stored) as [[]|e|] eqn:Hv; try discriminate.
    injection H as <- <-. exists results, stored. split; auto. split; auto. split; auto. apply validate_contents_iff. exact Hv.
  - intros (results & stored & H1 & H2 & H3 & ->). apply validate_contents_iff in H3. unfold lbind, llift. rewrite H1, H2, H3. reflexivity.
Qed.

Lemma constructor_gets E K n cid ctx kw s s' vals : k_struct_from_stream E K n cid ctx kw s = (s', Ok vals) ->
  exists results stored, (forall x v, dget kw x = Some v -> dget results x = Some v)
    /\ (forall x, In x (dkeys results) <-> In x (dkeys kw) \/ In x (map fst (k_comps (cls E cid))))
    /\ K cid results = Ok stored /\ validated E n cid stored /\ vals = delete_discard (k_comps (cls E cid)) stored.
Proof.
  intros H. apply struct_load_inv in H. destruct H as (results & stored & H1 & H2 & H3 & H4).
  apply results_given in H1. exists results, stored. split; [apply H1|]. split; [apply H1|]. auto.
Qed.

(** ** Classes that take further arguments *)
Lemma missing_argument E K n cid required optional x ctx kw s s1 results : takes_arguments E K cid required optional ->
  In x required -> ~ In x (dkeys kw) ->
  k_load_fields E K (k_do_load E K n) n (comps E cid) ctx kw s = (s1, Ok results) ->
  k_struct_from_stream E K n cid ctx kw s = (s1, Raise ETypeErr).
Proof.
  intros [Hf Ht] Hx Hk H. unfold k_struct_from_stream, k_struct_from_stream_with, lbind, llift. rewrite H, Ht.
  assert (Hm : dmem results x = false).
  { destruct (dmem results x) eqn:Hm; auto. apply dmem_in in Hm. apply results_given in H. apply H in Hm.
    destruct Hm as [Hm|Hm]; [contradiction|]. destruct (Hf x); auto. apply in_or_app. auto. }
  destruct (forallb (dmem results) required) eqn:Ha; auto.
  rewrite forallb_forall in Ha. rewrite (Ha x Hx) in Hm. discriminate.
Qed.

Lemma never_without E K n cid required optional x ctx kw s s' vals : takes_arguments E K cid required optional ->
  In x required -> ~ In x (dkeys kw) -> k_struct_from_stream E K n cid ctx kw s <> (s', Ok vals).
Proof.
  intros Ht Hx Hk H. pose proof H as H'. apply struct_load_inv in H'. destruct H' as (results & stored & H1 & _).
  rewrite (missing_argument E K n cid required optional x ctx kw s s' results) in H; auto. discriminate.
Qed.

Lemma unaware_fields E n cid names ctx : unaware E n cid names -> (forall x, In x names -> ~ In x (map fst (comps E cid))) ->
  forall fs, incl fs (comps E cid) -> forall d s,
  load_fields E (do_load E n) n fs ctx (without names d) s
  = match load_fields E (do_load E n) n fs ctx d s with (s', Ok r) => (s', Ok (without names r)) | x => x end.
Proof.
  intros Hu Hno. induction fs as [|[nm f] fs IH]; intros Hi d s; cbn [load_fields]; [reflexivity|].
  assert (Hin : In (nm, f) (comps E cid)) by (apply Hi; left; auto).
  assert (Hn : existsb (String.eqb nm) names = false).
  { apply existsb_out. intros H. apply (Hno nm H). apply (in_map fst) in Hin. exact Hin. }
  unfold lbind. change (field_from_stream_with E (do_load E n) n f ctx) with (field_from_stream E n f ctx).
  rewrite (Hu nm f ctx d s Hin). destruct (field_from_stream E n f ctx (without names d) s) as [s1 [v|e|]]; auto.
  assert (He : (if dmem (without names d) nm then without names d else without names d ++ [(nm, v)])
             = without names (if dmem d nm then d else d ++ [(nm, v)])).
  { unfold dmem at 1. rewrite without_get, Hn. change (match dget d nm with Some _ => true | None => false end) with (dmem d nm).
    destruct (dmem d nm); auto. rewrite without_app. unfold without at 3. cbn [filter fst]. rewrite Hn. reflexivity. }
  rewrite He. apply IH. intros y Hy. apply Hi. right. exact Hy.
Qed.

Lemma extra_arguments E K n cid required optional ctx kw s : own_constructors_on_top E K -> takes_arguments E K cid required optional ->
  incl required (dkeys kw) -> unaware E n cid (required ++ optional) ->
  k_struct_from_stream E K n cid ctx kw s = struct_from_stream E n cid ctx (without (required ++ optional) kw) s.
Proof.
  intros HT [Hf Ht] Hr Hu. unfold k_struct_from_stream, k_struct_from_stream_with, struct_from_stream, struct_from_stream_with, lbind, llift.
  pose proof (results_given E K (k_do_load E K n) n ctx (comps E cid) kw s) as HG.
  rewrite on_top_results in * by auto.
  rewrite (unaware_fields E n cid (required ++ optional) ctx Hu Hf (comps E cid)) by apply incl_refl.
  destruct (load_fields E (do_load E n) n (comps E cid) ctx kw s) as [s1 [r|e|]]; auto.
  specialize (HG s1 r eq_refl). destruct HG as [_ HG]. rewrite Ht.
  assert (Ha : forallb (dmem r) required = true).
  { apply forallb_forall. intros x Hx. apply dmem_in, HG. left. auto. }
  rewrite Ha. reflexivity.
Qed.

(** ** Where no further arguments are passed *)
Lemma nested_never E K n c cid required optional x ctx d s s' v : takes_arguments E K cid required optional -> In x required ->
  k_do_load E K n (Field c (KNested cid)) ctx d s <> (s', Ok v).
Proof.
  intros Ht Hx H. destruct n as [|n]; [discriminate|]. cbn [k_do_load kind] in H. apply lbind_inv in H.
  destruct H as (s1 & vals & H & _). revert H. apply (never_without E K n cid required optional x); auto.
Qed.

Lemma union_never E K n c choices ld dmp cid i required optional x ctx d s s' v : takes_arguments E K cid required optional -> In x required ->
  ld s ctx d = Ok i -> nth_error choices i = Some (CStruct cid) ->
  k_do_load E K n (Field c (KUnion choices ld dmp)) ctx d s <> (s', Ok v).
Proof.
  intros Ht Hx Hl Hi H. destruct n as [|n]; [discriminate|]. cbn [k_do_load kind] in H. rewrite Hl, Hi in H. apply lbind_inv in H.
  destruct H as (s1 & vals & H & _). revert H. apply (never_without E K n cid required optional x); auto.
Qed.

Lemma partial_keys E K n last ctx : forall fs d s s' r, k_partial_load_fields E K n fs last ctx d s = (s', Ok r) ->
  forall x, In x (dkeys r) -> In x (dkeys d) \/ In x (map (fun nf => cname (snd nf)) fs).
Proof.
  induction fs as [|[nm f] fs IH]; intros d s s' r H x Hx; cbn [k_partial_load_fields] in H.
  { injection H as <- <-. auto. }
  destruct (k_field_from_stream E K n f ctx d s) as [s1 [v|e|]]; try discriminate.
  - assert (Hd : forall y, In y (dkeys (if c_discard (conf f) then d else dset d (cname f) v)) -> In y (dkeys d) \/ y = cname f).
    { intros y. destruct (c_discard (conf f)); auto. rewrite <- !dmem_in, dmem_dset.
      destruct (String.eqb_spec (cname f) y); cbn [orb]; auto. }
    destruct (match last with Some l => String.eqb (cname f) l | None => false end).
    + injection H as <- <-. apply Hd in Hx. cbn [map snd In]. destruct Hx; auto.
    + apply IH with (x := x) in H; auto. cbn [map snd In]. destruct H as [H|H]; auto. apply Hd in H. destruct H; auto.
  - destruct (is_UnexpectedEOFError e); try discriminate. destruct last; try discriminate. injection H as <- <-. auto.
Qed.

Lemma partial_never E K n cid required optional x last ctx s s' vals : takes_arguments E K cid required optional -> In x required ->
  well_formed (cls E cid) -> k_partial_load E K n cid last ctx s <> (s', Ok vals).
Proof.
  intros [Hf Ht] Hx Hwf H. unfold k_partial_load in H.
  destruct (match last with Some l => match assoc (comps E cid) l with Some _ => false | None => true end | None => false end); try discriminate.
  apply lbind_inv in H. destruct H as (s1 & r & H1 & H2). unfold llift in H2. rewrite Ht in H2.
  destruct (forallb (dmem r) required) eqn:Ha; [|discriminate]. rewrite forallb_forall in Ha. specialize (Ha x Hx).
  apply dmem_in in Ha. apply (partial_keys _ _ _ _ _ _ _ _ _ _ H1) in Ha. destruct Ha as [Ha|Ha]; [destruct Ha|].
  apply (Hf x); [apply in_or_app; auto|].
  apply in_map_iff in Ha. destruct Ha as ([nm f] & He & Hin). cbn [snd] in He.
  apply (bound_assoc _ _ _ (well_formed_bound _ Hwf)) in Hin as Hb. destruct Hb as [_ Hb].
  unfold cname, name_of in He. rewrite Hb in He. subst x. apply (in_map fst) in Hin. exact Hin.
Qed.

Lemma get_never E K n cid required optional x name f ctx s s' v : takes_arguments E K cid required optional -> In x required ->
  well_formed (cls E cid) -> assoc (k_comps (cls E cid)) name = Some f -> c_offset (conf f) = None ->
  k_get_field E K n cid name ctx s <> (s', Ok v).
Proof.
  intros Ht Hx Hwf Hf Ho H. unfold k_get_field in H. change (k_comps (cls E cid)) with (comps E cid) in Hf. rewrite Hf, Ho in H.
  destruct (k_partial_load E K n cid (Some name) ctx s) as [s1 [vals|e|]] eqn:Hp; try discriminate.
  revert Hp. apply (partial_never E K n cid required optional x); auto.
Qed.

(** ** Dumping *)
Lemma k_nested_size E K n c cid bs out d :
  sized_write (ges (k_do_dump E K n) (Field c (KNested cid)) d) c (KNested cid) bs = (out, Ok tt) <-> out = bs /\ fits_size c d bs.
Proof. apply nested_size. intros nm Hs. unfold ges, get_expected_size_with. cbn [conf]. rewrite Hs. reflexivity. Qed.

Lemma k_nested_instance E K n c cid cid' vals ctx d out : accepts c (VStruct cid' vals) ->
  k_field_to_stream E K (S n) (Field c (KNested cid)) (VStruct cid' vals) ctx d = (out, Ok tt)
  <-> k_struct_to_stream E K n cid' vals ctx = (out, Ok tt) /\ fits_size c d out.
Proof.
  intros Ha. unfold k_field_to_stream, field_to_stream_with. rewrite to_stream_data by auto. cbn [conf kind].
  change (k_do_dump E K (S n) (Field c (KNested cid)) (VStruct cid' vals) ctx d) with (k_struct_to_stream E K n cid' vals ctx).
  destruct (k_struct_to_stream E K n cid' vals ctx) as [bs [[]|e|]].
  - rewrite k_nested_size. split; [intros [-> H]; auto|intros [H1 H2]; injection H1 as <-; auto].
  - split; [discriminate|intros [H _]; discriminate].
  - split; [discriminate|intros [H _]; discriminate].
Qed.

Lemma k_nested_dict E K n c cid dct ctx d out : accepts c (VDict dct) ->
  k_field_to_stream E K (S n) (Field c (KNested cid)) (VDict dct) ctx d = (out, Ok tt)
  <-> exists stored, K cid dct = Ok stored /\ k_struct_to_stream E K n cid stored ctx = (out, Ok tt) /\ fits_size c d out.
Proof.
  intros Ha. unfold k_field_to_stream, field_to_stream_with. rewrite to_stream_data by auto. cbn [conf kind].
  change (k_do_dump E K (S n) (Field c (KNested cid)) (VDict dct) ctx d)
    with (ddo vals <- dlift (K cid dct); k_struct_to_stream E K n cid vals ctx).
  destruct (K cid dct) as [w|e|].
  - rewrite dbind_ok. destruct (k_struct_to_stream E K n cid w ctx) as [bs [[]|e|]] eqn:Hs.
    + rewrite k_nested_size. split.
      * intros [-> H]. exists w. auto.
      * intros (w' & H1 & H2 & H3). injection H1 as <-. rewrite Hs in H2. injection H2 as <-. auto.
    + split; [discriminate|]. intros (w' & H1 & H2 & _). injection H1 as <-. congruence.
    + split; [discriminate|]. intros (w' & H1 & H2 & _). injection H1 as <-. congruence.
  - rewrite FieldProofs.dbind_raise. split; [discriminate|]. intros (w' & H & _). discriminate.
  - rewrite dbind_oof. split; [discriminate|]. intros (w' & H & _). discriminate.
Qed.

Lemma dict_arguments E K n c cid required optional dct ctx d out : takes_arguments E K cid required optional -> accepts c (VDict dct) ->
  k_field_to_stream E K (S n) (Field c (KNested cid)) (VDict dct) ctx d = (out, Ok tt)
  <-> incl required (dkeys dct)
      /\ (forall x, In x (dkeys dct) -> In x (required ++ optional) \/ In x (map fst (k_comps (cls E cid))))
      /\ k_struct_to_stream E K n cid (without (required ++ optional) dct) ctx = (out, Ok tt) /\ fits_size c d out.
Proof.
  intros [Hf Ht] Ha. rewrite k_nested_dict by auto. rewrite Ht. split.
  - intros (w & H1 & H2 & H3). destruct (forallb (dmem dct) required) eqn:Hr; [|discriminate].
    rewrite forallb_forall in Hr. apply init_ok_iff in H1. destruct H1 as [-> Hi].
    split; [intros x Hx; apply dmem_in, Hr, Hx|]. split; [|auto].
    intros x Hx. destruct (in_dec string_dec x (required ++ optional)) as [Hy|Hy]; auto. right. apply Hi. apply without_keys. auto.
  - intros (H1 & H2 & H3 & H4). exists (without (required ++ optional) dct).
    assert (Hr : forallb (dmem dct) required = true) by (apply forallb_forall; intros x Hx; apply dmem_in, H1, Hx).
    rewrite Hr. split; [|auto]. apply init_ok_iff. split; auto. intros x Hx. apply without_keys in Hx. destruct Hx as [Hx Hy].
    destruct (H2 x Hx); [contradiction|auto].
Qed.

Lemma dump_fields_each (dd : dumper) ctx d : forall fs out, dump_fields dd fs ctx d = (out, Ok tt) -> forall nm f, In (nm, f) fs ->
  exists v, run_dict d (compute_value_for_dump (conf f) ctx) = Ok v
    /\ (v = VNotPresent \/ exists bs, field_to_stream_with dd f v ctx d = (bs, Ok tt)).
Proof.
  induction fs as [|[nm f] fs IH]; intros out H nm' g Hin; [destruct Hin|]. cbn [dump_fields] in H.
  apply dbind_dlift_inv in H. destruct H as (v & Hv & H). apply dbind_ok_inv in H. destruct H as (o1 & [] & o2 & H1 & H2 & ->).
  destruct Hin as [Hin|Hin]; [|apply (IH o2 H2 nm' g Hin)]. injection Hin as <- <-. exists v. split; auto.
  destruct v; cbn [is_not_present] in H1; eauto.
Qed.

Lemma nested_dump_never E K n cid vals ctx out name c inner cid' nv required optional x :
  takes_arguments E K inner required optional -> In x required -> instance_of E cid vals ->
  In (name, Field c (KNested inner)) (k_comps (cls E cid)) -> unconditional c -> c_discard c = false ->
  dget vals name = Some (VStruct cid' nv) -> instance_of E cid' nv -> ~ In x (map fst (k_comps (cls E cid'))) ->
  k_struct_to_stream E K n cid vals ctx <> (out, Ok tt).
Proof.
  intros Ht Hx Hi Hin Hun Hdis Hg Hi' Hno H. destruct n as [|n].
  { unfold k_struct_to_stream, struct_to_stream_with in H. apply dbind_dlift_inv in H. destruct H as ([] & _ & H).
    apply dbind_dlift_inv in H. destruct H as (all & Hall & _).
    destruct (passed_value _ _ _ _ _ _ _ _ Hi Hall Hin Hun Hdis Hg) as (v & Hv & _); discriminate. }
  unfold k_struct_to_stream, struct_to_stream_with in H. apply dbind_dlift_inv in H. destruct H as ([] & _ & H).
  apply dbind_dlift_inv in H. destruct H as (all & Hall & H).
  destruct (passed_value _ _ _ _ _ _ _ _ Hi Hall Hin Hun Hdis Hg) as (v & Hv & Hga); [discriminate|discriminate|].
  cbn [recursive_to_dicts] in Hv.
  change (match to_dict E n cid' nv false with Ok d => Ok (VDict d) | Raise e => Raise e | OOF => OOF end = Ok v) in Hv.
  destruct (to_dict E n cid' nv false) as [dn| |] eqn:Hdn; try discriminate. injection Hv as <-.
  destruct (dump_fields_each _ _ _ _ _ H _ _ Hin) as (v & Hv & Hor). cbn [conf] in Hv.
  rewrite (value_explicit _ _ _ name (VDict dn)) in Hv;
    [|apply (instance_name _ _ _ _ _ Hi Hin)|auto|discriminate|discriminate|apply Hun].
  injection Hv as <-. destruct Hor as [Hor|[bs Hb]]; [discriminate|].
  assert (Ha : accepts c (VDict dn)).
  { unfold field_to_stream_with, to_stream_with in Hb. cbn [is_default] in Hb. rewrite dbind_ok in Hb.
    cbn [is_undefined is_default orb] in Hb. apply dbind_dlift_inv in Hb. destruct Hb as ([] & Hb & _).
    apply run_accepts. exact Hb. }
  apply (dict_arguments E K n c inner required optional dn ctx all bs Ht Ha) in Hb. destruct Hb as [Hb _].
  specialize (Hb x Hx). apply (proj2 (to_dict_keys _ _ _ _ _ _ Hi' Hdn)) in Hb. destruct Hb as (f & Hf & _).
  apply Hno. apply (in_map fst) in Hf. exact Hf.
Qed.

(** ** Fields that do not notice *)
Lemma leaf_unaware E n f names ctx d s : lone_kind (kind f) ->
  (forall x, c_size (conf f) = SRef x -> ~ In x names) -> (forall x, c_name (conf f) = Some x -> ~ In x names) ->
  run_dict d (c_present (conf f) ctx (Some s)) = run_dict (without names d) (c_present (conf f) ctx (Some s)) ->
  field_from_stream E n f ctx d s = field_from_stream E n f ctx (without names d) s.
Proof.
  destruct f as [c k]. cbn [kind conf]. intros Hk Hs Hn Hp.
  assert (Hl : leaf_kind k = true) by (destruct k; auto; contradiction).
  assert (Ho : oget d (c_name c) = oget (without names d) (c_name c)).
  { unfold oget. destruct (c_name c) as [nm|]; auto. rewrite without_get, existsb_out by auto. auto. }
  assert (Hg : forall dd dd', (forall v, dd v = dd' v) -> get_expected_size_with dd c k d = get_expected_size_with dd' c k (without names d)).
  { intros dd dd' Hd. unfold get_expected_size_with. destruct (c_size c) as [|m|nm] eqn:Hc; auto.
    - apply expected_unsized_ext; auto.
    - rewrite without_get, existsb_out by (apply Hs; auto). auto. }
  assert (Hd : forall v ctx, do_dump E n (Field c k) v ctx d = do_dump E n (Field c k) v ctx (without names d)).
  { intros v ctx'. rewrite !do_dump_leaf by auto. rewrite (Hg _ (fun _ => draise ETypeErr)) by auto. auto. }
  unfold field_from_stream, field_from_stream_with. cbn [conf]. apply from_stream_ext; auto.
  - unfold null_repr, ges. cbn [conf kind]. rewrite (Hg _ (fun v => do_dump E n (Field c k) v VNone (without names d))) by auto.
    apply null_repr_ext; auto.
  - intros s0. rewrite !do_load_leaf by auto. rewrite (Hg _ (fun v => do_dump E n (Field c k) v VNone (without names d))) by auto. auto.
Qed.
