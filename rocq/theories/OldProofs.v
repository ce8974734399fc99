(** Data written before a class got more fields (C84). *)
From Coq Require Import ZArith List String Lia.
From Verif Require Import Tac FieldProofs LeafMore StructProofs RoundProofs VarintsProofs InheritProofs CutProofs HistoryProofs.
From Verif Require Export SpecOld.
Import ListNotations.
Open Scope Z_scope.

Lemma early_load nr dl eqv c ctx d s : always_present c -> c_null c = VUndefined ->
  ends_early (dl s) -> ends_early (from_stream_with nr dl eqv c ctx d s).
Proof.
  intros Hp Hn (s1 & e & H & He). unfold from_stream_with. rewrite Hp.
  unfold allow_null. rewrite Hn. cbn [is_undefined negb]. apply early_bind. rewrite H.
  apply early. destruct e; try discriminate. auto.
Qed.

Lemma needs_data_ends E f : needs_data E f ->
  exists N, forall n, (N <= n)%nat -> forall ctx d s, rest s = [] -> ends_early (field_from_stream E n f ctx d s).
Proof.
  intros H. induction H as [c k size Hk Hs Hz Hp Hn|c fmt mx Hp Hn|c cid name f fs Hc Hf [N IH] Hp Hn|c comp cnt Hc Hf [N IH] Hp Hn].
  - exists O. intros n _ ctx d s Hr.
    assert (Hl : zlen (rest s) < size) by (rewrite Hr; cbn; lia).
    destruct k; try contradiction;
      try (rewrite (short_input_uuid E n c _ size ctx d s Hs Hp Hn Hl); apply early; reflexivity);
      (rewrite (short_input E n c _ size ctx d s) by (auto; exact I); apply early; reflexivity).
  - exists O. intros n _ ctx d s Hr. unfold field_from_stream, field_from_stream_with. cbn [conf].
    apply early_load; auto. rewrite do_load_leaf by reflexivity. cbn [leaf_load]. apply early_bind.
    destruct fmt; cbn [vli_decode].
    + unfold decode_integer_compact. rewrite Hr. cbn [length decode_compact_loop]. apply early_bind, read_none; auto.
    + unfold decode_integer_leb128, decode_integer_uleb128. rewrite Hr. cbn [length decode_uleb_loop].
      destruct (read_none s Hr) as (s1 & e & H & He). unfold lbind. rewrite H. apply early; auto.
    + unfold decode_integer_uleb128. rewrite Hr. cbn [length decode_uleb_loop]. apply early_bind, read_none; auto.
    + unfold decode_integer_vlq. rewrite Hr. cbn [length decode_vlq_loop]. apply early_bind, read_none; auto.
  - exists (S N). intros [|n] Hle ctx d s Hr; [lia|]. unfold field_from_stream, field_from_stream_with. cbn [conf].
    apply early_load; auto. cbn [do_load kind]. apply early_bind. unfold struct_from_stream_with. apply early_bind.
    unfold comps. rewrite Hc. cbn [load_fields]. apply early_bind. apply (IH n); auto. lia.
  - exists (S (S N)). intros [|n] Hle ctx d s Hr; [lia|]. unfold field_from_stream, field_from_stream_with. cbn [conf].
    apply early_load; auto. cbn [do_load kind].
    destruct (IH n ltac:(lia) ctx d s Hr) as (s1 & e & H & He). unfold field_from_stream in H.
    revert H. generalize (field_from_stream_with E (do_load E n) n comp ctx d). intros load1 H.
    destruct n as [|n]; [lia|]. cbn [array_load]. unfold array_halt, should_halt, get_final_element_count.
    cbn [bind count_at_most]. change (zlen (@nil value)) with 0. replace (cnt <=? 0) with false by lia. cbn [bind].
    rewrite H. apply early; auto.
Qed.

Lemma load_fields_early E n ctx f more name fs d s d' s' : loads E n ctx fs d s d' s' ->
  ends_early (field_from_stream E n f ctx d' s') ->
  ends_early (load_fields E (do_load E n) n (fs ++ (name, f) :: more) ctx d s).
Proof.
  intros H He. induction H as [|nm g fs d s v s1 d' s' Hv _ IH]; cbn [app load_fields].
  - apply early_bind. exact He.
  - unfold lbind. unfold field_from_stream in Hv. rewrite Hv. apply IH; auto.
Qed.

(** What a class reads from data of its base class. *)
Lemma old_data E cs cb name f more n ctx s s1 vals : well_formed (cls E cs) -> well_formed (cls E cb) ->
  k_comps (cls E cs) = k_comps (cls E cb) ++ (name, f) :: more ->
  Forall (fun nf => c_discard (conf (snd nf)) = false) (k_comps (cls E cb)) -> needs_data E f ->
  struct_from_stream E n cb ctx [] s = (s1, Ok vals) -> rest s1 = [] ->
  exists N, forall n', (N <= n')%nat ->
    partial_load E n' cs None ctx s = (s1, Ok vals) /\ ends_early (struct_from_stream E n' cs ctx [] s).
Proof.
  intros Hws Hwb Hc Hd Hf Hl Hr. apply struct_load_iff in Hl; [|auto|constructor].
  destruct Hl as (d & Hl & _ & _ & Hv).
  assert (vals = d) as ->.
  { rewrite Hv. clear -Hd. induction d as [|[k v] d IH]; auto. cbn [filter fst].
    replace (discarded (k_comps (cls E cb)) k) with false; [cbn [negb]; rewrite IH; auto|].
    symmetry. unfold discarded. apply not_true_iff_false. intros He. apply existsb_exists in He.
    destruct He as ([x g] & Hi & Hx). rewrite Forall_forall in Hd. specialize (Hd _ Hi). cbn [fst snd] in *.
    rewrite Hd, andb_false_r in Hx. discriminate. }
  destruct (needs_data_ends _ _ Hf) as [N HN]. exists (Nat.max n N). intros n' Hle.
  assert (Hl' : loads E n' ctx (k_comps (cls E cb)) [] s d s1) by (eapply loads_mono; [|exact Hl]; lia).
  destruct (HN n' ltac:(lia) ctx d s1 Hr) as (s2 & e & He & Hee). split.
  - apply partial_load_none; auto. exists (k_comps (cls E cb)), ((name, f) :: more). split; auto. split; [|eauto].
    apply prefix_is_loads; auto; apply Hwb.
  - unfold struct_from_stream, struct_from_stream_with. apply early_bind. unfold comps. rewrite Hc.
    eapply load_fields_early; eauto. exists s2, e. auto.
Qed.

(** Dumping what was read: the old data followed by the new fields. *)
Lemma upgraded E cs cb n ctx s s1 vals ctx' out : extends E cs cb -> well_formed (cls E cs) -> well_formed (cls E cb) ->
  closed (cls E cb) -> struct_from_stream E n cb ctx [] s = (s1, Ok vals) ->
  struct_to_stream E n cs vals ctx' = (out, Ok tt) ->
  exists old new, out = old ++ new /\ struct_to_stream E n cb vals ctx' = (old, Ok tt).
Proof.
  intros He Hws Hwb Hcl Hl Hd. pose proof He as [[own Hc] _].
  apply load_instance in Hl; [|auto|constructor]. destruct Hl as (_ & Hnd & Hin).
  assert (Hi : instance_of E cs vals).
  { split; auto. split; auto. rewrite Hc, map_app. intros x Hx. apply in_or_app. left. auto. }
  destruct (dump_part E cs cb He Hws Hwb Hcl n vals ctx' out Hi Hd) as (old & new & -> & Ho).
  rewrite part_all in Ho by auto. eauto.
Qed.
