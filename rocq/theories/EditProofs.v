(** Proofs about callables that write into the dictionary of fields being dumped (C106). *)
From Coq Require Import String Lia.
From Verif Require Import Tac FieldProofs FieldMore StructProofs ScribbleProofs.
From Verif Require Export SpecEdits.
Open Scope list_scope.
Open Scope Z_scope.

(** ** Nobody writes *)
Section Idle.
Variable E : env.
Variable W : edits.
Hypothesis HW : hands_off W.

(** The outcome of a dumper, with the dictionary as it was. *)
Definition still {A} (d : dict) (x : dumped A) : list Z * dict * res A := (fst x, d, snd x).

Lemma still_bind {A B} (m : wdumped A) (m' : dumped A) (k : A -> wdumped B) (k' : A -> dumped B) d :
  m d = still d m' -> (forall a, k a d = still d (k' a)) -> edbind m k d = still d (dbind m' k').
Proof.
  intros Hm Hk. unfold edbind, dbind. rewrite Hm. destruct m' as [o1 [a|e|]]; cbn [still fst snd]; try reflexivity.
  rewrite Hk. unfold still. destruct (k' a) as [o2 r]; reflexivity.
Qed.

Lemma still_lift {A} (r : res A) d : edlift r d = still d (dlift r).
Proof. reflexivity. Qed.

Lemma still_dump {A} (m : dict -> dumped A) d : edump m d = still d (m d).
Proof. unfold edump, still. destruct (m d); reflexivity. Qed.

Lemma still_compute c ctx d : e_compute_value W c ctx d = still d (dlift (run_dict d (compute_value_for_dump c ctx))).
Proof.
  unfold compute_value_for_dump, run_dict. rewrite run_qbind. unfold e_compute_value, edbind at 1.
  replace (if computes c d then ed_compute W c d else d) with d by (destruct (computes c d); [symmetry; apply (proj1 HW)|reflexivity]).
  unfold run_dict. destruct (run_q (dmem d) (dget_res d) (dkeys d) (stored_or_fallback c)) as [v|e|]; try reflexivity. cbn [bind].
  destruct (is_not_present v); [reflexivity|]. rewrite run_qbind. unfold edbind. rewrite (proj1 (proj2 HW)).
  unfold run_dict. destruct (run_q (dmem d) (dget_res d) (dkeys d) (c_present c ctx None)) as [[|]|e|]; cbn [bind negb]; try reflexivity.
  destruct (is_undefined v); reflexivity.
Qed.

Definition still_dumps (dd : wdumper) (dd' : dumper) : Prop := forall f v ctx d, dd f v ctx d = still d (dd' f v ctx d).

Lemma still_to_stream (nr : dict -> res (list Z)) (dd : value -> wdumped unit) (dd' : value -> dumped unit) (g : dict -> res Z) c k v d :
  (forall v, dd v d = still d (dd' v)) -> e_to_stream_with nr dd g c k v d = still d (to_stream_with (nr d) dd' (g d) c k v).
Proof.
  intros Hd. unfold e_to_stream_with, to_stream_with. apply still_bind; [reflexivity|]. intros data.
  destruct (is_undefined data || is_default data); [reflexivity|]. apply still_bind; [reflexivity|]. intros _.
  destruct (is_none data); [rewrite still_dump; reflexivity|]. rewrite Hd. unfold still at 1. destruct (dd' data) as [sv r]. cbn [fst snd].
  apply still_bind; [reflexivity|]. intros _. rewrite still_dump. reflexivity.
Qed.

Lemma still_field_with dd n f v ctx d : still_dumps dd (do_dump E n) ->
  e_field_to_stream_with E dd n f v ctx d = still d (field_to_stream_with (do_dump E n) f v ctx d).
Proof. intros H. unfold e_field_to_stream_with, field_to_stream_with. apply still_to_stream. intros. apply H. Qed.

Lemma still_fields dd n ctx d : still_dumps dd (do_dump E n) -> forall fs,
  e_dump_fields E W dd n fs ctx d = still d (dump_fields (do_dump E n) fs ctx d).
Proof.
  intros H. induction fs as [|[nm f] fs IH]; [reflexivity|]. cbn [e_dump_fields dump_fields]. apply still_bind; [apply still_compute|]. intros v.
  apply still_bind; [|intros _; apply IH]. destruct (is_not_present v); [reflexivity|]. apply still_field_with. exact H.
Qed.

Lemma still_struct_with dd n cid vals ctx : still_dumps dd (do_dump E n) ->
  e_struct_to_stream_with E W dd n cid vals ctx = struct_to_stream_with E (do_dump E n) n cid vals ctx.
Proof.
  intros H. unfold e_struct_to_stream_with, struct_to_stream_with. destruct (validate_contents E n cid vals) as [[]|e|]; try reflexivity. unfold dbind at 1 3. cbn [dlift].
  destruct (to_dict E n cid vals false) as [d|e|]; try reflexivity. unfold dbind, dlift. rewrite (still_fields dd n ctx d H). unfold still.
  destruct (dump_fields (do_dump E n) (comps E cid) ctx d) as [o r]. reflexivity.
Qed.

Lemma still_items (d1 : value -> wdumped unit) (d1' : value -> dumped unit) d : (forall v, d1 v d = still d (d1' v)) -> forall l,
  e_dump_items d1 l d = still d (dump_items d1' l).
Proof. intros H. induction l as [|v l IH]; [reflexivity|]. cbn [e_dump_items dump_items]. apply still_bind; auto. Qed.

Lemma still_unsized (d1 : value -> wdumped unit) (d1' : value -> dumped unit) nm c d : (forall v, d1 v d = still d (d1' v)) -> forall l k,
  e_dump_unsized d1 nm c k l d = still d (dump_unsized d1' nm c k l).
Proof.
  intros H. induction l as [|v l IH]; intros k; cbn [e_dump_unsized dump_unsized].
  - destruct c as [c|]; [|reflexivity]. apply still_bind; [reflexivity|]. intros [|]; reflexivity.
  - destruct (match c with Some c0 => count_is c0 k | None => false end); [reflexivity|]. apply still_bind; auto.
Qed.

Lemma still_load : forall n, still_dumps (e_do_dump E W n) (do_dump E n).
Proof.
  induction n as [|n IH]; intros [c k] v ctx d; destruct k; cbn [e_do_dump do_dump kind]; try (rewrite still_dump; reflexivity); try reflexivity.
  - unfold e_array_dump, array_dump. apply still_bind; [reflexivity|]. intros m. destruct (sized_items v) as [l|].
    + destruct m as [m|]; [destruct (negb (count_is m (zlen l))); [reflexivity|]|]; apply still_items; intros; apply still_field_with; exact IH.
    + destruct v; try reflexivity. apply still_unsized. intros. apply still_field_with. exact IH.
  - rewrite still_dump. destruct v; try reflexivity.
    + f_equal. unfold dbind. destruct (dlift (struct_init E cid d0)) as [o [vals|e|]]; try reflexivity. rewrite still_struct_with by exact IH. reflexivity.
    + rewrite still_struct_with by exact IH. reflexivity.
  - apply still_bind; [unfold still; cbn [fst snd dlift]; rewrite (proj2 (proj2 HW)); reflexivity|]. intros i. destruct (nth_error choices i) as [[g|cid]|]; [apply still_field_with; exact IH| |reflexivity].
    rewrite still_dump. destruct v; try reflexivity. f_equal. unfold dbind. destruct (dlift (struct_init E cid d0)) as [o [vals|e|]]; try reflexivity. rewrite still_struct_with by exact IH. reflexivity.
Qed.

Lemma still_field n f v ctx d : e_field_to_stream E W n f v ctx d = (fst (field_to_stream E n f v ctx d), d, snd (field_to_stream E n f v ctx d)).
Proof. apply still_field_with. apply still_load. Qed.

Lemma still_struct n cid vals ctx : e_struct_to_stream E W n cid vals ctx = struct_to_stream E n cid vals ctx.
Proof. apply still_struct_with. apply still_load. Qed.
End Idle.

(** ** What a dictionary becomes *)
Section Grows.
Variable R : dict -> dict -> Prop.
Hypothesis Rrefl : forall d, R d d.
Hypothesis Rtrans : forall d1 d2 d3, R d1 d2 -> R d2 d3 -> R d1 d3.
Variable E : env.
Variable W : edits.
Hypothesis HW : all_edits R W.

Definition moves_on {A} (m : wdumped A) : Prop := forall d o d' r, m d = (o, d', r) -> R d d'.

Lemma on_lift {A} (r : res A) : moves_on (edlift r).
Proof. intros d o d' r' H. injection H as _ <- _. apply Rrefl. Qed.

Lemma on_dump {A} (m : dict -> dumped A) : moves_on (edump m).
Proof. intros d o d' r' H. unfold edump in H. destruct (m d). injection H as _ <- _. apply Rrefl. Qed.

Lemma on_bind {A B} (m : wdumped A) (k : A -> wdumped B) : moves_on m -> (forall a, moves_on (k a)) -> moves_on (edbind m k).
Proof.
  intros Hm Hk d o d' r H. unfold edbind in H. destruct (m d) as [[o1 d1] [a|e|]] eqn:Hs.
  - destruct (k a d1) as [[o2 d2] r2] eqn:Hk2. injection H as _ <- _. eapply Rtrans; [eapply Hm; eauto|]. eapply Hk; eauto.
  - injection H as _ <- _. eapply Hm; eauto.
  - injection H as _ <- _. eapply Hm; eauto.
Qed.

Lemma on_compute c ctx : moves_on (e_compute_value W c ctx).
Proof.
  unfold e_compute_value. apply on_bind.
  - intros d o d' r H. injection H as _ <- _. destruct (computes c d); [apply (proj1 HW)|apply Rrefl].
  - intros v. destruct (is_not_present v); [apply on_lift|]. apply on_bind.
    + intros d o d' r H. injection H as _ <- _. apply (proj1 (proj2 HW)).
    + intros p. destruct (negb p); [apply on_lift|]. destruct (is_undefined v); apply on_lift.
Qed.

Lemma on_to_stream nr dd g c k v : (forall v, moves_on (dd v)) -> moves_on (e_to_stream_with nr dd g c k v).
Proof.
  intros Hd. unfold e_to_stream_with. apply on_bind; [apply on_lift|]. intros data. destruct (is_undefined data || is_default data); [apply on_lift|].
  apply on_bind; [apply on_lift|]. intros _. destruct (is_none data); [apply on_dump|]. intros d o d' r H. destruct (dd data d) as [[sv d1] r1] eqn:Hdd.
  eapply Rtrans; [eapply Hd; exact Hdd|]. refine (on_bind (edlift r1) _ (on_lift r1) _ d1 o d' r H). intros u. apply on_dump.
Qed.

Lemma on_items d1 : (forall v, moves_on (d1 v)) -> forall l, moves_on (e_dump_items d1 l).
Proof. intros H. induction l as [|v l IH]; cbn [e_dump_items]; [apply on_lift|]. apply on_bind; auto. Qed.

Lemma on_unsized d1 nm c : (forall v, moves_on (d1 v)) -> forall l k, moves_on (e_dump_unsized d1 nm c k l).
Proof.
  intros H. induction l as [|v l IH]; intros k; cbn [e_dump_unsized].
  - destruct c as [c|]; [|apply on_lift]. apply on_bind; [apply on_lift|]. intros [|]; apply on_lift.
  - destruct (match c with Some c0 => count_is c0 k | None => false end); [apply on_lift|]. apply on_bind; auto.
Qed.

Lemma on_do_dump : forall n f v ctx, moves_on (e_do_dump E W n f v ctx).
Proof.
  induction n as [|n IH]; intros [c k] v ctx; destruct k; cbn [e_do_dump kind]; try apply on_dump; try apply on_lift.
  - unfold e_array_dump. intros d o d' r H. refine (on_bind (edlift _) _ (on_lift _) _ d o d' r H). intros m. assert (Hc : forall x, moves_on (e_field_to_stream_with E (e_do_dump E W n) n comp x ctx)) by (intros x; apply on_to_stream; intros; apply IH).
    destruct (sized_items v) as [l|].
    + destruct m as [m|]; [destruct (negb (count_is m (zlen l))); [apply on_lift|]|]; apply on_items; exact Hc.
    + destruct v; try apply on_lift. apply on_unsized. exact Hc.
  - apply on_bind.
    + intros d o d' r H. injection H as _ <- _. apply (proj2 (proj2 HW)).
    + intros i. destruct (nth_error choices i) as [[g|cid]|]; [apply on_to_stream; intros; apply IH|apply on_dump|apply on_lift].
Qed.

Lemma on_fields n ctx : forall fs, moves_on (e_dump_fields E W (e_do_dump E W n) n fs ctx).
Proof.
  induction fs as [|[nm f] fs IH]; cbn [e_dump_fields]; [apply on_lift|]. apply on_bind; [apply on_compute|]. intros v. apply on_bind; [|intros _; apply IH].
  destruct (is_not_present v); [apply on_lift|]. apply on_to_stream. intros. apply on_do_dump.
Qed.
End Grows.

(** ** What is dumped *)
Lemma edbind_ok {A B} (m : wdumped A) (k : A -> wdumped B) d o d' b : edbind m k d = (o, d', Ok b) ->
  exists o1 d1 a o2, m d = (o1, d1, Ok a) /\ k a d1 = (o2, d', Ok b) /\ o = o1 ++ o2.
Proof.
  unfold edbind. destruct (m d) as [[o1 d1] [a|e|]]; try discriminate. destruct (k a d1) as [[o2 d2] r] eqn:Hk. intros H. injection H as <- <- ->.
  exists o1, d1, a, o2. auto.
Qed.

Lemma compute_nothing W c ctx d o d' r : e_compute_value W c ctx d = (o, d', r) -> o = [].
Proof.
  unfold e_compute_value, edbind, edlift. destruct (run_dict d (stored_or_fallback c)) as [v|e|]; try (intros H; injection H as <- _ _; reflexivity).
  destruct (is_not_present v); [intros H; injection H as <- _ _; reflexivity|].
  destruct (run_dict _ (c_present c ctx None)) as [[|]|e|]; cbn [negb]; try destruct (is_undefined v); intros H; injection H as <- _ _; reflexivity.
Qed.

Lemma fields_split E W n ctx : forall before after d o d', e_dump_fields E W (e_do_dump E W n) n (before ++ after) ctx d = (o, d', Ok tt) ->
  exists o1 d1 o2, e_dump_fields E W (e_do_dump E W n) n before ctx d = (o1, d1, Ok tt)
    /\ e_dump_fields E W (e_do_dump E W n) n after ctx d1 = (o2, d', Ok tt) /\ o = o1 ++ o2.
Proof.
  induction before as [|[nm f] fs IH]; intros after d o d' H; [exists [], d, o; auto|]. cbn [app e_dump_fields] in H |- *.
  apply edbind_ok in H. destruct H as (oa & da & v & ob & Ha & H & ->). apply edbind_ok in H. destruct H as (oc & dc & [] & od & Hc & H & ->).
  apply IH in H. destruct H as (o1 & d1 & o2 & H1 & H2 & ->). exists (oa ++ oc ++ o1), d1, o2. split; [|split; [exact H2|rewrite !app_assoc; reflexivity]].
  unfold edbind at 1. rewrite Ha. unfold edbind. rewrite Hc, H1. reflexivity.
Qed.

Lemma dumped_in_turn E W n cid vals ctx out before name f after : comps E cid = before ++ (name, f) :: after ->
  e_struct_to_stream E W n cid vals ctx = (out, Ok tt) ->
  exists all_fields o1 d1 d2 v o2 d3 o3 d4,
    to_dict E n cid vals false = Ok all_fields
    /\ e_dump_fields E W (e_do_dump E W n) n before ctx all_fields = (o1, d1, Ok tt)
    /\ e_compute_value W (conf f) ctx d1 = ([], d2, Ok v)
    /\ match v with
       | VNotPresent => o2 = [] /\ d3 = d2
       | _ => e_field_to_stream E W n f v ctx d2 = (o2, d3, Ok tt)
       end
    /\ e_dump_fields E W (e_do_dump E W n) n after ctx d3 = (o3, d4, Ok tt)
    /\ out = o1 ++ o2 ++ o3.
Proof.
  intros Hc Hs. unfold e_struct_to_stream, e_struct_to_stream_with in Hs. destruct (validate_contents E n cid vals) as [[]|e|]; try discriminate. unfold dbind at 1 in Hs. cbn [dlift] in Hs.
  destruct (to_dict E n cid vals false) as [d|e|]; try discriminate. unfold dbind, dlift in Hs.
  destruct (e_dump_fields E W (e_do_dump E W n) n (comps E cid) ctx d) as [[o dl] r] eqn:Hf. cbn [app] in Hs. injection Hs as -> ->.
  rewrite Hc in Hf. apply fields_split in Hf. destruct Hf as (o1 & d1 & ob & H1 & H2 & ->). cbn [e_dump_fields] in H2.
  apply edbind_ok in H2. destruct H2 as (oa & d2 & v & oc & Hv & H2 & ->). pose proof (compute_nothing _ _ _ _ _ _ _ Hv) as ->.
  apply edbind_ok in H2. destruct H2 as (o2 & d3 & [] & o3 & Hw & H2 & ->).
  exists d, o1, d1, d2, v, o2, d3, o3, dl. split; [reflexivity|]. split; [exact H1|]. split; [exact Hv|]. split; [|split; [exact H2|reflexivity]].
  destruct v; try exact Hw. cbn in Hw. injection Hw as <- <-. auto.
Qed.

Lemma stored_there c d name w : c_name c = Some name -> dget d name = Some w -> run_dict d (stored_or_fallback c) = Ok w.
Proof.
  intros Hn Hg. unfold run_dict, stored_or_fallback. rewrite Hn. cbn [run_q]. replace (dmem d name) with true by (unfold dmem; rewrite Hg; reflexivity). cbn [run_q].
  replace (dget_res d name) with (Ok w) by (unfold dget_res; rewrite Hg; reflexivity). reflexivity.
Qed.

Lemma value_there W c ctx d name w : c_name c = Some name -> dget d name = Some w -> w <> VNotPresent -> w <> VUndefined ->
  run_dict d (c_present c ctx None) = Ok true -> e_compute_value W c ctx d = ([], ed_present W c ctx d, Ok w).
Proof.
  intros Hn Hg H1 H2 Hp. unfold e_compute_value, edbind, edlift.
  assert (Hc : computes c d = false). { unfold computes, dmem. rewrite Hn, Hg. destruct (c_compute c); [|reflexivity]. destruct (is_undefined (c_default c)); reflexivity. }
  rewrite Hc, (stored_there c d name w Hn Hg).
  replace (is_not_present w) with false by (destruct w; cbn; congruence). rewrite Hp. cbn [negb]. replace (is_undefined w) with false by (destruct w; cbn; congruence). reflexivity.
Qed.

(** Without a value: the default, and the compute function is not called; ... *)
Lemma default_there W c ctx d w : (forall name, c_name c = Some name -> dget d name = None) ->
  c_default c <> VUndefined -> default_of c = Ok w -> w <> VNotPresent -> w <> VUndefined ->
  run_dict d (c_present c ctx None) = Ok true -> e_compute_value W c ctx d = ([], ed_present W c ctx d, Ok w).
Proof.
  intros Hno Hdef Hw Hn Hu Hp. assert (Hd : is_undefined (c_default c) = false) by (destruct (c_default c); cbn; congruence).
  assert (Hq : run_dict d (default_query c) = Ok w).
  { unfold default_query. unfold default_of in Hw. destruct (c_factory c) as [[x|e]|]; [exact Hw|discriminate|exact Hw]. }
  assert (Hr : run_dict d (stored_or_fallback c) = Ok w).
  { unfold stored_or_fallback, fallback_value. destruct (c_name c) as [nm|] eqn:Hc.
    - assert (Hm : dmem d nm = false) by (unfold dmem; rewrite (Hno nm eq_refl); reflexivity).
      unfold run_dict. cbn [run_q]. rewrite Hm, Hd. exact Hq.
    - rewrite Hd. exact Hq. }
  unfold e_compute_value, edbind, computes. rewrite Hr, Hd.
  replace (match c_compute c with Some _ => false && match c_name c with Some n => negb (dmem d n) | None => true end | None => false end)%bool
    with false by (destruct (c_compute c); reflexivity).
  replace (is_not_present w) with false by (destruct w; cbn; congruence).
  rewrite Hp. cbn [negb]. replace (is_undefined w) with false by (destruct w; cbn; congruence). reflexivity.
Qed.

(** ... or else what the compute function returns; [present] sees what it has written. *)
Lemma computed_there W c ctx d q w : (forall name, c_name c = Some name -> dget d name = None) ->
  c_default c = VUndefined -> c_compute c = Some q -> run_dict d q = Ok w -> w <> VNotPresent -> w <> VUndefined ->
  run_dict (ed_compute W c d) (c_present c ctx None) = Ok true ->
  e_compute_value W c ctx d = ([], ed_present W c ctx (ed_compute W c d), Ok w).
Proof.
  intros Hno Hdef Hq Hw Hn Hu Hp.
  assert (Hr : run_dict d (stored_or_fallback c) = Ok w).
  { unfold stored_or_fallback, fallback_value. rewrite Hdef, Hq. cbn [is_undefined negb].
    destruct (c_name c) as [nm|] eqn:Hc; [|exact Hw].
    assert (Hm : dmem d nm = false) by (unfold dmem; rewrite (Hno nm eq_refl); reflexivity).
    unfold run_dict. cbn [run_q]. rewrite Hm. exact Hw. }
  assert (Hc : computes c d = true).
  { unfold computes. rewrite Hq, Hdef. cbn [is_undefined andb]. destruct (c_name c) as [nm|]; auto.
    unfold dmem. rewrite (Hno nm eq_refl). reflexivity. }
  unfold e_compute_value, edbind. rewrite Hr, Hc.
  replace (is_not_present w) with false by (destruct w; cbn; congruence).
  rewrite Hp. cbn [negb]. replace (is_undefined w) with false by (destruct w; cbn; congruence). reflexivity.
Qed.

(** The decider of a union looks at the dictionary as it was; the choice is dumped with what it has left. *)
Lemma decided_edited E W n c choices ld dmp v ctx d i g : dmp v ctx d = Ok i -> nth_error choices i = Some (CField g) ->
  e_do_dump E W (S n) (Field c (KUnion choices ld dmp)) v ctx d = e_field_to_stream E W n g v ctx (ed_decide W c v ctx d).
Proof.
  intros Hi Hg. cbn [e_do_dump kind conf]. unfold edbind. rewrite Hi, Hg. unfold e_field_to_stream.
  destruct (e_field_to_stream_with E (e_do_dump E W n) n g v ctx (ed_decide W c v ctx d)) as [[o d'] r]. reflexivity.
Qed.

Lemma value_only_there W c ctx d d' name w v : c_name c = Some name -> dget d name = Some w -> e_compute_value W c ctx d = ([], d', Ok v) -> v = w \/ v = VNotPresent.
Proof.
  intros Hn Hg. unfold e_compute_value, edbind, edlift. rewrite (stored_there c d name w Hn Hg).
  destruct (is_not_present w); [intros H; injection H as _ <-; auto|].
  destruct (run_dict _ (c_present c ctx None)) as [[|]|e|]; cbn [negb]; try destruct (is_undefined w); intros H; try discriminate; injection H as _ <-; auto.
Qed.

Lemma own_value_kept E W n cid vals ctx before name f after all_fields w o1 d1 d2 v : inserts_only W ->
  comps E cid = before ++ (name, f) :: after -> c_name (conf f) = Some name ->
  to_dict E n cid vals false = Ok all_fields -> dget all_fields name = Some w ->
  e_dump_fields E W (e_do_dump E W n) n before ctx all_fields = (o1, d1, Ok tt) ->
  e_compute_value W (conf f) ctx d1 = ([], d2, Ok v) -> v = w \/ v = VNotPresent.
Proof.
  intros HW Hc Hn _ Hw Hb Hv. apply (on_fields extends extends_refl extends_trans E W HW) in Hb. apply Hb in Hw. eapply value_only_there; eauto.
Qed.

Lemma nested_dump_apart E W n c cid v ctx d d' : exists o r, e_do_dump E W n (Field c (KNested cid)) v ctx d = (o, d, r) /\ e_do_dump E W n (Field c (KNested cid)) v ctx d' = (o, d', r).
Proof.
  destruct n as [|n]; cbn [e_do_dump kind]; [exists [], OOF; split; reflexivity|]. unfold edump.
  match goal with |- context [let '(_, _) := ?m in _] => destruct m as [o r] end. exists o, r. split; reflexivity.
Qed.

Lemma leaf_dump_still E W n f v ctx d : lone_kind (kind f) -> e_field_to_stream E W n f v ctx d = (fst (field_to_stream E n f v ctx d), d, snd (field_to_stream E n f v ctx d)).
Proof.
  intros Hk. unfold e_field_to_stream, e_field_to_stream_with, field_to_stream, field_to_stream_with. apply (still_to_stream (null_repr (do_dump E n) f)). intros w.
  destruct f as [c k]. cbn [kind] in Hk. destruct n, k; try (exfalso; exact Hk); cbn [e_do_dump do_dump kind]; rewrite still_dump; reflexivity.
Qed.

Lemma count_at_first E W n c comp name halt l ctx d o d' z : e_do_dump E W n (Field c (KArray comp (CntRef name) halt)) (VList l) ctx d = (o, d', Ok tt) ->
  dget d name = Some (VInt z) -> zlen l = z.
Proof.
  destruct n as [|n]; [discriminate|]. cbn [e_do_dump kind]. unfold e_array_dump. cbn [get_final_element_count sized_items]. intros H Hz. rewrite Hz in H.
  unfold edbind at 1 in H. cbn [edlift count_is] in H. destruct (zlen l =? z) eqn:He; [lia|discriminate].
Qed.
