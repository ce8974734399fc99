(** Proofs about callables that move the stream (C102). *)
From Coq Require Import Lia.
From Verif Require Import Tac PyIntProofs StreamProofs FieldProofs FieldMore StructProofs SizeProofs ForwardProofs.
From Verif Require Export SpecReaders.
Open Scope list_scope.
Open Scope Z_scope.

(** ** Callables that put the stream back *)
Section Tidy.
Variable E : env.
Variable M : moves.
Hypothesis HM : tidy M.

Lemma tidy_from nr (dl dl' : loader value) eqv c ctx d s : (forall s, dl s = dl' s) ->
  r_from_stream_with M nr dl eqv c ctx d s = from_stream_with nr dl' eqv c ctx d s.
Proof.
  intros Hd. unfold r_from_stream_with. cbv zeta. rewrite (proj1 HM). unfold from_stream_with. cbv zeta. cbn [there c_present].
  destruct (run_dict d (c_present c ctx (Some s))) as [[|]|e|]; try reflexivity.
  unfold run_dict at 1. cbn [run_q]. unfold allow_null, run_validators. cbn [there c_null c_const c_validators c_name].
  assert (Hl : forall s1 c',
    (ldo v <- (fun s => match dl s with (s', Raise e) => (s', Raise (set_field (c_name c') e)) | x => x end);
     ldo v <- llift (if allow_null c' then do b <- eqv v (c_null c'); Ok (if b then VNone else v) else Ok v);
     ldo _ <- llift (if negb (is_undefined (c_const c')) then do b <- eqv v (c_const c'); if b then Ok tt else Raise (EValidation (c_name c')) else Ok tt);
     ldo _ <- llift (run_validators (c_validators c') v); lret v) s1 =
    (ldo v <- (fun s => match dl' s with (s', Raise e) => (s', Raise (set_field (c_name c') e)) | x => x end);
     ldo v <- llift (if allow_null c' then do b <- eqv v (c_null c'); Ok (if b then VNone else v) else Ok v);
     ldo _ <- llift (if negb (is_undefined (c_const c')) then do b <- eqv v (c_const c'); if b then Ok tt else Raise (EValidation (c_name c')) else Ok tt);
     ldo _ <- llift (run_validators (c_validators c') v); lret v) s1).
  { intros s1 c'. unfold lbind at 1 5. rewrite Hd. reflexivity. }
  specialize (fun s1 => Hl s1 c). unfold allow_null, run_validators in Hl.
  destruct (negb (is_undefined (c_null c))); [|apply Hl].
  destruct nr as [bs|e|]; try reflexivity.
  - destruct (peek_bytes (zlen bs) true s) as [s1 [p|e|]]; try reflexivity. destruct (bytes_eqb p bs); [reflexivity|]. apply Hl.
  - destruct (is_UnserializableValueError e); [|reflexivity]. destruct (is_default (c_null c)); [reflexivity|]. apply Hl.
Qed.

Lemma lbind_eq {A B} (m m' : loader A) (k k' : A -> loader B) s : m s = m' s -> (forall a s1, k a s1 = k' a s1) -> lbind m k s = lbind m' k' s.
Proof. intros Hm H. unfold lbind. rewrite Hm. destruct (m' s) as [s1 [a|e|]]; auto. Qed.

Definition same_loads (dl dl' : floader) : Prop := forall f ctx d s, dl f ctx d s = dl' f ctx d s.

Lemma tidy_field_with dl dl' n f ctx d s : same_loads dl dl' -> r_field_from_stream_with E M dl n f ctx d s = field_from_stream_with E dl' n f ctx d s.
Proof. intros H. apply tidy_from. intros. apply H. Qed.

Lemma tidy_struct_with dl dl' n cid ctx kw s : same_loads dl dl' -> r_struct_from_stream_with E M dl n cid ctx kw s = struct_from_stream_with E dl' n cid ctx kw s.
Proof.
  intros H. unfold r_struct_from_stream_with, struct_from_stream_with. apply lbind_eq; [|reflexivity]. generalize (comps E cid). revert kw s.
  intros kw s fs. revert kw s. induction fs as [|[nm f] fs IH]; intros kw s; [reflexivity|]. cbn [r_load_fields load_fields]. apply lbind_eq; [apply tidy_field_with; auto|auto].
Qed.

Lemma tidy_load : forall n, same_loads (r_do_load E M n) (do_load E n).
Proof.
  induction n as [|n IH]; intros [c k] ctx d s; destruct k; try reflexivity; cbn [r_do_load do_load kind].
  - generalize (@nil value). revert s. generalize n at 1 4. intros fuel. induction fuel as [|fuel IHf]; intros s vs; [reflexivity|]. cbn [r_array_load array_load]. cbv zeta.
    assert (Hm : halt_moves M halt (conf (Field c (KArray comp cnt halt))) ctx d vs s = s). { unfold halt_moves. destruct halt; [|reflexivity]. apply (proj1 (proj2 HM)). }
    rewrite Hm. destruct (array_halt cnt halt _ ctx d s vs) as [[[|] vs']|e|]; try reflexivity.
    rewrite (tidy_field_with _ _ n comp ctx d s IH). destruct (field_from_stream_with E (do_load E n) n comp ctx d s) as [s1 [v|e|]]; auto.
  - apply lbind_eq; [apply tidy_struct_with; auto|reflexivity].
  - cbv zeta. rewrite (proj2 (proj2 HM)). destruct (load_decider s ctx d) as [i|e|]; try reflexivity. destruct (nth_error choices i) as [[g|cid]|]; try reflexivity.
    + apply IH.
    + apply lbind_eq; [apply tidy_struct_with; auto|reflexivity].
Qed.

Lemma tidy_field n f ctx d s : r_field_from_stream E M n f ctx d s = field_from_stream E n f ctx d s.
Proof. apply tidy_field_with. apply tidy_load. Qed.

Lemma tidy_struct n cid ctx kw s : r_struct_from_stream E M n cid ctx kw s = struct_from_stream E n cid ctx kw s.
Proof. apply tidy_struct_with. apply tidy_load. Qed.
End Tidy.

(** ** Where the stream goes *)
Section Related.
Variable R : stream -> stream -> Prop.
Hypothesis Rrefl : forall s, R s s.
Hypothesis Rtrans : forall s1 s2 s3, R s1 s2 -> R s2 s3 -> R s1 s3.
Hypothesis Rfwd : forall s s', forward s s' -> R s s'.
Variable E : env.
Variable M : moves.
Hypothesis HM : all_moves R M.

Definition goes {A} (m : loader A) : Prop := forall s s' r, m s = (s', r) -> R s s'.

Lemma goes_fwd {A} (m : loader A) : fwd m -> goes m.
Proof. intros H s s' r Hm. apply Rfwd. eapply H; eauto. Qed.

Lemma goes_ret {A} (a : A) : goes (lret a).
Proof. intros s s' r H. injection H as <- _. apply Rrefl. Qed.

Lemma goes_lift {A} (a : res A) : goes (llift a).
Proof. intros s s' r H. injection H as <- _. apply Rrefl. Qed.

Lemma goes_bind {A B} (m : loader A) (k : A -> loader B) : goes m -> (forall a, goes (k a)) -> goes (lbind m k).
Proof.
  intros Hm Hk s s' r H. unfold lbind in H. destruct (m s) as [s1 [a|e|]] eqn:Hs.
  - eapply Rtrans; [eapply Hm; eauto|]. eapply Hk; eauto.
  - injection H as <- _. eapply Hm; eauto.
  - injection H as <- _. eapply Hm; eauto.
Qed.

Lemma goes_from nr dl eqv c ctx d : goes dl -> goes (from_stream_with nr dl eqv c ctx d).
Proof.
  intros Hdl.
  set (lv := ldo v <- (fun s => match dl s with (s', Raise e) => (s', Raise (set_field (c_name c) e)) | x => x end);
    ldo v <- llift (if allow_null c then do b <- eqv v (c_null c); Ok (if b then VNone else v) else Ok v);
    ldo _ <- llift (if negb (is_undefined (c_const c)) then do b <- eqv v (c_const c); if b then Ok tt else Raise (EValidation (c_name c)) else Ok tt);
    ldo _ <- llift (run_validators (c_validators c) v);
    lret v).
  assert (Hlv : goes lv).
  { unfold lv. apply goes_bind.
    - intros s s' r H. destruct (dl s) as [s1 [a|e|]] eqn:Hs; injection H as <- _; eapply Hdl; eauto.
    - intros v. apply goes_bind; [apply goes_lift|]. intros w. apply goes_bind; [apply goes_lift|]. intros _. apply goes_bind; [apply goes_lift|]. intros _. apply goes_ret. }
  intros s s' r H. unfold from_stream_with in H. cbv zeta in H. fold lv in H. clearbody lv.
  destruct (run_dict d (c_present c ctx (Some s))) as [[|]|e|]; try (injection H as <- _; apply Rrefl).
  destruct (allow_null c); [|eapply Hlv; exact H].
  destruct nr as [nb|e|]; [| |injection H as <- _; apply Rrefl].
  - unfold peek_bytes in H. destruct (read s (zlen nb)) as [data s1] eqn:Hr. cbn [negb andb] in H.
    destruct (bytes_eqb data nb) eqn:Hb; [|eapply Hlv; exact H].
    apply bytes_eqb_eq in Hb. subst data. apply read_spec in Hr. destruct Hr as (suf & Hr & _).
    assert (R s (advance s (length nb))) by (apply Rfwd; apply forward_advance; rewrite Hr, app_length; lia).
    destruct (run_validators (c_validators c) VNone); injection H as <- _; auto.
  - destruct (is_UnserializableValueError e); [|injection H as <- _; apply Rrefl].
    destruct (is_default (c_null c)); [injection H as <- _; apply Rrefl|eapply Hlv; exact H].
Qed.

Lemma goes_field_with dl n f ctx d : goes (dl f ctx d) -> goes (r_field_from_stream_with E M dl n f ctx d).
Proof.
  intros Hdl s s' r H. unfold r_field_from_stream_with, r_from_stream_with in H. cbv zeta in H. pose proof (proj1 HM (conf f) ctx d s) as Hp.
  destruct (run_dict d (c_present (conf f) ctx (Some s))) as [[|]|e|]; try (injection H as <- _; exact Hp).
  eapply Rtrans; [exact Hp|]. eapply goes_from; [exact Hdl|exact H].
Qed.

Lemma goes_struct_with dl n cid ctx kw : (forall f d, goes (dl f ctx d)) -> goes (r_struct_from_stream_with E M dl n cid ctx kw).
Proof.
  intros Hdl. unfold r_struct_from_stream_with. apply goes_bind.
  - generalize (comps E cid). intros fs. revert kw. induction fs as [|[nm f] fs IH]; intros kw; cbn [r_load_fields]; [apply goes_ret|]. apply goes_bind; [apply goes_field_with; auto|auto].
  - intros res. apply goes_bind; [apply goes_lift|]. intros vals. apply goes_bind; [apply goes_lift|]. intros _. apply goes_ret.
Qed.

Lemma goes_load : forall n f ctx d, goes (r_do_load E M n f ctx d).
Proof.
  assert (Hstay : forall (x : res value), goes (fun s => (s, x))) by (intros x s s' r H; injection H as <- _; apply Rrefl).
  induction n as [|n IH]; intros [c k] ctx d; destruct k; cbn [r_do_load kind conf]; try (apply goes_fwd; apply fwd_leaf); auto.
  - generalize (@nil value). generalize n at 1. intros fuel. induction fuel as [|fuel IHf]; intros vs; [apply Hstay|]. cbn [r_array_load]. cbv zeta.
    intros s s' r H. assert (Hm : R s (halt_moves M halt c ctx d vs s)). { unfold halt_moves. destruct halt; [apply (proj1 (proj2 HM))|apply Rrefl]. }
    destruct (array_halt cnt halt _ ctx d s vs) as [[[|] vs']|e|]; try (injection H as <- _; exact Hm).
    destruct (r_field_from_stream_with E M (r_do_load E M n) n comp ctx d (halt_moves M halt c ctx d vs s)) as [s1 [v|e|]] eqn:Hl; apply (goes_field_with _ _ _ _ _ (IH comp ctx d)) in Hl.
    + eapply Rtrans; [exact Hm|]. eapply Rtrans; [exact Hl|]. eapply IHf; exact H.
    + injection H as <- _. eapply Rtrans; eauto.
    + injection H as <- _. eapply Rtrans; eauto.
  - apply goes_bind; [apply goes_struct_with; auto|]. intros. apply goes_ret.
  - intros s s' r H. pose proof (proj2 (proj2 HM) c ctx d s) as Hm. cbv zeta in H. destruct (load_decider s ctx d) as [i|e|]; try (injection H as <- _; exact Hm).
    eapply Rtrans; [exact Hm|]. destruct (nth_error choices i) as [[g|cid]|]; [eapply IH; exact H| |injection H as <- _; apply Rrefl].
    eapply (goes_bind _ _ (goes_struct_with _ _ _ _ _ (fun f d => IH f ctx d)) (fun v => goes_ret _)); exact H.
Qed.

Lemma goes_struct n cid ctx kw : goes (r_struct_from_stream E M n cid ctx kw).
Proof. apply goes_struct_with. intros. apply goes_load. Qed.

Lemma goes_field n f ctx d : goes (r_field_from_stream E M n f ctx d).
Proof. apply goes_field_with. apply goes_load. Qed.
End Related.

Lemma read_struct E M n cid ctx kw s s' r : only_read M -> r_struct_from_stream E M n cid ctx kw s = (s', r) -> s_data s' = s_data s.
Proof.
  intros HM. apply (goes_struct (fun s s' => s_data s' = s_data s)); auto; [congruence|]. intros s1 s2 (H & _). exact H.
Qed.

Lemma read_field E M n f ctx d s s' r : only_read M -> r_field_from_stream E M n f ctx d s = (s', r) -> s_data s' = s_data s.
Proof.
  intros HM. apply (goes_field (fun s s' => s_data s' = s_data s)); auto; [congruence|]. intros s1 s2 (H & _). exact H.
Qed.

Lemma ahead_struct E M n cid ctx kw s s' r : never_back M -> r_struct_from_stream E M n cid ctx kw s = (s', r) -> forward s s'.
Proof. intros HM. apply (goes_struct forward); auto; [apply forward_refl|apply forward_trans]. Qed.

Lemma ahead_field E M n f ctx d s s' r : never_back M -> r_field_from_stream E M n f ctx d s = (s', r) -> forward s s'.
Proof. intros HM. apply (goes_field forward); auto; [apply forward_refl|apply forward_trans]. Qed.

(** ** One call *)
Lemma absent_moved E M n f ctx d s : run_dict d (c_present (conf f) ctx (Some s)) = Ok false ->
  r_field_from_stream E M n f ctx d s = (mv_present M (conf f) ctx d s, Ok (c_npv (conf f))).
Proof. intros H. unfold r_field_from_stream, r_field_from_stream_with, r_from_stream_with. cbv zeta. rewrite H. reflexivity. Qed.

Lemma present_moved E M n c k ctx d s : simple_kind k -> run_dict d (c_present c ctx (Some s)) = Ok true ->
  r_field_from_stream E M n (Field c k) ctx d s = field_from_stream E n (Field (there c) k) ctx d (mv_present M c ctx d s).
Proof.
  intros Hk H. unfold r_field_from_stream, r_field_from_stream_with, r_from_stream_with, field_from_stream, field_from_stream_with. cbv zeta. cbn [conf]. rewrite H.
  replace (null_repr (do_dump E n) (Field (there c) k) d) with (null_repr (do_dump E n) (Field c k) d).
  - replace (do_load E n (Field (there c) k) ctx d) with (r_do_load E M n (Field c k) ctx d); [reflexivity|]. destruct n, k; try destruct Hk; reflexivity.
  - destruct n, k; try destruct Hk; reflexivity.
Qed.

Lemma decided_field E M n c choices ld dmp ctx d s i g : ld s ctx d = Ok i -> nth_error choices i = Some (CField g) ->
  r_do_load E M (S n) (Field c (KUnion choices ld dmp)) ctx d s = r_do_load E M n g ctx d (mv_decide M c ctx d s).
Proof. intros Hi Hg. cbn [r_do_load kind conf]. rewrite Hi, Hg. reflexivity. Qed.

Lemma decided_struct E M n c choices ld dmp ctx d s i cid s' vals : ld s ctx d = Ok i -> nth_error choices i = Some (CStruct cid) ->
  r_struct_from_stream E M n cid ctx [] (mv_decide M c ctx d s) = (s', Ok vals) ->
  r_do_load E M (S n) (Field c (KUnion choices ld dmp)) ctx d s = (s', Ok (VStruct cid vals)).
Proof. intros Hi Hg Hs. cbn [r_do_load kind conf]. rewrite Hi, Hg. unfold r_struct_from_stream in Hs. unfold lbind. rewrite Hs. reflexivity. Qed.

Lemma halting_load E M n c comp cnt h ctx d s s' l : r_do_load E M (S n) (Field c (KArray comp cnt (Some h))) ctx d s = (s', Ok (VList l)) ->
  halting E M n c comp h ctx d [] s l s'.
Proof.
  cbn [r_do_load kind conf]. generalize (@nil value). generalize n at 1. intros fuel. revert s. induction fuel as [|fuel IH]; intros s vs; [discriminate|].
  cbn [r_array_load array_halt halt_moves]. cbv zeta. destruct (h s vs ctx d) as [[[|] vs']|e|] eqn:Hh; try discriminate.
  - intros H. injection H as <- <-. apply halting_end. exact Hh.
  - destruct (r_field_from_stream_with E M (r_do_load E M n) n comp ctx d (mv_halt M c vs ctx d s)) as [s1 [v|e|]] eqn:Hl; try discriminate.
    intros H. apply IH in H. apply (halting_more E M n c comp h ctx d vs s vs' s1 v); auto. destruct v; exact H.
Qed.
