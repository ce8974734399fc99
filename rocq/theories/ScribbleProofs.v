(** Proofs about callables that write into the dictionary of loaded fields (C105). *)
From Coq Require Import String Lia.
From Verif Require Import Tac FieldProofs FieldMore StructProofs SizeProofs ReaderProofs.
From Verif Require Export SpecScribbles.
Open Scope list_scope.
Open Scope Z_scope.

(** ** Nobody writes *)
Section Idle.
Variable E : env.
Variable W : scribbles.
Hypothesis HW : idle W.

(** The outcome of a loader, with the dictionary as it was. *)
Definition plain {A} (d : dict) (x : stream * res A) : stream * dict * res A := (fst x, d, snd x).

Lemma plain_bind {A B} (m : wloader A) (m' : loader A) (k : A -> wloader B) (k' : A -> loader B) d s :
  m d s = plain d (m' s) -> (forall a s1, k a d s1 = plain d (k' a s1)) -> wbind m k d s = plain d (lbind m' k' s).
Proof. intros Hm Hk. unfold wbind, lbind. rewrite Hm. destruct (m' s) as [s1 [a|e|]]; cbn [plain fst snd]; [apply Hk|reflexivity|reflexivity]. Qed.

Lemma plain_lift {A} (r : res A) d s : wlift r d s = plain d (llift r s).
Proof. reflexivity. Qed.

Lemma idle_value (dl : wloader value) (dl' : loader value) eqv c d s : (forall s, dl d s = plain d (dl' s)) ->
  w_load_value dl eqv c d s = plain d ((
    ldo v <- (fun s => match dl' s with (s', Raise e) => (s', Raise (set_field (c_name c) e)) | x => x end);
    ldo v <- llift (if allow_null c then do b <- eqv v (c_null c); Ok (if b then VNone else v) else Ok v);
    ldo _ <- llift (if negb (is_undefined (c_const c)) then do b <- eqv v (c_const c); if b then Ok tt else Raise (EValidation (c_name c)) else Ok tt);
    ldo _ <- llift (run_validators (c_validators c) v);
    lret v) s).
Proof.
  intros Hd. unfold w_load_value. apply plain_bind.
  { rewrite Hd. destruct (dl' s) as [s1 [a|e|]]; reflexivity. }
  intros v s1. apply plain_bind; [reflexivity|]. intros w s2. apply plain_bind; [reflexivity|]. intros _ s3. apply plain_bind; [reflexivity|]. intros _ s4. reflexivity.
Qed.

Lemma idle_from (nr : dict -> res (list Z)) (dl : wloader value) (dl' : loader value) eqv c ctx d s : (forall s, dl d s = plain d (dl' s)) ->
  w_from_stream_with W nr dl eqv c ctx d s = plain d (from_stream_with (nr d) dl' eqv c ctx d s).
Proof.
  intros Hd. unfold w_from_stream_with, from_stream_with. cbv zeta. rewrite (proj1 HW).
  destruct (run_dict d (c_present c ctx (Some s))) as [[|]|e|]; try reflexivity.
  destruct (allow_null c) eqn:Ha; [|rewrite (idle_value dl dl' eqv c d s Hd), Ha; reflexivity].
  destruct (nr d) as [bs|e|]; try reflexivity.
  - destruct (peek_bytes (zlen bs) true s) as [s1 [p|e|]]; try reflexivity. destruct (bytes_eqb p bs).
    + unfold wbind, wlift. destruct (run_validators (c_validators c) VNone); reflexivity.
    + rewrite (idle_value dl dl' eqv c d s1 Hd), Ha. reflexivity.
  - destruct (is_UnserializableValueError e); [|reflexivity]. destruct (is_default (c_null c)); [reflexivity|].
    rewrite (idle_value dl dl' eqv c d s Hd), Ha. reflexivity.
Qed.

Definition plain_loads (dl : wfloader) (dl' : floader) : Prop := forall f ctx d s, dl f ctx d s = plain d (dl' f ctx d s).

Lemma idle_field_with dl dl' n f ctx d s : plain_loads dl dl' ->
  w_field_from_stream_with E W dl n f ctx d s = plain d (field_from_stream_with E dl' n f ctx d s).
Proof. intros H. unfold w_field_from_stream_with, field_from_stream_with. apply idle_from. intros. apply H. Qed.

Lemma idle_fields dl dl' n ctx : plain_loads dl dl' -> forall fs d s,
  w_load_fields E W dl n fs ctx d s =
  match load_fields E dl' n fs ctx d s with
  | (s', Ok d') => (s', d', Ok tt)
  | (s', Raise e) => (s', snd (fst (w_load_fields E W dl n fs ctx d s)), Raise e)
  | (s', OOF) => (s', snd (fst (w_load_fields E W dl n fs ctx d s)), OOF)
  end.
Proof.
  intros H. induction fs as [|[nm f] fs IH]; intros d s; [reflexivity|]. cbn [w_load_fields load_fields]. unfold wbind at 1 3 5, lbind.
  rewrite (idle_field_with dl dl' n f ctx d s H). destruct (field_from_stream_with E dl' n f ctx d s) as [s1 [v|e|]]; cbn [plain fst snd]; try reflexivity.
  unfold wbind. apply IH.
Qed.

Lemma idle_struct_with dl dl' n cid ctx kw s : plain_loads dl dl' ->
  w_struct_from_stream_with E W dl n cid ctx kw s = struct_from_stream_with E dl' n cid ctx kw s.
Proof.
  intros H. unfold w_struct_from_stream_with, struct_from_stream_with. unfold lbind at 3. rewrite (idle_fields dl dl' n ctx H (comps E cid) kw s).
  destruct (load_fields E dl' n (comps E cid) ctx kw s) as [s1 [r|e|]]; reflexivity.
Qed.

Lemma idle_load : forall n, plain_loads (w_do_load E W n) (do_load E n).
Proof.
  induction n as [|n IH]; intros [c k] ctx d s; destruct k; cbn [w_do_load do_load kind]; try (unfold wread, plain; destruct (leaf_load _ _ _ _ s); reflexivity); try reflexivity.
  - generalize (@nil value). revert s. generalize n at 1 4. intros fuel. induction fuel as [|fuel IHf]; intros s vs; [reflexivity|]. cbn [w_array_load array_load]. cbv zeta.
    assert (Hm : halt_scribbles W halt (conf (Field c (KArray comp cnt halt))) ctx vs d s = d). { unfold halt_scribbles. destruct halt; [|reflexivity]. apply (proj1 (proj2 HW)). }
    rewrite Hm. destruct (array_halt cnt halt _ ctx d s vs) as [[[|] vs']|e|]; try reflexivity.
    unfold wbind. rewrite (idle_field_with _ _ n comp ctx d s IH). destruct (field_from_stream_with E (do_load E n) n comp ctx d s) as [s1 [v|e|]]; cbn [plain fst snd]; auto.
  - unfold wread, plain, lbind. rewrite (idle_struct_with _ _ n cid ctx [] s IH). destruct (struct_from_stream_with E (do_load E n) n cid ctx [] s) as [s1 [r|e|]]; reflexivity.
  - cbv zeta. rewrite (proj2 (proj2 HW)). destruct (load_decider s ctx d) as [i|e|]; try reflexivity. destruct (nth_error choices i) as [[g|cid]|]; try reflexivity.
    + apply IH.
    + unfold wread, plain, lbind. rewrite (idle_struct_with _ _ n cid ctx [] s IH). destruct (struct_from_stream_with E (do_load E n) n cid ctx [] s) as [s1 [r|e|]]; reflexivity.
Qed.

Lemma idle_field n f ctx d s : w_field_from_stream E W n f ctx d s = (fst (field_from_stream E n f ctx d s), d, snd (field_from_stream E n f ctx d s)).
Proof. apply idle_field_with. apply idle_load. Qed.

Lemma idle_struct n cid ctx kw s : w_struct_from_stream E W n cid ctx kw s = struct_from_stream E n cid ctx kw s.
Proof. apply idle_struct_with. apply idle_load. Qed.
End Idle.

(** ** What a dictionary becomes *)
Section Grows.
Variable R : dict -> dict -> Prop.
Hypothesis Rrefl : forall d, R d d.
Hypothesis Rtrans : forall d1 d2 d3, R d1 d2 -> R d2 d3 -> R d1 d3.
Hypothesis Radd : forall d k v, dmem d k = false -> R d (d ++ [(k, v)]).
Variable E : env.
Variable W : scribbles.
Hypothesis HW : all_scribbles R W.

Definition grows {A} (m : wloader A) : Prop := forall d s s' d' r, m d s = (s', d', r) -> R d d'.

Lemma grows_lift {A} (r : res A) : grows (wlift r).
Proof. intros d s s' d' r' H. injection H as _ <- _. apply Rrefl. Qed.

Lemma grows_ret {A} (a : A) : grows (wret a).
Proof. apply grows_lift. Qed.

Lemma grows_read {A} (m : dict -> loader A) : grows (wread m).
Proof. intros d s s' d' r' H. unfold wread in H. destruct (m d s). injection H as _ <- _. apply Rrefl. Qed.

Lemma grows_bind {A B} (m : wloader A) (k : A -> wloader B) : grows m -> (forall a, grows (k a)) -> grows (wbind m k).
Proof.
  intros Hm Hk d s s' d' r H. unfold wbind in H. destruct (m d s) as [[s1 d1] [a|e|]] eqn:Hs.
  - eapply Rtrans; [eapply Hm; eauto|]. eapply Hk; eauto.
  - injection H as _ <- _. eapply Hm; eauto.
  - injection H as _ <- _. eapply Hm; eauto.
Qed.

Lemma grows_value dl eqv c : grows dl -> grows (w_load_value dl eqv c).
Proof.
  intros Hdl. unfold w_load_value. apply grows_bind.
  - intros d s s' d' r H. destruct (dl d s) as [[s1 d1] [a|e|]] eqn:Hs; injection H as _ <- _; eapply Hdl; eauto.
  - intros v. apply grows_bind; [apply grows_lift|]. intros w. apply grows_bind; [apply grows_lift|]. intros _. apply grows_bind; [apply grows_lift|]. intros _. apply grows_ret.
Qed.

Lemma grows_from nr dl eqv c ctx : grows dl -> grows (w_from_stream_with W nr dl eqv c ctx).
Proof.
  intros Hdl d s s' d' r H. pose proof (proj1 HW c ctx d s) as Hp. eapply Rtrans; [exact Hp|]. unfold w_from_stream_with in H. cbv zeta in H.
  revert H. generalize (sb_present W c ctx d s). intros d1 H.
  pose proof (grows_value dl eqv c Hdl) as Hv.
  destruct (run_dict d (c_present c ctx (Some s))) as [[|]|e|]; try (injection H as _ <- _; apply Rrefl).
  destruct (allow_null c); [|eapply Hv; exact H].
  destruct (nr d1) as [nb|e|]; [| |injection H as _ <- _; apply Rrefl].
  - destruct (peek_bytes (zlen nb) true s) as [s1 [p|e|]]; try (injection H as _ <- _; apply Rrefl).
    destruct (bytes_eqb p nb); [|eapply Hv; exact H].
    eapply (grows_bind (wlift (run_validators (c_validators c) VNone)) (fun _ => wret VNone)); [apply grows_lift|intros; apply grows_ret|exact H].
  - destruct (is_UnserializableValueError e); [|injection H as _ <- _; apply Rrefl].
    destruct (is_default (c_null c)); [injection H as _ <- _; apply Rrefl|eapply Hv; exact H].
Qed.

Lemma grows_array fuel cnt halt name c ctx load1 : grows load1 -> forall vs, grows (w_array_load fuel (array_halt cnt halt name ctx) (halt_scribbles W halt c ctx) load1 vs).
Proof.
  intros H1. induction fuel as [|fuel IH]; intros vs d s s' d' r H; [injection H as _ <- _; apply Rrefl|]. cbn [w_array_load] in H. cbv zeta in H.
  assert (Hh : R d (halt_scribbles W halt c ctx vs d s)) by (unfold halt_scribbles; destruct halt; [apply (proj1 (proj2 HW))|apply Rrefl]).
  eapply Rtrans; [exact Hh|]. revert H. generalize (halt_scribbles W halt c ctx vs d s). intros d1 H.
  destruct (array_halt cnt halt name ctx d s vs) as [[[|] vs']|e|]; try (injection H as _ <- _; apply Rrefl).
  eapply grows_bind; [exact H1|intros v; apply IH|exact H].
Qed.

Lemma grows_load : forall n f ctx, grows (w_do_load E W n f ctx).
Proof.
  induction n as [|n IH]; intros [c k] ctx; destruct k; cbn [w_do_load kind]; try apply grows_read; try apply grows_lift.
  - apply grows_array. apply grows_from. apply IH.
  - intros d s s' d' r H. cbv zeta in H. cbn [conf] in H. eapply Rtrans; [exact (proj2 (proj2 HW) c ctx d s)|]. revert H. generalize (sb_decide W c ctx d s). intros d1 H.
    destruct (load_decider s ctx d) as [i|e|]; try (injection H as _ <- _; apply Rrefl). destruct (nth_error choices i) as [[g|cid]|]; [eapply IH; exact H|eapply grows_read; exact H|injection H as _ <- _; apply Rrefl].
Qed.

Lemma grows_fields n ctx : forall fs, grows (w_load_fields E W (w_do_load E W n) n fs ctx).
Proof.
  induction fs as [|[nm f] fs IH]; cbn [w_load_fields]; [apply grows_ret|]. apply grows_bind; [apply grows_from; apply grows_load|]. intros v. apply grows_bind; [|intros _; apply IH].
  intros d s s' d' r H. injection H as _ <- _. destruct (dmem d nm) eqn:Hm; [apply Rrefl|apply Radd; exact Hm].
Qed.
End Grows.

(** ** Who wins *)
Lemma extends_refl d : extends d d.
Proof. intros k v H. exact H. Qed.

Lemma extends_trans d1 d2 d3 : extends d1 d2 -> extends d2 d3 -> extends d1 d3.
Proof. intros H1 H2 k v H. apply H2, H1, H. Qed.

Lemma dget_app_some d d' k v : dget d k = Some v -> dget (d ++ d') k = Some v.
Proof. induction d as [|[k' v'] d IH]; cbn; [discriminate|]. destruct (String.eqb k' k) eqn:Hk; auto. Qed.

Lemma extends_add d k v : dmem d k = false -> extends d (d ++ [(k, v)]).
Proof. intros _ k' v' H. apply dget_app_some. exact H. Qed.

Lemma adds_fields E W n ctx fs d s s' d' r : adds_only W -> w_load_fields E W (w_do_load E W n) n fs ctx d s = (s', d', r) -> extends d d'.
Proof. intros HW. exact (grows_fields extends extends_refl extends_trans extends_add E W HW n ctx fs d s s' d' r). Qed.

Lemma load_fields_app E W dl n ctx : forall fs gs d s,
  w_load_fields E W dl n (fs ++ gs) ctx d s = wbind (w_load_fields E W dl n fs ctx) (fun _ => w_load_fields E W dl n gs ctx) d s.
Proof.
  induction fs as [|[nm f] fs IH]; intros gs d s; [reflexivity|]. cbn [w_load_fields app]. unfold wbind.
  destruct (w_field_from_stream_with E W dl n f ctx d s) as [[s1 d1] [v|e|]]; try reflexivity. apply IH.
Qed.

(** The instance, from the dictionary at the end. *)
Lemma struct_ok E W n cid ctx kw s s' vals : w_struct_from_stream E W n cid ctx kw s = (s', Ok vals) ->
  exists d, w_load_fields E W (w_do_load E W n) n (comps E cid) ctx kw s = (s', d, Ok tt)
    /\ (forall k v, In (k, v) d -> assoc (comps E cid) k <> None) /\ vals = delete_discard (comps E cid) d.
Proof.
  unfold w_struct_from_stream, w_struct_from_stream_with. destruct (w_load_fields E W (w_do_load E W n) n (comps E cid) ctx kw s) as [[s1 d] [[]|e|]]; try discriminate.
  unfold lbind, llift, struct_init.
  destruct (filter (fun k => match assoc (comps E cid) k with Some _ => false | None => true end) (dkeys d)) as [|x l] eqn:Hf; [|discriminate].
  destruct (validate_contents E n cid d) as [[]|e|]; try discriminate. intros H. injection H as <- <-. exists d. split; [reflexivity|]. split; [|reflexivity].
  intros k v Hin Hk. assert (In k (dkeys d)) as Hi by (apply in_map_iff; exists (k, v); auto).
  assert (In k []) as []. rewrite <- Hf. apply filter_In. split; [exact Hi|]. rewrite Hk. reflexivity.
Qed.

Lemma ddel_other d k k' : k <> k' -> dget (ddel d k) k' = dget d k'.
Proof.
  intros Hn. induction d as [|[x v] d IH]; [reflexivity|]. cbn. destruct (String.eqb x k) eqn:Hx.
  - apply String.eqb_eq in Hx. subst x. destruct (String.eqb k k') eqn:Hk; [apply String.eqb_eq in Hk; congruence|reflexivity].
  - cbn. destruct (String.eqb x k'); [reflexivity|exact IH].
Qed.

Lemma kept_discard k : forall fs d, (forall nm f, In (nm, f) fs -> c_discard (conf f) = true -> cname f <> k) -> dget (delete_discard fs d) k = dget d k.
Proof.
  induction fs as [|[nm f] fs IH]; intros d H; [reflexivity|]. cbn [delete_discard]. rewrite IH; [|intros; eapply H; [right; eauto|auto]].
  destruct (c_discard (conf f)) eqn:Hd; [|reflexivity]. apply ddel_other. apply (H nm f); [left; reflexivity|exact Hd].
Qed.

Lemma dget_app_none d d' k : dget d k = None -> dget (d ++ d') k = dget d' k.
Proof. induction d as [|[x v] d IH]; [reflexivity|]. cbn. destruct (String.eqb x k); [discriminate|exact IH]. Qed.

Lemma first_wins E W n cid ctx kw s before name f after s1 d1 s2 d2 v s' vals : adds_only W ->
  comps E cid = before ++ (name, f) :: after ->
  w_load_fields E W (w_do_load E W n) n before ctx kw s = (s1, d1, Ok tt) ->
  w_field_from_stream E W n f ctx d1 s1 = (s2, d2, Ok v) ->
  w_struct_from_stream E W n cid ctx kw s = (s', Ok vals) ->
  (forall nm g, In (nm, g) (comps E cid) -> c_discard (conf g) = true -> cname g <> name) ->
  dget vals name = Some (match dget d2 name with Some w => w | None => v end).
Proof.
  intros HW Hc Hb Hf Hs Hd. apply struct_ok in Hs. destruct Hs as (d & Hl & _ & ->). rewrite kept_discard by exact Hd.
  rewrite Hc, load_fields_app in Hl. unfold wbind at 1 in Hl. rewrite Hb in Hl. cbn [w_load_fields] in Hl. unfold wbind at 1 in Hl.
  unfold w_field_from_stream in Hf. rewrite Hf in Hl. unfold wbind in Hl. apply adds_fields in Hl; [|exact HW]. apply Hl.
  unfold dmem. destruct (dget d2 name) as [w|] eqn:Hg; [exact Hg|]. rewrite dget_app_none by exact Hg. cbn. rewrite String.eqb_refl. reflexivity.
Qed.

Lemma dget_in d k v : dget d k = Some v -> In (k, v) d.
Proof. induction d as [|[x w] d IH]; cbn; [discriminate|]. destruct (String.eqb x k) eqn:Hx; [apply String.eqb_eq in Hx; intros H; injection H as ->; left; congruence|right; auto]. Qed.

Lemma stray_fails E W n cid ctx kw s before after s1 d1 k w s' vals : adds_only W ->
  comps E cid = before ++ after ->
  w_load_fields E W (w_do_load E W n) n before ctx kw s = (s1, d1, Ok tt) ->
  dget d1 k = Some w -> assoc (comps E cid) k = None ->
  w_struct_from_stream E W n cid ctx kw s <> (s', Ok vals).
Proof.
  intros HW Hc Hb Hk Ha Hs. apply struct_ok in Hs. destruct Hs as (d & Hl & Hin & _). rewrite Hc, load_fields_app in Hl. unfold wbind in Hl. rewrite Hb in Hl.
  apply adds_fields in Hl; [|exact HW]. apply Hl in Hk. apply (Hin k w); [apply dget_in; exact Hk|exact Ha].
Qed.

Lemma in_ddel (kv : string * value) k : forall d, In kv (ddel d k) -> In kv d.
Proof. induction d as [|[x w] d IH]; [auto|]. cbn. destruct (String.eqb x k); [auto|]. intros [H|H]; auto. Qed.

Lemma in_discard (kv : string * value) : forall fs d, In kv (delete_discard fs d) -> In kv d.
Proof. induction fs as [|[nm f] fs IH]; intros d H; [exact H|]. cbn [delete_discard] in H. apply IH in H. destruct (c_discard (conf f)); [eapply in_ddel; exact H|exact H]. Qed.

Lemma scribbled_keys E W n cid ctx kw s s' vals k v : w_struct_from_stream E W n cid ctx kw s = (s', Ok vals) -> dget vals k = Some v -> assoc (comps E cid) k <> None.
Proof. intros Hs Hk. apply struct_ok in Hs. destruct Hs as (d & _ & Hin & ->). apply dget_in, in_discard in Hk. exact (Hin k v Hk). Qed.

(** ** What fields see *)
Lemma nested_apart E W n c cid ctx d d' s : exists s' r, w_do_load E W n (Field c (KNested cid)) ctx d s = (s', d, r) /\ w_do_load E W n (Field c (KNested cid)) ctx d' s = (s', d', r).
Proof.
  destruct n as [|n]; cbn [w_do_load kind]; [exists s, OOF; split; reflexivity|]. unfold wread.
  destruct ((ldo vals <- w_struct_from_stream_with E W (w_do_load E W n) n cid ctx []; lret (VStruct cid vals)) s) as [s' r]. exists s', r. split; reflexivity.
Qed.

Lemma absent_scribbled E W n f ctx d s : run_dict d (c_present (conf f) ctx (Some s)) = Ok false ->
  w_field_from_stream E W n f ctx d s = (s, sb_present W (conf f) ctx d s, Ok (c_npv (conf f))).
Proof. intros H. unfold w_field_from_stream, w_field_from_stream_with, w_from_stream_with. cbv zeta. rewrite H. reflexivity. Qed.

Lemma present_scribbled E W n c k ctx d s s' r : lone_kind k -> run_dict d (c_present c ctx (Some s)) = Ok true ->
  field_from_stream E n (Field (there c) k) ctx (sb_present W c ctx d s) s = (s', r) ->
  w_field_from_stream E W n (Field c k) ctx d s = (s', sb_present W c ctx d s, r).
Proof.
  intros Hk H Hf. set (W' := Scribbles (fun _ _ d _ => d) (fun _ _ _ d _ => d) (fun _ _ d _ => d)).
  assert (HW : idle W') by (split; [|split]; reflexivity).
  pose proof (idle_field E W' HW n (Field (there c) k) ctx (sb_present W c ctx d s) s) as Hi. rewrite Hf in Hi. cbn [fst snd] in Hi. rewrite <- Hi. clear Hi Hf HW.
  unfold w_field_from_stream, w_field_from_stream_with, w_from_stream_with. cbv zeta. cbn [conf]. rewrite H. cbn [there c_present W' sb_present]. unfold run_dict. cbn [run_q].
  replace (null_repr (do_dump E n) (Field (there c) k)) with (null_repr (do_dump E n) (Field c k)) by (destruct n, k; try (exfalso; exact Hk); reflexivity).
  replace (w_do_load E W' n (Field (there c) k) ctx) with (w_do_load E W n (Field c k) ctx) by (destruct n, k; try (exfalso; exact Hk); reflexivity).
  reflexivity.
Qed.

Lemma decided_scribbled E W n c choices ld dmp ctx d s i g : ld s ctx d = Ok i -> nth_error choices i = Some (CField g) ->
  w_do_load E W (S n) (Field c (KUnion choices ld dmp)) ctx d s = w_do_load E W n g ctx (sb_decide W c ctx d s) s.
Proof. intros Hi Hg. cbn [w_do_load kind conf]. cbv zeta. rewrite Hi, Hg. reflexivity. Qed.

Lemma recounting_load E W n c comp name ctx d s s' d' l : w_do_load E W (S n) (Field c (KArray comp (CntRef name) None)) ctx d s = (s', d', Ok (VList l)) ->
  recounting E W n comp name ctx [] d s l d' s'.
Proof.
  cbn [w_do_load kind conf]. generalize (@nil value). generalize n at 1. intros fuel. revert d s. induction fuel as [|fuel IH]; intros d s vs; [discriminate|].
  cbn [w_array_load array_halt halt_scribbles should_halt get_final_element_count]. cbv zeta. unfold bind.
  destruct (dget d name) as [w|] eqn:Hn; [|discriminate]. destruct w as [| | | |z|x|b|t|u|us aw|l0|g|d0|cid d0]; try discriminate. cbn [count_at_most].
  destruct (z <=? zlen vs) eqn:Hz.
  - intros H. injection H as <- <- <-. apply (recounting_end E W n comp name ctx vs d s z); [exact Hn|]. unfold zlen in Hz. lia.
  - unfold wbind. destruct (w_field_from_stream_with E W (w_do_load E W n) n comp ctx d s) as [[s1 d1] [v|e|]] eqn:Hl; try discriminate.
    intros H. apply IH in H. apply (recounting_more E W n comp name ctx vs d s z d1 s1 v); auto; [unfold zlen in Hz; lia|]. destruct v; exact H.
Qed.
