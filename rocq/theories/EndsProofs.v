(** Dumping ends if nothing refers to itself (C73). *)
From Verif Require Import Tac CodecsProofs FieldProofs FieldMore StructProofs ToDictProofs LoadProofs.
From Verif Require Export EndsBase.

(** ** Values *)
Section ValueInduction.
Variable P : value -> Prop.
Hypothesis P_scalar : forall v, match v with VList _ | VGen _ | VDict _ | VStruct _ _ => False | _ => True end -> P v.
Hypothesis P_list : forall l, Forall P l -> P (VList l).
Hypothesis P_gen : forall l, Forall P l -> P (VGen l).
Hypothesis P_dict : forall d, Forall (fun kv => P (snd kv)) d -> P (VDict d).
Hypothesis P_struct : forall cid d, Forall (fun kv => P (snd kv)) d -> P (VStruct cid d).

Fixpoint value_induct (v : value) : P v :=
  let each := fix each (l : list value) : Forall P l :=
    match l with [] => Forall_nil _ | x :: l' => Forall_cons x (value_induct x) (each l') end in
  let eachd := fix eachd (l : list (string * value)) : Forall (fun kv => P (snd kv)) l :=
    match l with [] => Forall_nil _ | x :: l' => Forall_cons x (value_induct (snd x)) (eachd l') end in
  match v with
  | VList l => P_list l (each l)
  | VGen l => P_gen l (each l)
  | VDict d => P_dict d (eachd d)
  | VStruct cid d => P_struct cid d (eachd d)
  | v => P_scalar v I
  end.
End ValueInduction.

Lemma tame_inv P v : tame P v ->
  match v with
  | VList l => Forall (tame P) l
  | VGen l => Forall (tame (fun _ => False)) l
  | VDict d => Forall (fun kv => tame P (snd kv)) d
  | VStruct cid d => P cid /\ Forall (fun kv => tame P (snd kv)) d
  | _ => True
  end.
Proof. intros H. inversion H; subst; auto. destruct v; auto; contradiction. Qed.

Lemma tame_mono v : forall P Q : nat -> Prop, (forall c, P c -> Q c) -> tame P v -> tame Q v.
Proof.
  induction v as [v Hv|l IH|l IH|d IH|cid d IH] using value_induct; intros P Q HPQ Ht; apply tame_inv in Ht.
  - apply tame_scalar. auto.
  - apply tame_list. rewrite Forall_forall in *. intros x Hx. eapply IH; eauto.
  - apply tame_gen. auto.
  - apply tame_dict. rewrite Forall_forall in *. intros x Hx. eapply IH; eauto.
  - destruct Ht as [Hc Ht]. apply tame_struct; auto. rewrite Forall_forall in *. intros x Hx. eapply IH; eauto.
Qed.

Lemma forall_bound {A} (R : nat -> A -> Prop) l : (forall r r' x, (r <= r')%nat -> R r x -> R r' x) ->
  Forall (fun x => exists r, R r x) l -> exists r, Forall (R r) l.
Proof.
  intros Hm H. induction H as [|x l [r Hr] H [r' IH]]; [exists O; constructor|].
  exists (Nat.max r r'). constructor; [apply (Hm r); auto; lia|].
  apply (Forall_impl _ (fun y => Hm r' _ y (Nat.le_max_r _ _)) IH).
Qed.

Lemma tame_bound (rank : nat -> nat) v : forall P, tame P v -> exists r, tame (fun c => (rank c < r)%nat) v.
Proof.
  assert (Hm : forall r r' x, (r <= r')%nat -> tame (fun c => (rank c < r)%nat) x -> tame (fun c => (rank c < r')%nat) x).
  { intros r r' x Hr. apply tame_mono. intros c Hc. lia. }
  induction v as [v Hv|l IH|l IH|d IH|cid d IH] using value_induct; intros P Ht; apply tame_inv in Ht.
  - exists O. apply tame_scalar. auto.
  - destruct (forall_bound (fun r => tame (fun c => (rank c < r)%nat)) l Hm) as [r Hr].
    { rewrite Forall_forall in *. intros x Hx. eapply IH; eauto. }
    exists r. apply tame_list. auto.
  - exists O. apply tame_gen. auto.
  - destruct (forall_bound (fun r kv => tame (fun c => (rank c < r)%nat) (@snd string value kv)) d) as [r Hr].
    { intros r r' x. apply Hm. }
    { rewrite Forall_forall in *. intros x Hx. eapply IH; eauto. }
    exists r. apply tame_dict. auto.
  - destruct Ht as [Hc Ht].
    destruct (forall_bound (fun r kv => tame (fun c => (rank c < r)%nat) (@snd string value kv)) d) as [r Hr].
    { intros r r' x. apply Hm. }
    { rewrite Forall_forall in *. intros x Hx. eapply IH; eauto. }
    exists (Nat.max r (S (rank cid))). apply tame_struct; [lia|].
    rewrite Forall_forall in *. intros x Hx. apply (Hm r); [lia|auto].
Qed.

(** ** Dictionaries *)
Lemma forall_dset (Q : value -> Prop) d k v : Forall (fun kv => Q (snd kv)) d -> Q v ->
  Forall (fun kv => Q (snd kv)) (dset d k v).
Proof.
  intros H Hv. induction H as [|[k' w] d Hw H IH]; cbn [dset]; [constructor; auto|].
  destruct (String.eqb k' k); constructor; auto.
Qed.

Lemma forall_ddel (Q : value -> Prop) d k : Forall (fun kv => Q (snd kv)) d ->
  Forall (fun kv => Q (snd kv)) (ddel d k).
Proof.
  intros H. induction H as [|[k' w] d Hw H IH]; cbn [ddel]; [constructor|].
  destruct (String.eqb k' k); auto.
Qed.

Lemma forall_dupdate (Q : value -> Prop) upd : forall d, Forall (fun kv => Q (snd kv)) d ->
  Forall (fun kv => Q (snd kv)) upd -> Forall (fun kv => Q (snd kv)) (dupdate d upd).
Proof.
  unfold dupdate. induction upd as [|[k v] upd IH]; intros d Hd Hu; cbn [fold_left]; auto.
  inversion Hu; subst. apply IH; auto. apply forall_dset; auto.
Qed.

Lemma forall_dget (Q : value -> Prop) d k v : Forall (fun kv => Q (snd kv)) d -> dget d k = Some v -> Q v.
Proof.
  intros H. induction H as [|[k' w] d Hw H IH]; cbn [dget]; [discriminate|].
  destruct (String.eqb k' k); auto. intros [= <-]. auto.
Qed.

Lemma missing_mem vals name : dget vals name = None -> struct_mem vals name = false.
Proof.
  intros H. destruct (struct_mem vals name) eqn:Hm; auto. apply struct_mem_in in Hm.
  unfold struct_keys in Hm. apply in_map_iff in Hm as ([k v] & Hk & Hin). apply filter_In in Hin as [Hin _].
  cbn [fst] in Hk. subst k. apply dget_none in H. exfalso. apply H. apply in_map_iff. exists (name, v). auto.
Qed.

(** ** Callables *)
Lemma asks_any {A} (q : query A) : asks (fun _ => True) q.
Proof. induction q; constructor; auto. Qed.

Lemma asks_qbind {A B} S (q : query A) (k : A -> query B) : asks S q -> (forall a, asks S (k a)) -> asks S (qbind q k).
Proof. intros H Hk. induction H; cbn [qbind]; auto; constructor; auto. Qed.

Lemma run_q_ends {A} S (q : query A) mem (get : nat -> string -> res value) keys : asks S q ->
  (forall x, S x -> ends always (fun n => get n x)) -> ends always (fun n => run_q mem (get n) keys q).
Proof.
  intros H Hg. induction H as [a|e|nm k H IH|nm k Hs H IH|k H IH]; cbn [run_q]; auto.
  - apply ends_const; [discriminate|]. intros; exact I.
  - apply ends_const; [discriminate|]. intros; exact I.
  - destruct (Hg nm Hs) as (n & r & H1 & H2). destruct r as [v|e|]; [| |contradiction].
    + destruct (IH (inl v)) as (n' & r & H3 & H4). exists (Nat.max n n'), r. split; auto.
      intros i Hi. rewrite H1 by lia. apply H3. lia.
    + destruct (IH (inr e)) as (n' & r & H3 & H4). exists (Nat.max n n'), r. split; auto.
      intros i Hi. rewrite H1 by lia. apply H3. lia.
Qed.

Lemma run_q_returns P q : returns P q -> forall (Q : value -> Prop) mem get keys v, (forall a, P a -> Q a) ->
  (forall x a, get x = Ok a -> Q a) -> run_q mem get keys q = Ok v -> Q v.
Proof.
  intros H. induction H as [P v Hv|P e|P nm k H IH|P nm k H1 IH1 H2 IH2|P k H IH]; intros Q mem get keys w HP Hg Hr; cbn [run_q] in Hr.
  - injection Hr as <-. auto.
  - discriminate.
  - eapply IH; eauto.
  - destruct (get nm) as [v|e|] eqn:Hn; try discriminate.
    + apply (IH1 v Q mem get keys w); auto. intros a [Ha| ->]; auto. eapply Hg; eauto.
    + apply (IH2 e Q mem get keys w); auto.
  - eapply IH; eauto.
Qed.

(** The value a field contributes. *)
Definition contributed (P : value -> Prop) (c : fconf) : Prop :=
  P (c_default c) /\ (forall v, c_factory c = Some (inl v) -> P v) /\ forall q, c_compute c = Some q -> returns P q.

Lemma contribution (P Q : value -> Prop) c ctx mem get keys v : contributed P c -> (forall a, P a -> Q a) ->
  Q VUndefined -> Q VNotPresent -> (forall x a, get x = Ok a -> Q a) ->
  run_q mem get keys (compute_value_for_dump c ctx) = Ok v -> Q v.
Proof.
  intros (Hd & Hf & Hc) HPQ HU HN Hg. unfold compute_value_for_dump. rewrite run_qbind.
  destruct (run_q mem get keys (stored_or_fallback c)) as [w|e|] eqn:Hs; try discriminate.
  assert (Hw : Q w).
  { assert (Hb : run_q mem get keys (fallback_value c) = Ok w -> Q w).
    { unfold fallback_value, default_query. destruct (is_undefined (c_default c)); cbn [negb].
      - destruct (c_compute c) as [q|]; [|intros [= <-]; auto].
        intros Hq. eapply (run_q_returns P q); eauto.
      - destruct (c_factory c) as [[u|e]|]; cbn [run_q]; intros [= <-]; auto. }
    unfold stored_or_fallback in Hs. destruct (c_name c) as [nm|]; auto. cbn [run_q] in Hs.
    destruct (mem nm); auto. cbn [run_q] in Hs. destruct (get nm) as [u|e|] eqn:Hu; try discriminate.
    cbn [run_q] in Hs. injection Hs as <-. eauto. }
  destruct (is_not_present w); cbn [run_q]; [intros [= <-]; auto|]. rewrite run_qbind.
  destruct (run_q mem get keys (c_present c ctx None)) as [[|]|e|]; cbn [negb run_q]; try discriminate.
  - destruct (is_undefined w); cbn [run_q]; intros [= <-]; auto.
  - intros [= <-]. auto.
Qed.

Section Ends.
Variable E : env.
Variable rank : nat -> nat.
Variable depth : nat -> string -> nat.
Hypothesis NC : no_circles E rank depth.

Definition lower (cid c : nat) : Prop := (rank c < rank cid)%nat.

Lemma comp_facts cid name f : In (name, f) (k_comps (cls E cid)) ->
  c_name (conf f) = Some name /\ nests (lower cid) f
  /\ (forall ctx so, asks (fun x => (depth cid x < depth cid name)%nat) (c_present (conf f) ctx so))
  /\ (forall q, c_compute (conf f) = Some q -> asks (fun x => (depth cid x < depth cid name)%nat) q)
  /\ contributed (tame (lower cid)) (conf f).
Proof.
  intros Hin. destruct (NC cid) as [(W1 & W2 & W3) Hf]. destruct (Hf name f Hin) as (H1 & H2 & H3).
  rewrite Forall_forall in W2. specialize (W2 _ Hin). cbn in W2.
  assert (Hh : harmless (lower cid) (conf f)) by (inversion H1; auto).
  split; [exact W2|]. split; [exact H1|]. split; [exact H2|]. split; [intros q Hq; apply (H3 q Hq)|].
  destruct Hh as (_ & Hd & _ & Hf'). split; [exact Hd|]. split; [exact Hf'|]. intros q Hq. apply (H3 q Hq).
Qed.

(** A value of an instance: stored, or made by the class. *)
Definition own (cid : nat) (vals : dict) (v : value) : Prop :=
  (exists k, In (k, v) vals) \/ tame (lower cid) v.

Lemma own_scalar cid vals v : match v with VList _ | VGen _ | VDict _ | VStruct _ _ => False | _ => True end -> own cid vals v.
Proof. intros H. right. apply tame_scalar. auto. Qed.

Lemma struct_get_own n : forall cid vals name v, struct_get E n cid vals name = Ok v -> own cid vals v.
Proof.
  induction n as [|n IH]; intros cid vals name v; cbn [struct_get];
    (destruct (assoc (comps E cid) name) as [f|] eqn:Ha; [|discriminate]);
    (destruct (oget vals (name_of f)) as [w|] eqn:Ho;
     [intros [= <-]; left; unfold oget in Ho; destruct (name_of f) as [nm|]; [|discriminate];
      exists nm; clear - Ho; induction vals as [|[k u] vals IHv]; cbn [dget] in Ho; [discriminate|];
      destruct (String.eqb_spec k nm) as [->|]; [injection Ho as ->; left; auto|right; auto]|]); [discriminate|].
  apply assoc_in in Ha. destruct (comp_facts cid name f Ha) as (_ & _ & _ & _ & Hc).
  apply (contribution (tame (lower cid))); auto; try (apply own_scalar; exact I).
  - intros a Hx. right. auto.
  - intros x a. apply IH.
Qed.

Lemma struct_get_ends cid vals : forall k name, (depth cid name < k)%nat ->
  ends always (fun n => struct_get E n cid vals name).
Proof.
  induction k as [|k IH]; intros name Hk; [lia|].
  destruct (assoc (comps E cid) name) as [f|] eqn:Ha.
  2:{ eapply ends_ext; [|apply (ends_const always (Raise (EKeyErr name))); [discriminate|intros; exact I]].
      intros [|n]; cbn [struct_get]; rewrite Ha; auto. }
  destruct (oget vals (name_of f)) as [w|] eqn:Ho.
  { eapply ends_ext; [|apply (ends_const always (Ok w)); [discriminate|intros; exact I]].
    intros [|n]; cbn [struct_get]; rewrite Ha, Ho; auto. }
  pose proof (comp_facts cid name f (assoc_in _ _ _ Ha)) as (Hn & _ & Hp & Hq & _).
  eapply ends_ext with (m := fun n => match n with O => OOF | S n' =>
    run_q (struct_mem vals) (struct_get E n' cid vals) (struct_keys vals) (compute_value_for_dump (conf f) VNone) end).
  { intros [|n]; cbn [struct_get]; rewrite Ha, Ho; auto. }
  apply ends_shift.
  assert (Hmem : struct_mem vals name = false).
  { apply missing_mem. unfold name_of in Ho. rewrite Hn in Ho. auto. }
  set (rest := fun v => if is_not_present v then QRet VNotPresent
    else qbind (c_present (conf f) VNone None) (fun p => if negb p then QRet VNotPresent
      else if is_undefined v then QRaise (EMissingRequired (Some name)) else QRet v)).
  eapply ends_ext with (m := fun n => run_q (struct_mem vals) (struct_get E n cid vals) (struct_keys vals)
    (qbind (fallback_value (conf f)) rest)).
  { intros n. unfold compute_value_for_dump, stored_or_fallback. rewrite Hn, !run_qbind. cbn [run_q]. rewrite Hmem. reflexivity. }
  apply (run_q_ends (fun x => (depth cid x < depth cid name)%nat)).
  - apply asks_qbind.
    + unfold fallback_value, default_query. destruct (negb _).
      * destruct (c_factory (conf f)) as [[u|e]|]; constructor.
      * destruct (c_compute (conf f)) as [q|]; [apply Hq; auto|constructor].
    + intros a. unfold rest. destruct (is_not_present a); [constructor|]. apply asks_qbind; [apply Hp|].
      intros [|]; cbn [negb]; [|constructor]. destruct (is_undefined a); constructor.
  - intros x Hx. apply IH. lia.
Qed.

Lemma get_ends cid vals name : ends (own cid vals) (fun n => struct_get E n cid vals name).
Proof.
  eapply ends_post; [apply (struct_get_ends cid vals (S (depth cid name))); lia|].
  intros n a. apply struct_get_own.
Qed.

Lemma run_struct_ends {A} cid vals (q : query A) : ends always (fun n => run_struct E n cid vals q).
Proof.
  unfold run_struct. apply (run_q_ends (fun _ => True)); [apply asks_any|].
  intros x _. eapply ends_weak; [|apply get_ends]. intros; exact I.
Qed.

Lemma contribution_ends cid vals name f : In (name, f) (k_comps (cls E cid)) ->
  ends (own cid vals) (fun n => run_struct E n cid vals (compute_value_for_dump (conf f) VNone)).
Proof.
  intros Hin. eapply ends_post; [apply run_struct_ends|]. intros n a.
  destruct (comp_facts cid name f Hin) as (_ & _ & _ & _ & Hc).
  apply (contribution (tame (lower cid))); auto; try (apply own_scalar; exact I).
  - intros x Hx. right. auto.
  - intros x b. apply struct_get_own.
Qed.

(** ** Validation *)
Lemma nests_harmless P f : nests P f -> harmless P (conf f).
Proof. intros H; inversion H; auto. Qed.

Lemma validators_end c P v : harmless P c -> run_validators (c_validators c) v <> OOF.
Proof.
  intros [H _]. assert (Hl : forall l, (forall f, In f l -> f v <> OOF) -> run_validators l v <> OOF).
  { induction l as [|f l IH]; intros Hf; cbn [run_validators]; [discriminate|].
    pose proof (Hf f (or_introl eq_refl)). destruct (f v); cbn [bind]; try congruence.
    apply IH. intros; apply Hf; right; auto. }
  apply Hl. auto.
Qed.

Lemma validate_ends cid vals : ends always (fun n => validate_contents E n cid vals).
Proof.
  unfold validate_contents. apply (ends_bind always).
  - generalize (k_fvals (cls E cid)). induction l as [|[nm vs] l IH]; cbn [validate_fields].
    + apply ends_const; [discriminate|]. intros; exact I.
    + destruct (assoc (comps E cid) nm) as [f|] eqn:Ha; [|apply ends_const; [discriminate|intros; exact I]].
      apply assoc_in in Ha. pose proof (comp_facts cid nm f Ha) as (_ & Hn & _).
      apply (ends_bind (own cid vals)); [apply get_ends|]. intros v _.
      apply (ends_bind always).
      { apply ends_const; [apply (validators_end _ (lower cid)); apply nests_harmless; auto|intros; exact I]. }
      intros _ _. apply (ends_bind always); [|intros; auto].
      induction vs as [|q vs IHv]; cbn [run_method_validators]; [apply ends_const; [discriminate|intros; exact I]|].
      apply (ends_bind always); [apply run_struct_ends|auto].
  - intros _ _. generalize (k_svals (cls E cid)). induction l as [|q l IH]; cbn [run_struct_validators];
      [apply ends_const; [discriminate|intros; exact I]|].
    apply (ends_bind always); [apply run_struct_ends|auto].
Qed.

(** ** to_dict *)
Definition owns (cid : nat) (vals d : dict) : Prop := Forall (fun kv => own cid vals (snd kv)) d.

Lemma possible_ends cid vals fs : incl fs (k_comps (cls E cid)) -> forall dct, owns cid vals dct ->
  ends (owns cid vals) (fun n => possible_values E n cid vals fs dct).
Proof.
  induction fs as [|[nm f] fs IH]; intros Hi dct Hd; cbn [possible_values].
  - apply ends_const; [discriminate|]. intros a [= <-]. auto.
  - destruct (contribution_ends cid vals nm f (Hi _ (or_introl eq_refl))) as (n & r & H1 & H2).
    assert (Hi' : incl fs (k_comps (cls E cid))) by (intros x Hx; apply Hi; right; auto).
    assert (Hgo : forall d', owns cid vals d' -> ends (owns cid vals) (fun n => possible_values E n cid vals fs d')) by (intros; apply IH; auto).
    destruct r as [v|e|]; [| |contradiction].
    + destruct (Hgo (dset dct (cname f) v)) as (n' & r & H3 & H4); [apply forall_dset; auto|].
      exists (Nat.max n n'), r. split; auto. intros i Hx. rewrite H1 by lia. apply H3. lia.
    + destruct (Hgo dct Hd) as (n' & r & H3 & H4).
      exists (Nat.max n n'), (if is_binobj_Error e then r else Raise e). split.
      * intros i Hx. rewrite H1 by lia. destruct (is_binobj_Error e); auto. apply H3. lia.
      * destruct (is_binobj_Error e); auto.
Qed.

Lemma whatever_ends cid vals : ends (owns cid vals) (fun n => to_dict_whatever_possible E n cid vals).
Proof.
  unfold to_dict_whatever_possible. apply (ends_bind (owns cid vals)).
  { apply possible_ends; [apply incl_refl|constructor]. }
  intros dct Hd. apply (ends_bind (owns cid vals)).
  - apply ends_mapM. intros k Hk. destruct (dget dct k) as [v|] eqn:Hg.
    + apply ends_const; [discriminate|]. intros a [= <-]. apply (forall_dget _ _ _ _ Hd Hg).
    + apply (ends_bind (own cid vals)); [apply get_ends|]. intros v Hv.
      apply ends_const; [discriminate|]. intros a [= <-]. auto.
  - intros first Hf. apply ends_const; [discriminate|]. intros a [= <-].
    apply Forall_app. split; auto. unfold owns in *. rewrite Forall_forall in *.
    intros x Hx. apply filter_In in Hx as [Hx _]. auto.
Qed.

Lemma run_dict_contribution cid (Q : value -> Prop) d name f ctx v : In (name, f) (k_comps (cls E cid)) ->
  Forall (fun kv => Q (snd kv)) d -> (forall a, tame (lower cid) a -> Q a) ->
  run_dict d (compute_value_for_dump (conf f) ctx) = Ok v -> Q v.
Proof.
  intros Hin Hd HQ. destruct (comp_facts cid name f Hin) as (_ & _ & _ & _ & Hc).
  apply (contribution (tame (lower cid))); auto; try (apply HQ; apply tame_scalar; exact I).
  intros x a. unfold dget_res. destruct (dget d x) as [w|] eqn:Hg; [|discriminate]. intros [= <-].
  apply (forall_dget _ _ _ _ Hd Hg).
Qed.

Lemma missing_ends cid vals d : owns cid vals d ->
  ends (owns cid vals) (fun _ => missing_values (comps E cid) d).
Proof.
  intros Hd. unfold missing_values. apply (ends_mapM _ (fun _ => _)). intros [nm f] Hf.
  apply filter_In in Hf as [Hf _]. cbn [snd].
  pose proof (run_dict_finishes d (compute_value_for_dump (conf f) VNone)) as Hn.
  destruct (run_dict d (compute_value_for_dump (conf f) VNone)) as [v|e|] eqn:Hr; [| |congruence].
  - apply ends_const; [discriminate|]. intros a [= <-]. cbn [snd].
    apply (run_dict_contribution cid (own cid vals) d nm f VNone v); auto. intros x Hx. right. auto.
  - apply ends_const; discriminate.
Qed.

Lemma discard_ends cid vals fs : forall d, owns cid vals d -> ends (owns cid vals) (fun _ => drop_discard fs d).
Proof.
  induction fs as [|[nm f] fs IH]; intros d Hd; cbn [drop_discard].
  - apply ends_const; [discriminate|]. intros a [= <-]. auto.
  - destruct (c_discard (conf f)); auto. destruct (dmem d (cname f)).
    + apply IH. apply forall_ddel. auto.
    + apply ends_const; discriminate.
Qed.

Lemma before_dicts_ends {B} (R : B -> Prop) cid vals keep (k : nat -> dict -> res B) :
  (forall d, owns cid vals d -> ends R (fun n => k n d)) ->
  ends R (fun n =>
    do dct <- to_dict_whatever_possible E n cid vals;
    do upd <- missing_values (comps E cid) dct;
    let dct := dupdate dct upd in
    do dct <- (if (keep : bool) then Ok dct else drop_discard (comps E cid) dct);
    k n dct).
Proof.
  intros Hk. apply (ends_bind (owns cid vals)); [apply whatever_ends|]. intros d Hd.
  apply (ends_bind (owns cid vals)); [apply missing_ends; auto|]. intros upd Hu. cbv zeta.
  assert (Hx : owns cid vals (dupdate d upd)) by (apply forall_dupdate; auto).
  apply (ends_bind (owns cid vals)); auto.
  destruct keep; [|apply discard_ends; auto].
  apply ends_const; [discriminate|]. intros a [= <-]. auto.
Qed.

Definition plain (v : value) : Prop := tame (fun _ => False) v.
Definition plains (d : dict) : Prop := Forall (fun kv => plain (snd kv)) d.

Lemma pairs_end d : Forall (fun kv => ends plain (fun n => recursive_to_dicts E n (snd kv))) d ->
  ends plains (fun n => mapM (fun kv => do v <- recursive_to_dicts E n (snd kv); Ok (fst kv, v)) d).
Proof.
  intros H. apply (ends_mapM (fun kv => plain (snd kv)) (fun n kv => do v <- recursive_to_dicts E n (snd kv); Ok (fst kv, v))).
  intros kv Hkv. rewrite Forall_forall in H. apply (ends_bind plain); [apply H; auto|].
  intros v Hv. apply ends_const; [discriminate|]. intros a [= <-]. auto.
Qed.

Lemma recursive_ends : forall r v, tame (fun c => (rank c < r)%nat) v ->
  ends plain (fun n => recursive_to_dicts E n v).
Proof.
  induction r as [r IHr] using lt_wf_ind.
  induction v as [v Hv|l IH|l IH|d IH|cid d IH] using value_induct; intros Ht; apply tame_inv in Ht.
  - eapply ends_ext; [|apply ends_shift, (ends_const plain (Ok v)); [discriminate|]].
    + intros [|n]; cbn [recursive_to_dicts]; auto. destruct v; auto; contradiction.
    + intros a [= <-]. apply tame_scalar. auto.
  - eapply ends_ext; [|apply ends_shift, (ends_bind (Forall plain) plain (fun n => mapM (recursive_to_dicts E n) l) (fun _ l' => Ok (VList l')))].
    + intros [|n]; cbn [recursive_to_dicts]; auto.
    + apply ends_mapM. intros x Hx. rewrite Forall_forall in *. auto.
    + intros l' Hl'. apply ends_const; [discriminate|]. intros a [= <-]. apply tame_list. auto.
  - eapply ends_ext; [|apply ends_shift, (ends_const plain (Ok (VGen l))); [discriminate|]].
    + intros [|n]; cbn [recursive_to_dicts]; auto.
    + intros a [= <-]. apply tame_gen. auto.
  - eapply ends_ext; [|apply ends_shift, (ends_bind plains plain (fun n => mapM (fun kv => do v <- recursive_to_dicts E n (snd kv); Ok (fst kv, v)) d) (fun _ d' => Ok (VDict d')))].
    + intros [|n]; cbn [recursive_to_dicts]; auto.
    + apply pairs_end. rewrite Forall_forall in *. auto.
    + intros d' Hd'. apply ends_const; [discriminate|]. intros a [= <-]. apply tame_dict. auto.
  - destruct Ht as [Hc Ht].
    eapply ends_ext; [|apply ends_shift, (ends_bind plains plain (fun n =>
      do dct <- to_dict_whatever_possible E n cid d;
      do upd <- missing_values (comps E cid) dct;
      let dct := dupdate dct upd in
      do dct <- (if false then Ok dct else drop_discard (comps E cid) dct);
      mapM (fun kv => do v <- recursive_to_dicts E n (snd kv); Ok (fst kv, v)) dct) (fun _ d' => Ok (VDict d')))].
    + intros [|n]; cbn [recursive_to_dicts]; auto.
    + apply (before_dicts_ends plains cid d false (fun n dct =>
        mapM (fun kv => do v <- recursive_to_dicts E n (snd kv); Ok (fst kv, v)) dct)).
      intros dct Hd. apply pairs_end. unfold owns in Hd. rewrite Forall_forall in *.
      intros kv Hkv. destruct (Hd kv Hkv) as [[k Hin]|Hl].
      * apply (IH _ Hin). apply (Ht _ Hin).
      * apply (IHr (rank cid)); auto.
    + intros d' Hd'. apply ends_const; [discriminate|]. intros a [= <-]. apply tame_dict. auto.
Qed.

Lemma to_dicts_end P v : tame P v -> ends plain (fun n => recursive_to_dicts E n v).
Proof. intros H. destruct (tame_bound rank v P H) as [r Hr]. apply (recursive_ends r v Hr). Qed.

Lemma dicts_of_ends P d : Forall (fun kv => tame P (snd kv)) d -> ends plains (fun n => dicts_of E n d).
Proof. intros H. unfold dicts_of. apply pairs_end. eapply Forall_impl; [|apply H]. intros kv. apply to_dicts_end. Qed.

Lemma owned_tame cid vals d : any_values vals -> owns cid vals d -> any_values d.
Proof.
  intros Hv. apply Forall_impl. intros kv [[k Hin]|Hl].
  - unfold any_values in Hv. rewrite Forall_forall in Hv. apply (Hv _ Hin).
  - eapply tame_mono; [|apply Hl]. intros; exact I.
Qed.

Lemma to_dict_ends cid vals keep : any_values vals -> ends plains (fun n => to_dict E n cid vals keep).
Proof.
  intros Hv. unfold to_dict.
  apply (before_dicts_ends plains cid vals keep (fun n dct => dicts_of E n dct)). intros d Hd.
  apply (dicts_of_ends (fun _ => True)). apply (owned_tame cid vals); auto.
Qed.

(** ** Dumping a field *)
Lemma dends_let m (k : nat -> list Z -> dumped unit) : dends m -> (forall o, dends (fun n => k n o)) ->
  dends (fun n => let '(o, r) := m n in ddo _ <- dlift r; k n o).
Proof.
  intros (n & [o r] & H1 & H2) H. cbn [snd] in H2. destruct r as [[]|e|]; [| |congruence].
  - destruct (H o) as (n' & x & H3 & H4). exists (Nat.max n n'), x. split; auto.
    intros i Hi. rewrite H1, dbind_ok by lia. apply H3. lia.
  - exists n, ([], Raise e). split; [|discriminate]. intros i Hi. rewrite H1; auto.
Qed.

Lemma ends_output {A} (h : list Z -> A) m : dends m -> ends always (fun n => match m n with
  | (out, Ok _) => Ok (h out) | (_, Raise e) => Raise e | (_, OOF) => OOF end).
Proof.
  intros (n & [o r] & H1 & H2). cbn [snd] in H2.
  exists n, (match r with Ok _ => Ok (h o) | Raise e => Raise e | OOF => OOF end). split.
  - intros i Hi. rewrite H1 by auto. destruct r; auto.
  - destruct r; auto; exact I.
Qed.

Lemma default_finishes c : default_of c <> OOF.
Proof. unfold default_of. destruct (c_factory c) as [[]|]; discriminate. Qed.

Section Fields.
Variable P : nat -> Prop.

Section One.
Variable f : field.
Hypothesis H : harmless P (conf f).
Hypothesis Hd : forall v ctx d, tame P v -> dends (fun n => do_dump E n f v ctx d).

Lemma always_const {A} (r : res A) : r <> OOF -> ends always (fun _ => r).
Proof. intros Hr. apply ends_const; auto. intros; exact I. Qed.

Lemma ges_ends d : ends always (fun n => ges (do_dump E n) f d).
Proof.
  unfold ges, get_expected_size_with.
  destruct (c_size (conf f)) as [|z|nm]; [|apply always_const; discriminate|].
  2:{ apply always_const. destruct (dget d nm) as [[]|]; discriminate. }
  unfold expected_unsized. apply (ends_bind always).
  { apply always_const. destruct (oget d (c_name (conf f))); [discriminate|].
    pose proof (default_finishes (conf f)). destruct (default_of (conf f)); cbn [bind]; try congruence.
    destruct (is_undefined a); discriminate. }
  intros v _. destruct (is_none v).
  - unfold unsized_null_len.
    pose proof (proj1 (proj2 (proj2 H))) as Hn.
    assert (Ho : forall w, w = c_null (conf f) -> ends always (fun n => match do_dump E n f w VNone d with
      | (out, Ok _) => Ok (zlen out) | (_, Raise e) => Raise e | (_, OOF) => OOF end)).
    { intros w ->. apply ends_output. auto. }
    assert (He : forall cd t, (do _ <- encode cd t; Raise (EBuggyField (c_name (conf f)))) <> @OOF Z).
    { intros cd t. pose proof (encode_no_oof cd t). destruct (encode cd t); cbn [bind]; congruence. }
    destruct (c_null (conf f)); try (apply always_const; discriminate);
      destruct (kind f); try (apply Ho; auto); apply always_const; auto; discriminate.
  - apply (ends_bind always).
    + apply always_const. apply size_value_finishes.
    + intros [z|] _; apply always_const; discriminate.
Qed.

Lemma null_ends d : ends always (fun n => null_repr (do_dump E n) f d).
Proof.
  unfold null_repr, null_repr_with.
  pose proof (proj1 (proj2 (proj2 H))) as Hn.
  assert (Ho : forall w, w = c_null (conf f) -> ends always (fun n => match do_dump E n f w VNone d with
    | (out, Ok _) => Ok out | (_, Raise e) => Raise e | (_, OOF) => OOF end)).
  { intros w ->. apply (ends_output (fun o => o)). auto. }
  assert (Hg : ends always (fun n => match ges (do_dump E n) f d with
    | Ok z => Ok (repeat 0 (Z.to_nat z))
    | Raise e => if is_UndefinedSizeError e then Raise (EUnserializable (c_name (conf f))) else Raise e
    | OOF => OOF end)).
  { destruct (ges_ends d) as (n & r & H1 & H2).
    exists n, (match r with Ok z => Ok (repeat 0 (Z.to_nat z))
      | Raise e => if is_UndefinedSizeError e then Raise (EUnserializable (c_name (conf f))) else Raise e
      | OOF => OOF end). split.
    - intros i Hi. rewrite H1; auto.
    - destruct r as [z|e|]; auto. destruct (is_UndefinedSizeError e); exact I. }
  destruct (c_null (conf f)); auto; apply always_const; discriminate.
Qed.

Lemma fts_ends v ctx d : tame P v -> dends (fun n => field_to_stream_with (do_dump E n) f v ctx d).
Proof.
  intros Hv. unfold field_to_stream_with, to_stream_with.
  apply (dends_lift (tame P)).
  { apply ends_const.
    - destruct (is_default v); [apply default_finishes|discriminate].
    - intros a. destruct (is_default v); [|intros [= <-]; auto]. unfold default_of. destruct H as (_ & Hx & _ & Hf).
      destruct (c_factory (conf f)) as [[u|e]|]; intros [= <-]; auto. }
  intros a Ha. destruct (is_undefined a || is_default a); [apply dends_const; discriminate|].
  apply (dends_lift always); [apply always_const, (validators_end _ P); auto|]. intros _ _.
  destruct (is_none a).
  - apply (dends_lift always); [apply null_ends|]. intros bs _. apply dends_const. discriminate.
  - apply (dends_let _ (fun n o => _)); [apply Hd; auto|]. intros o.
    apply (dends_lift always).
    { destruct (c_size (conf f)); try (apply always_const; discriminate). apply ges_ends. }
    intros z _. apply dends_const. cbv zeta.
    destruct (0 <? _); [discriminate|]. destruct (_ <? 0); [|discriminate].
    apply dbind_finishes; [|discriminate]. cbn [dlift snd]. unfold add_padding. destruct (kind f); try discriminate;
      destruct pad; discriminate.
Qed.
End One.

Hypothesis HP : forall cid vals ctx, P cid -> any_values vals -> dends (fun n => struct_to_stream E n cid vals ctx).

Lemma any_tame v : tame P v -> any_value v.
Proof. apply tame_mono. intros; exact I. Qed.

Lemma any_tames d : Forall (fun kv => tame P (snd kv)) d -> any_values d.
Proof. apply Forall_impl. intros kv. apply any_tame. Qed.

Lemma init_ends cid vals ctx : P cid -> any_values vals -> dends (fun n =>
  ddo vals <- dlift (struct_init E cid vals); struct_to_stream_with E (do_dump E n) n cid vals ctx).
Proof.
  intros Hc Hv. apply (dends_lift any_values).
  - unfold struct_init. destruct (filter _ _); apply ends_const; try discriminate. intros a [= <-]. auto.
  - intros vs Hvs. apply HP; auto.
Qed.

Lemma do_dump_ends f : nests P f -> forall v ctx d, tame P v -> dends (fun n => do_dump E n f v ctx d).
Proof.
  intros Hf. induction Hf as [c k Hc Hk|c comp cnt halt Hc Hcomp IH|c cid Hc Hcid|c choices ld dd Hc Hdd Hg IH Hs]; intros v ctx d Hv.
  - eapply dends_ext with (m := fun _ => leaf_dump c k (get_expected_size_with (fun _ => draise ETypeErr) c k d) v).
    { intros n. destruct k; try contradiction; destruct n; reflexivity. }
    apply dends_const, leaf_dump_finishes.
    unfold get_expected_size_with. destruct (c_size c) as [|z|nm]; [|discriminate|destruct (dget d nm) as [[]|]; discriminate].
    unfold expected_unsized.
    assert (Hx : match oget d (c_name c) with Some v => Ok v | None => do dv <- default_of c;
      if is_undefined dv then Raise (EUndefinedSize (c_name c)) else Ok dv end <> OOF).
    { destruct (oget d (c_name c)); [discriminate|]. pose proof (default_finishes c).
      destruct (default_of c); cbn [bind]; try congruence. destruct (is_undefined a); discriminate. }
    destruct (match oget d (c_name c) with Some v => Ok v | None => _ end) as [w|e|]; cbn [bind]; try congruence.
    destruct (is_none w).
    + assert (He : forall cd t, (do _ <- encode cd t; Raise (EBuggyField (c_name c))) <> @OOF Z).
      { intros cd t. pose proof (encode_no_oof cd t). destruct (encode cd t); cbn [bind]; congruence. }
      unfold unsized_null_len. destruct (c_null c); try discriminate; destruct k; cbn; auto; discriminate.
    + pose proof (size_value_finishes c k w). destruct (size_for_value c k w) as [[]| |]; cbn [bind]; try congruence; discriminate.
  - pose (fts := fun x n => field_to_stream_with (do_dump E n) comp x ctx d).
    assert (Hx : forall x, tame P x -> dends (fts x)).
    { intros x Hx. apply fts_ends; auto. apply nests_harmless. auto. }
    eapply dends_ext with (m := fun n => match n with O => ([], OOF) | S n' => array_dump (fun x => fts x n') (c_name c) cnt v d end).
    { intros [|n]; reflexivity. }
    apply dends_shift. unfold array_dump. apply (dends_lift always).
    { apply always_const. destruct cnt as [|z|nm|]; try discriminate. cbn [get_final_element_count].
      destruct (dget d nm) as [[]|]; discriminate. }
    intros ne _.
    assert (Hi : forall l, Forall (tame P) l -> dends (fun n => dump_items (fun x => fts x n) l)).
    { induction 1 as [|x l Hx1 Hl IHl]; cbn [dump_items]; [apply dends_const; discriminate|].
      apply dends_seq; auto. }
    assert (Hu : forall l, Forall (tame P) l -> forall w, dends (fun n => dump_unsized (fun x => fts x n) (c_name c) ne w l)).
    { induction 1 as [|x l Hx1 Hl IHl]; intros w; cbn [dump_unsized].
      - apply dends_const. destruct ne as [[z|]|]; cbn [count_above dlift dbind]; [destruct (w <? z)|..]; discriminate.
      - destruct (match ne with Some c => count_is c w | None => false end); [apply dends_const; discriminate|].
        apply dends_seq; auto. }
    destruct (sized_items v) as [l|] eqn:Hl.
    + assert (Htl : Forall (tame P) l).
      { apply tame_inv in Hv. destruct v; try discriminate; injection Hl as <-; auto;
          apply Forall_forall; intros x Hin; apply in_map_iff in Hin as (y & <- & _); apply tame_scalar; exact I. }
      destruct ne; auto. destruct (negb _); auto. apply dends_const. discriminate.
    + destruct v; try (apply dends_const; discriminate). apply Hu. apply tame_inv in Hv.
      eapply Forall_impl; [|apply Hv]. intros x. apply tame_mono. contradiction.
  - eapply dends_ext with (m := fun n => match n with O => ([], OOF) | S n' => match v with
      | VStruct cid' vals => struct_to_stream_with E (do_dump E n') n' cid' vals ctx
      | VDict vals => ddo vals <- dlift (struct_init E cid vals); struct_to_stream_with E (do_dump E n') n' cid vals ctx
      | _ => draise ETypeErr end end).
    { intros [|n]; reflexivity. }
    apply dends_shift. apply tame_inv in Hv. destruct v; try (apply dends_const; discriminate).
    + apply init_ends; auto. apply any_tames. auto.
    + apply HP; [apply Hv|apply any_tames, Hv].
  - eapply dends_ext with (m := fun n => match n with O => ([], OOF) | S n' =>
      ddo i <- dlift (dd v ctx d);
      match nth_error choices i with
      | Some (CField g) => field_to_stream_with (do_dump E n') g v ctx d
      | Some (CStruct cid) => match v with
        | VDict vals => ddo vals <- dlift (struct_init E cid vals); struct_to_stream_with E (do_dump E n') n' cid vals ctx
        | _ => draise ETypeErr end
      | None => draise ETypeErr end end).
    { intros [|n]; reflexivity. }
    apply dends_shift. apply (dends_lift always); [apply always_const; auto|]. intros i _.
    destruct (nth_error choices i) as [[g|cid]|] eqn:Hi; [| |apply dends_const; discriminate].
    + apply nth_error_In in Hi. apply fts_ends; auto. apply nests_harmless; auto.
    + apply nth_error_In in Hi. apply tame_inv in Hv. destruct v; try (apply dends_const; discriminate).
      apply init_ends; auto. apply any_tames. auto.
Qed.

Lemma field_ends f v ctx d : nests P f -> tame P v -> dends (fun n => field_to_stream_with (do_dump E n) f v ctx d).
Proof. intros Hf Hv. apply fts_ends; auto; [apply nests_harmless; auto|apply do_dump_ends; auto]. Qed.
End Fields.

(** ** Dumping an instance *)
Lemma fields_end cid d ctx : (forall c vals ctx, lower cid c -> any_values vals -> dends (fun n => struct_to_stream E n c vals ctx)) ->
  plains d -> forall fs, incl fs (k_comps (cls E cid)) -> dends (fun n => dump_fields (do_dump E n) fs ctx d).
Proof.
  intros HP Hd. induction fs as [|[nm f] fs IH]; intros Hi; cbn [dump_fields]; [apply dends_const; discriminate|].
  assert (Hin : In (nm, f) (k_comps (cls E cid))) by (apply Hi; left; auto).
  apply (dends_lift (tame (lower cid))).
  - apply ends_const; [apply run_dict_finishes|]. intros a.
    apply (run_dict_contribution cid (tame (lower cid)) d nm f ctx); auto.
    eapply Forall_impl; [|apply Hd]. intros kv. apply tame_mono. contradiction.
  - intros v Hv. apply dends_seq.
    + destruct (is_not_present v); [apply dends_const; discriminate|].
      apply (field_ends (lower cid)); auto. apply (comp_facts cid nm f Hin).
    + apply IH. intros x Hx. apply Hi. right. auto.
Qed.

Lemma struct_ends : forall r cid vals ctx, (rank cid < r)%nat -> any_values vals ->
  dends (fun n => struct_to_stream E n cid vals ctx).
Proof.
  induction r as [|r IH]; intros cid vals ctx Hr Hv; [lia|].
  unfold struct_to_stream, struct_to_stream_with. apply (dends_lift always); [apply validate_ends|]. intros _ _.
  apply (dends_lift plains); [apply to_dict_ends; auto|]. intros d Hd.
  apply (fields_end cid); auto; [|apply incl_refl]. intros c vs ctx' Hc. apply IH. unfold lower in Hc. lia.
Qed.

Lemma nests_mono (P Q : nat -> Prop) f : (forall c, P c -> Q c) -> nests P f -> nests Q f.
Proof.
  intros HPQ Hf.
  assert (Hh : forall c, harmless P c -> harmless Q c).
  { intros c (H1 & H2 & H3 & H4). split; [exact H1|]. split; [apply (tame_mono _ P); auto|]. split; [apply (tame_mono _ P); auto|].
    intros v Hv. apply (tame_mono _ P); auto. }
  induction Hf; [apply nests_leaf|apply nests_array|apply nests_nested|apply nests_union]; auto.
Qed.

Lemma struct_dump_ends cid vals ctx : any_values vals -> dends (fun n => struct_to_stream E n cid vals ctx).
Proof. apply (struct_ends (S (rank cid))). lia. Qed.

Lemma field_dump_ends f v ctx d : nests (fun _ => True) f -> any_value v -> dends (fun n => field_to_stream E n f v ctx d).
Proof. apply (field_ends (fun _ => True)). intros. apply struct_dump_ends. auto. Qed.

Lemma comp_any cid name f : In (name, f) (k_comps (cls E cid)) -> nests (fun _ => True) f.
Proof. intros Hin. eapply nests_mono; [|apply (comp_facts cid name f Hin)]. intros; exact I. Qed.

(** ** Partial dumps, sizes *)
Lemma partial_ends cid vals last ctx : any_values vals -> dends (fun n => partial_dump E n cid vals last ctx).
Proof.
  intros Hv. unfold partial_dump. assert (Hi : incl (comps E cid) (k_comps (cls E cid))) by apply incl_refl.
  revert Hi. generalize (comps E cid). induction l as [|[nm f] fs IH]; intros Hi; cbn [partial_dump_fields]; [apply dends_const; discriminate|].
  assert (Hin : In (nm, f) (k_comps (cls E cid))) by (apply Hi; left; auto).
  pose proof (comp_any cid nm f Hin) as Hf.
  apply (dends_lift any_value).
  { apply ends_const; [apply default_finishes|]. apply nests_harmless in Hf as (_ & Hx & _ & Hy). unfold default_of.
    destruct (c_factory (conf f)) as [[u|e]|]; intros a [= <-]; [apply Hy; auto|apply Hx]. }
  intros dv Hdv. cbv zeta.
  assert (Hw : any_value match dget vals (cname f) with Some v => v | None => dv end).
  { destruct (dget vals (cname f)) eqn:Hg; auto. apply (forall_dget _ _ _ _ Hv Hg). }
  destruct (_ && match last with None => true | Some _ => false end); [apply dends_const; discriminate|].
  destruct (_ && _); [apply dends_const; discriminate|].
  apply dends_seq; [apply field_dump_ends; auto|].
  destruct (match last with Some l => String.eqb (cname f) l | None => false end); [apply dends_const; discriminate|].
  apply IH. intros x Hx. apply Hi. right. auto.
Qed.

Lemma expected_ends f d : nests (fun _ => True) f -> ends always (fun n => get_expected_size E n f d).
Proof.
  intros Hf. apply (ges_ends (fun _ => True)); [apply nests_harmless; auto|].
  apply (do_dump_ends (fun _ => True)); auto. intros. apply struct_dump_ends. auto.
Qed.

Lemma size_ends cid d : ends always (fun n => get_size_values E n cid d).
Proof.
  unfold get_size_values.
  assert (Hs : ends always (fun n => sum_sizes E n (comps E cid) d)).
  { assert (Hi : incl (comps E cid) (k_comps (cls E cid))) by apply incl_refl.
    revert Hi. generalize (comps E cid). induction l as [|[nm f] fs IH]; intros Hi; cbn [sum_sizes]; [apply always_const; discriminate|].
    apply (ends_bind always); [apply expected_ends, (comp_any cid nm), Hi; left; auto|]. intros a _.
    apply (ends_bind always); [apply IH; intros x Hx; apply Hi; right; auto|]. intros b _. apply always_const. discriminate. }
  destruct Hs as (n & r & H1 & H2).
  exists n, (match r with Ok z => Ok (Some z) | Raise e =>
    if is_UndefinedSizeError e || is_MissingRequiredValueError e then Ok None else Raise e | OOF => OOF end). split.
  - intros i Hi. rewrite H1; auto.
  - destruct r as [z|e|]; [exact I| |contradiction]. destruct (_ || _); exact I.
Qed.

Lemma len_ends cid vals : any_values vals -> ends always (fun n => struct_len E n cid vals).
Proof.
  intros Hv. unfold struct_len. apply (ends_bind (owns cid vals)); [apply whatever_ends|]. intros cur Hcur.
  apply (owned_tame cid vals) in Hcur; auto.
  apply (ends_bind always); [|intros z _; apply always_const; destruct (z <? 0); discriminate].
  assert (Hi : incl (comps E cid) (k_comps (cls E cid))) by apply incl_refl.
  revert Hi. generalize (comps E cid). induction l as [|[nm f] fs IH]; intros Hi; cbn [len_fields]; [apply always_const; discriminate|].
  assert (Hin : In (nm, f) (k_comps (cls E cid))) by (apply Hi; left; auto).
  pose proof (comp_any cid nm f Hin) as Hf.
  apply (ends_bind always).
  - assert (Hb : ends always (fun n => match get_expected_size E n f cur with
      | Raise e => if is_binobj_Error e then
          do v <- run_dict cur (compute_value_for_dump (conf f) VNone);
          do bs <- field_to_bytes E n f v VNone []; Ok (zlen bs) else Raise e
      | r => r end)).
    { destruct (expected_ends f cur Hf) as (n & r & H1 & H2).
      assert (Hx : ends always (fun n => do v <- run_dict cur (compute_value_for_dump (conf f) VNone);
          do bs <- field_to_bytes E n f v VNone []; Ok (zlen bs))).
      { apply (ends_bind any_value).
        - apply ends_const; [apply run_dict_finishes|]. intros a.
          apply (run_dict_contribution cid any_value cur nm f VNone); auto. intros b. apply tame_mono. intros; exact I.
        - intros v Hw. apply (ends_bind always); [|intros; apply always_const; discriminate].
          apply (ends_output (fun o => o)). apply field_dump_ends; auto. }
      destruct Hx as (n' & r' & H3 & H4).
      exists (Nat.max n n'), (match r with Raise e => if is_binobj_Error e then r' else Raise e | r => r end). split.
      - intros i Hle. rewrite H1 by lia. destruct r as [z|e|]; auto. destruct (is_binobj_Error e); auto. apply H3. lia.
      - destruct r as [z|e|]; auto. destruct (is_binobj_Error e); auto. }
    destruct (c_size (conf f)); auto. apply always_const. discriminate.
  - intros a _. apply (ends_bind always); [apply IH; intros x Hx; apply Hi; right; auto|].
    intros b _. apply always_const. discriminate.
Qed.

(** ** Equality *)
Lemma list_eq_ends l : forall l', Forall (fun x => forall y, In y l' -> ends always (fun n => py_eq E n x y)) l ->
  ends always (fun n => list_eq_with (py_eq E n) l l').
Proof.
  induction l as [|x l IH]; intros [|y l'] H; cbn [list_eq_with]; try (apply always_const; discriminate).
  inversion H; subst. apply (ends_bind always); [auto with datatypes|]. intros [|] _; [|apply always_const; discriminate].
  apply IH. eapply Forall_impl; [|eassumption]. cbn. auto.
Qed.

Lemma dict_eq_ends (d : dict) : forall d', Forall (fun kv => forall y, In y (map snd d') -> ends always (fun n => py_eq E n (snd kv) y)) d ->
  ends always (fun n => dict_eq_with (py_eq E n) d d').
Proof.
  induction d as [|[k x] d IH]; intros d' H; cbn [dict_eq_with]; try (apply always_const; discriminate).
  inversion H; subst. destruct (dget d' k) as [y|] eqn:Hg; [|apply always_const; discriminate].
  apply (ends_bind always).
  - match goal with H : forall y, _ |- _ => apply H end.
    clear - Hg. induction d' as [|[k' w] d' IHd]; cbn [dget] in Hg; [discriminate|].
    destruct (String.eqb k' k); [injection Hg as ->; left; auto|right; auto].
  - intros [|] _; [|apply always_const; discriminate]. apply IH. auto.
Qed.

Lemma plain_eq_ends a : plain a -> forall b, plain b -> ends always (fun n => py_eq E n a b).
Proof.
  induction a as [a Ha|l IH|l IH|d IH|cid d IH] using value_induct; intros Hp b Hb;
    apply tame_inv in Hp; apply tame_inv in Hb.
  - eapply ends_ext with (m := fun n => match n with O => OOF | S _ => py_eq E 1 a b end).
    { intros [|n]; auto. destruct a; try contradiction; destruct b; try reflexivity; destruct Hb; contradiction. }
    apply ends_shift, always_const. destruct a; try contradiction; destruct b; cbn; try discriminate; destruct Hb; contradiction.
  - destruct b; try (eapply ends_ext with (m := fun n => match n with O => OOF | S _ => Ok false end);
      [intros [|n]; reflexivity|apply ends_shift, always_const; discriminate]); [|destruct Hb; contradiction].
    eapply ends_ext with (m := fun n => match n with O => OOF | S n' =>
      if negb (zlen l =? zlen l0) then Ok false else list_eq_with (py_eq E n') l l0 end); [intros [|n]; reflexivity|].
    apply ends_shift. destruct (negb _); [apply always_const; discriminate|].
    apply list_eq_ends. rewrite Forall_forall in *. intros x Hx y Hy. apply IH; auto; [apply Hp|apply Hb]; auto.
  - destruct b; try (eapply ends_ext with (m := fun n => match n with O => OOF | S _ => Ok false end);
      [intros [|n]; reflexivity|apply ends_shift, always_const; discriminate]). destruct Hb; contradiction.
  - destruct b; try (eapply ends_ext with (m := fun n => match n with O => OOF | S _ => Ok false end);
      [intros [|n]; reflexivity|apply ends_shift, always_const; discriminate]); [|destruct Hb; contradiction].
    eapply ends_ext with (m := fun n => match n with O => OOF | S n' =>
      if negb (zlen d =? zlen d0) then Ok false else dict_eq_with (py_eq E n') d d0 end); [intros [|n]; reflexivity|].
    apply ends_shift. destruct (negb _); [apply always_const; discriminate|].
    apply dict_eq_ends. rewrite Forall_forall in *. intros x Hx y Hy. apply in_map_iff in Hy as (kv & <- & Hkv). apply IH; auto; [apply Hp|apply Hb]; auto.
  - destruct Hp. contradiction.
Qed.

Lemma defined_ends cid vals : any_values vals -> ends plains (fun n => defined_values E n cid vals).
Proof.
  intros Hv. unfold defined_values. apply (ends_bind always).
  - destruct (len_ends cid vals Hv) as (n & r & H1 & H2).
    exists n, (match r with Ok _ => Ok tt | Raise ETypeErr => Ok tt | Raise e => Raise e | OOF => OOF end). split.
    + intros i Hi. rewrite H1; auto.
    + destruct r as [z|[]|]; try exact I; contradiction.
  - intros _ _. apply (ends_bind any_values).
    + apply (ends_mapM (fun kv => any_value (snd kv)) (fun n k => do v <- struct_get E n cid vals k; Ok (k, v))). intros k _.
      apply (ends_bind (own cid vals)); [apply get_ends|]. intros v Hw. apply ends_const; [discriminate|]. intros a [= <-]. cbn [snd].
      destruct Hw as [[k' Hin]|Hl].
      * unfold any_values in Hv. rewrite Forall_forall in Hv. apply (Hv _ Hin).
      * eapply tame_mono; [|apply Hl]. intros; exact I.
    + intros d Hd. apply (dicts_of_ends (fun _ => True)). auto.
Qed.

(** The comparison of an instance with anything. *)
Lemma struct_eq_ends cid vals other : any_values vals -> any_value other -> ends always (fun n =>
  match other with
  | VUndefined => Ok (forallb (fun kv => is_undefined (snd kv)) vals)
  | VStruct cid' vals' =>
    do mine <- defined_values E n cid vals;
    do theirs <- defined_values E n cid' vals';
    py_eq E n (VDict theirs) (VDict mine)
  | VDict d =>
    do mine <- defined_values E n cid vals;
    do theirs <- dicts_of E n d;
    py_eq E n (VDict theirs) (VDict mine)
  | _ => do _ <- defined_values E n cid vals; Ok false
  end).
Proof.
  intros Hv Ho. apply tame_inv in Ho.
  assert (Hf : ends always (fun n => do _ <- defined_values E n cid vals; Ok false)).
  { apply (ends_bind plains); [apply defined_ends; auto|]. intros; apply always_const; discriminate. }
  assert (Hp : forall t m, plains t -> plains m -> ends always (fun n => py_eq E n (VDict t) (VDict m))).
  { intros t m Ht Hm. apply plain_eq_ends; apply tame_dict; auto. }
  destruct other; auto; [apply always_const; discriminate| |].
  - apply (ends_bind plains); [apply defined_ends; auto|]. intros m Hm.
    apply (ends_bind plains); [apply (dicts_of_ends (fun _ => True)); auto|]. auto.
  - apply (ends_bind plains); [apply defined_ends; auto|]. intros m Hm.
    apply (ends_bind plains); [apply defined_ends, Ho|]. auto.
Qed.

Lemma eq_ends a : any_value a -> forall b, any_value b -> ends always (fun n => py_eq E n a b).
Proof.
  intros Ha b Hb.
  assert (Hs : forall a cid vals, any_value a -> any_values vals -> match a with VStruct _ _ => False | _ => True end ->
    ends always (fun n => py_eq E n a (VStruct cid vals))).
  { intros x cid vals Hx Hvals Hns. pose proof (struct_eq_ends cid vals x Hvals Hx) as H. apply ends_shift in H.
    eapply ends_ext; [|apply H]. intros [|n]; auto. destruct x; try contradiction; reflexivity. }
  revert b Hb. induction a as [a Hsc|l IH|l IH|d IH|cid d IH] using value_induct; intros b Hb.
  - destruct (match b with VStruct _ _ => true | _ => false end) eqn:Hbs.
    { destruct b; try discriminate. apply Hs; auto; [apply tame_inv in Hb; apply Hb|destruct a; auto; contradiction]. }
    eapply ends_ext with (m := fun n => match n with O => OOF | S _ => py_eq E 1 a b end).
    { intros [|n]; auto. destruct a; try contradiction; destruct b; try reflexivity; discriminate. }
    apply ends_shift, always_const. destruct a; try contradiction; destruct b; cbn; discriminate.
  - destruct b; try (eapply ends_ext with (m := fun n => match n with O => OOF | S _ => Ok false end);
      [intros [|n]; reflexivity|apply ends_shift, always_const; discriminate]);
      [|apply Hs; auto; apply tame_inv in Hb; apply Hb].
    eapply ends_ext with (m := fun n => match n with O => OOF | S n' =>
      if negb (zlen l =? zlen l0) then Ok false else list_eq_with (py_eq E n') l l0 end); [intros [|n]; reflexivity|].
    apply ends_shift. destruct (negb _); [apply always_const; discriminate|].
    apply list_eq_ends. apply tame_inv in Ha. apply tame_inv in Hb. rewrite Forall_forall in *. intros x Hx y Hy.
    apply IH; auto; [apply Ha|apply Hb]; auto.
  - destruct b; try (eapply ends_ext with (m := fun n => match n with O => OOF | S _ => Ok false end);
      [intros [|n]; reflexivity|apply ends_shift, always_const; discriminate]).
    apply Hs; auto; apply tame_inv in Hb; apply Hb.
  - destruct b; try (eapply ends_ext with (m := fun n => match n with O => OOF | S _ => Ok false end);
      [intros [|n]; reflexivity|apply ends_shift, always_const; discriminate]);
      [|apply Hs; auto; apply tame_inv in Hb; apply Hb].
    eapply ends_ext with (m := fun n => match n with O => OOF | S n' =>
      if negb (zlen d =? zlen d0) then Ok false else dict_eq_with (py_eq E n') d d0 end); [intros [|n]; reflexivity|].
    apply ends_shift. destruct (negb _); [apply always_const; discriminate|].
    apply dict_eq_ends. apply tame_inv in Ha. apply tame_inv in Hb. rewrite Forall_forall in *.
    intros x Hx y Hy. apply in_map_iff in Hy as (kv & <- & Hkv). apply IH; auto; [apply Ha|apply Hb]; auto.
  - pose proof (struct_eq_ends cid d b) as H. apply tame_inv in Ha. specialize (H (proj2 Ha) Hb). apply ends_shift in H.
    eapply ends_ext; [|apply H]. intros [|n]; auto.
Qed.
End Ends.
