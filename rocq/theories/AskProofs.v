(** Reading fields and running callables agree with SpecAsk.v (C80). *)
From Verif Require Import Tac FuelProofs ToDictProofs.
From Verif Require Export SpecAsk.
Open Scope Z_scope.

Definition ended {A} (x : A + exn) : res A := match x with inl a => Ok a | inr e => Raise e end.

Lemma ended_inj {A} (x y : A + exn) : ended x = ended y -> x = y.
Proof. destruct x, y; cbn; congruence. Qed.

Lemma ended_of {A} (r : res A) : r <> OOF -> exists x, r = ended x.
Proof. destruct r as [a|e|]; [exists (inl a)|exists (inr e)|]; auto; congruence. Qed.

Lemma ended_mono {A} (a b : res A) x : rle a b -> a = ended x -> b = ended x.
Proof. intros [->| ->] H; auto. destruct x; discriminate. Qed.

Lemma two_ends {A} (F : nat -> res A) n m x y : (forall i j, (i <= j)%nat -> rle (F i) (F j)) ->
  F n = ended x -> F m = ended y -> x = y.
Proof.
  intros Hm H1 H2. apply ended_inj.
  assert (Hx : F (Nat.max n m) = ended x) by (eapply ended_mono; [|exact H1]; apply Hm; lia).
  assert (Hy : F (Nat.max n m) = ended y) by (eapply ended_mono; [|exact H2]; apply Hm; lia).
  congruence.
Qed.

Lemma run_answers {A} mem get keys (has : string -> Prop) (item : string -> value + exn -> Prop) (q : query A) x :
  (forall name, mem name = true <-> has name) -> (forall name y, get name = ended y -> item name y) ->
  run_q mem get keys q = ended x -> answers has item keys q x.
Proof.
  intros Hm Hg. revert x. induction q as [a|e|nm k IH|nm k IH|k IH]; intros x H; cbn [run_q] in H.
  - replace x with (@inl A exn a) by (destruct x; cbn in H; congruence). constructor.
  - replace x with (@inr A exn e) by (destruct x; cbn in H; congruence). constructor.
  - pose proof (Hm nm) as Hn. destruct (mem nm).
    + apply answers_in; auto. apply Hn. auto.
    + apply answers_not_in; auto. intros Hh. apply Hn in Hh. discriminate.
  - destruct (get nm) as [v|e|] eqn:Hv.
    + apply (answers_get has item keys nm k (inl v)); auto.
    + apply (answers_get has item keys nm k (inr e)); auto.
    + destruct x; discriminate.
  - apply answers_keys. auto.
Qed.

Lemma answers_run {A} mem get keys (has : string -> Prop) (item : string -> value + exn -> Prop) (q : query A) x :
  (forall name, mem name = true <-> has name) -> (forall name y, item name y -> get name = ended y) ->
  answers has item keys q x -> run_q mem get keys q = ended x.
Proof.
  intros Hm Hg H. induction H as [a|e|nm k x Hh _ IH|nm k x Hh _ IH|nm k y x Hy _ IH|k x _ IH]; cbn [run_q]; auto.
  - apply Hm in Hh. rewrite Hh. auto.
  - destruct (mem nm) eqn:Hn; auto. apply Hm in Hn. contradiction.
  - rewrite (Hg _ _ Hy). destruct y; auto.
Qed.

(** ** Dicts *)
Lemma dict_item_iff d name y : dict_item d name y <-> dget_res d name = ended y.
Proof.
  unfold dget_res. split.
  - intros [nm v H|nm H]; [rewrite H; auto|].
    destruct (dget d nm) eqn:Hg; auto. exfalso. apply H.
    change (In nm (dkeys d)). rewrite dget_in. eauto.
  - destruct (dget d name) as [v|] eqn:Hg; destruct y as [w|e]; cbn; intros H; try discriminate.
    + injection H as <-. constructor. auto.
    + injection H as <-. constructor. change (~ In name (dkeys d)). rewrite dget_in. intros [v Hv]. congruence.
Qed.

Lemma dmem_iff d name : dmem d name = true <-> In name (map fst d).
Proof.
  unfold dmem. change (map fst d) with (dkeys d). rewrite dget_in.
  destruct (dget d name); split; eauto; try discriminate. intros [v H]. discriminate.
Qed.

Lemma dict_answers_iff {A} d (q : query A) x : dict_answers d q x <-> run_dict d q = ended x.
Proof.
  unfold dict_answers, run_dict. split.
  - apply answers_run; [apply dmem_iff|]. intros name y. apply dict_item_iff.
  - apply run_answers; [apply dmem_iff|]. intros name y. apply dict_item_iff.
Qed.

Lemma dict_answers_total {A} d (q : query A) : exists x, dict_answers d q x.
Proof.
  assert (H : run_dict d q <> OOF).
  { unfold run_dict. induction q as [a|e|nm k IH|nm k IH|k IH]; cbn [run_q]; try discriminate; auto.
    unfold dget_res. destruct (dget d nm); auto. }
  apply ended_of in H. destruct H as [x H]. exists x. apply dict_answers_iff. auto.
Qed.

Lemma dict_answers_one {A} d (q : query A) x y : dict_answers d q x -> dict_answers d q y -> x = y.
Proof. intros H1 H2. apply dict_answers_iff in H1, H2. apply ended_inj. congruence. Qed.

Lemma dict_callable A d (q : query A) :
  exists x, dict_answers d q x /\ (forall y, dict_answers d q y -> y = x)
            /\ run_dict d q = match x with inl a => Ok a | inr e => Raise e end.
Proof.
  destruct (dict_answers_total d q) as [x H]. exists x. split; auto. split.
  - intros y Hy. exact (dict_answers_one d q y x Hy H).
  - apply dict_answers_iff in H. exact H.
Qed.

(** ** Structs *)
Lemma shown_keys vals : shown vals = struct_keys vals.
Proof.
  unfold shown, struct_keys. induction vals as [|[k v] vals IH]; auto. cbn [flat_map filter snd fst].
  rewrite IH. destruct v; reflexivity.
Qed.

Lemma shown_mem vals name : struct_mem vals name = true <-> In name (shown vals).
Proof. rewrite shown_keys. apply struct_mem_in. Qed.

Section Struct.
Variables (E : env) (cid : nat) (vals : dict).
Hypothesis Hwf : well_formed (cls E cid).

Definition asked {A} (n : nat) (q : query A) : res A := run_struct E n cid vals q.

Lemma bind_ended {A B} n (q : query A) (k : A -> query B) :
  asked n (qbind q k)
  = match asked n q with Ok a => asked n (k a) | Raise e => Raise e | OOF => OOF end.
Proof.
  unfold asked, run_struct. induction q as [a|e|nm k' IH|nm k' IH|k' IH]; cbn [qbind run_q]; auto.
  destruct (struct_get E n cid vals nm); auto.
Qed.

Lemma given_iff n c v p x : v <> VNotPresent -> asked n (c_present c VNone None) = ended p ->
  asked n (qbind (c_present c VNone None) (fun p =>
      if negb p then QRet VNotPresent
      else if is_undefined v then QRaise (EMissingRequired (c_name c)) else QRet v)) = ended x
  <-> given c v p x.
Proof.
  intros Hv Hp. rewrite bind_ended, Hp. destruct p as [[|]|e]; cbn [ended negb].
  - destruct (is_undefined v) eqn:Hu.
    + destruct v; try discriminate. unfold asked, run_struct. cbn [run_q]. split.
      * intros H. replace x with (@inr value exn (EMissingRequired (c_name c))) by (destruct x; cbn in H; congruence). constructor.
      * inversion 1; subst; auto; congruence.
    + assert (Hu' : v <> VUndefined) by (intros ->; discriminate).
      unfold asked, run_struct. cbn [run_q]. split.
      * intros H. replace x with (@inl value exn v) by (destruct x; cbn in H; congruence). constructor; auto.
      * inversion 1; subst; auto; congruence.
  - unfold asked, run_struct. cbn [run_q]. split.
    + intros H. replace x with (@inl value exn VNotPresent) by (destruct x; cbn in H; congruence). constructor; auto.
    + inversion 1; subst; auto.
  - split.
    + intros H. replace x with (@inr value exn e) by (destruct x; cbn in H; congruence). constructor; auto.
    + inversion 1; subst; auto.
Qed.

Lemma comp_assoc name f : In (name, f) (k_comps (cls E cid)) ->
  assoc (comps E cid) name = Some f /\ c_name (conf f) = Some name.
Proof.
  intros H. apply (bound_assoc _ _ _ (well_formed_bound _ Hwf) H).
Qed.

Lemma comp_unknown name : ~ In name (map fst (k_comps (cls E cid))) <-> assoc (comps E cid) name = None.
Proof.
  unfold comps. split.
  - intros H. destruct (assoc (k_comps (cls E cid)) name) as [f|] eqn:Ha; auto.
    exfalso. apply H. apply assoc_in in Ha. apply (in_map fst) in Ha. auto.
  - intros Ha H. apply in_map_iff in H. destruct H as ([nm f] & <- & H). apply comp_assoc in H.
    destruct H as [H _]. unfold comps in H. cbn [fst] in Ha. congruence.
Qed.

Lemma compute_cases n c : asked n (compute_value_for_dump c VNone)
  = match asked n (stored_or_fallback c) with
    | Ok v => if is_not_present v then Ok VNotPresent
              else asked n (qbind (c_present c VNone None) (fun p =>
                     if negb p then QRet VNotPresent
                     else if is_undefined v then QRaise (EMissingRequired (c_name c)) else QRet v))
    | Raise e => Raise e
    | OOF => OOF
    end.
Proof.
  unfold compute_value_for_dump. rewrite bind_ended.
  destruct (asked n (stored_or_fallback c)) as [v|e|]; auto. destruct (is_not_present v); auto.
Qed.

Lemma not_shown name : ~ In name (map fst vals) -> ~ In name (shown vals).
Proof.
  intros H Hs. apply H. unfold shown in Hs. apply in_flat_map in Hs. destruct Hs as ([k v] & Hi & Hv).
  assert (k = name) by (cbn [snd fst] in Hv; destruct v; cbn in Hv; intuition). subst k.
  apply (in_map fst) in Hi. auto.
Qed.

Lemma fallback_unset n c name : c_name c = Some name -> ~ In name (shown vals) ->
  asked n (stored_or_fallback c) = asked n (fallback_value c).
Proof.
  intros Hn Hs. unfold stored_or_fallback. rewrite Hn. unfold asked, run_struct. cbn [run_q].
  destruct (struct_mem vals name) eqn:Hm; auto. apply shown_mem in Hm. contradiction.
Qed.

Definition sound (n : nat) : Prop := forall name x, struct_get E n cid vals name = ended x -> reads E cid vals name x.

Lemma asked_sound {A} n (q : query A) x : sound n -> asked n q = ended x -> struct_answers E cid vals q x.
Proof.
  intros Hs H. unfold asked, run_struct in H. rewrite <- shown_keys in H.
  eapply run_answers; [apply shown_mem|exact Hs|exact H].
Qed.

Lemma fallback_sound n c x : sound n -> asked n (fallback_value c) = ended x -> supplies E cid vals c x.
Proof.
  intros Hs H. unfold fallback_value in H. destruct (is_undefined (c_default c)) eqn:Hu; cbn [negb] in H.
  - assert (Hd : c_default c = VUndefined) by (destruct (c_default c); auto; discriminate).
    destruct (c_compute c) as [q|] eqn:Hc.
    + eapply supplies_computed; eauto. apply (asked_sound n); auto.
    + replace x with (@inl value exn VUndefined) by (destruct x; cbn in H; congruence). apply supplies_none; auto.
  - assert (Hd : c_default c <> VUndefined) by (intros Hx; rewrite Hx in Hu; discriminate).
    unfold default_query in H. destruct (c_factory c) as [[v|e]|] eqn:Hf.
    + replace x with (@inl value exn v) by (destruct x; cbn in H; congruence). apply supplies_made; auto.
    + replace x with (@inr value exn e) by (destruct x; cbn in H; congruence). apply supplies_made; auto.
    + replace x with (@inl value exn (c_default c)) by (destruct x; cbn in H; congruence). apply supplies_default; auto.
Qed.

Lemma stored_get name v : dget vals name = Some v -> In name (map fst vals).
Proof. intros H. change (In name (dkeys vals)). rewrite dget_in. eauto. Qed.
Lemma stored_none name : dget vals name = None -> ~ In name (map fst vals).
Proof. intros H Hi. change (In name (dkeys vals)) in Hi. rewrite dget_in in Hi. destruct Hi as [v Hv]. congruence. Qed.

Lemma unset_sound n name f x : sound n -> In (name, f) (k_comps (cls E cid)) -> ~ In name (map fst vals) ->
  asked n (compute_value_for_dump (conf f) VNone) = ended x -> reads E cid vals name x.
Proof.
  intros Hs Hi Hn H. destruct (comp_assoc _ _ Hi) as [_ Hcn]. rewrite compute_cases in H.
  rewrite (fallback_unset _ _ _ Hcn (not_shown _ Hn)) in H.
  destruct (asked n (fallback_value (conf f))) as [v|e|] eqn:Hf; [| |destruct x; discriminate].
  - assert (Hsup : supplies E cid vals (conf f) (inl v)) by (eapply fallback_sound; eauto).
    destruct (is_not_present v) eqn:Hnp.
    + destruct v; try discriminate. replace x with (@inl value exn VNotPresent) by (destruct x; cbn in H; congruence).
      eapply reads_not_present; eauto.
    + assert (Hvn : v <> VNotPresent) by (intros ->; discriminate).
      assert (Hp : exists p, asked n (c_present (conf f) VNone None) = ended p).
      { apply ended_of. intros Ho. rewrite bind_ended, Ho in H. destruct x; discriminate. }
      destruct Hp as [p Hp]. eapply reads_given; eauto.
      * apply (asked_sound n); [exact Hs|exact Hp].
      * eapply given_iff; eauto.
  - replace x with (@inr value exn e) by (destruct x; cbn in H; congruence).
    eapply reads_nothing; eauto. eapply fallback_sound; eauto.
Qed.

Lemma get_sound n : sound n.
Proof.
  induction n as [|n IH]; intros name x H; cbn [struct_get] in H.
  - destruct (assoc (comps E cid) name) as [f|] eqn:Ha.
    + pose proof (assoc_in _ _ _ Ha) as Hi. destruct (comp_assoc _ _ Hi) as [_ Hn]. unfold name_of in H. rewrite Hn in H.
      cbn [oget] in H. destruct (dget vals name) as [v|] eqn:Hg; [|destruct x; discriminate].
      replace x with (@inl value exn v) by (destruct x; cbn in H; congruence).
      apply reads_stored; auto. apply (in_map fst) in Hi. auto.
    + replace x with (@inr value exn (EKeyErr name)) by (destruct x; cbn in H; congruence).
      apply reads_unknown. apply comp_unknown. auto.
  - destruct (assoc (comps E cid) name) as [f|] eqn:Ha.
    + pose proof (assoc_in _ _ _ Ha) as Hi. destruct (comp_assoc _ _ Hi) as [_ Hn]. unfold name_of in H. rewrite Hn in H.
      cbn [oget] in H. destruct (dget vals name) as [v|] eqn:Hg.
      * replace x with (@inl value exn v) by (destruct x; cbn in H; congruence).
        apply reads_stored; auto. apply (in_map fst) in Hi. auto.
      * eapply unset_sound; eauto. apply stored_none; auto.
    + replace x with (@inr value exn (EKeyErr name)) by (destruct x; cbn in H; congruence).
      apply reads_unknown. apply comp_unknown. auto.
Qed.

(** The other direction. *)
Lemma asked_mono {A} n m (q : query A) x : (n <= m)%nat -> asked n q = ended x -> asked m q = ended x.
Proof. intros H. apply ended_mono. apply run_struct_mono. auto. Qed.

Lemma get_unset n name f : In (name, f) (k_comps (cls E cid)) -> ~ In name (map fst vals) ->
  struct_get E (S n) cid vals name = asked n (compute_value_for_dump (conf f) VNone).
Proof.
  intros Hi Hn. destruct (comp_assoc _ _ Hi) as [Ha Hc]. cbn [struct_get]. rewrite Ha. unfold name_of. rewrite Hc. cbn [oget].
  destruct (dget vals name) eqn:Hg; [exfalso; apply Hn; eapply stored_get; eauto|]. auto.
Qed.

Fixpoint reads_complete name x (H : reads E cid vals name x) {struct H} :
  exists n, struct_get E n cid vals name = ended x
with supplies_complete c x (H : supplies E cid vals c x) {struct H} :
  exists n, asked n (fallback_value c) = ended x.
Proof.
  - destruct H as [name Hu|name v Hi Hg|name f e Hi Hn Hs|name f Hi Hn Hs|name f v p x Hi Hn Hs Hp Hgiv].
    + exists 0%nat. apply comp_unknown in Hu. cbn [struct_get]. rewrite Hu. auto.
    + exists 0%nat. apply in_map_iff in Hi. destruct Hi as ([nm f] & Hnm & Hi). cbn [fst] in Hnm. subst nm.
      destruct (comp_assoc _ _ Hi) as [Ha Hc]. cbn [struct_get]. rewrite Ha. unfold name_of. rewrite Hc. cbn [oget].
      rewrite Hg. auto.
    + destruct (supplies_complete _ _ Hs) as [n Hn']. exists (S n). rewrite (get_unset _ _ _ Hi Hn), compute_cases.
      destruct (comp_assoc _ _ Hi) as [_ Hc]. rewrite (fallback_unset _ _ _ Hc (not_shown _ Hn)), Hn'. auto.
    + destruct (supplies_complete _ _ Hs) as [n Hn']. exists (S n). rewrite (get_unset _ _ _ Hi Hn), compute_cases.
      destruct (comp_assoc _ _ Hi) as [_ Hc]. rewrite (fallback_unset _ _ _ Hc (not_shown _ Hn)), Hn'. auto.
    + destruct (supplies_complete _ _ Hs) as [n1 Hn1].
      assert (Hq : exists n, asked n (c_present (conf f) VNone None) = ended p).
      { clear - reads_complete Hp. induction Hp as [a|e|nm k x Hh _ IH|nm k x Hh _ IH|nm k y x Hy _ IH|k x _ IH].
        - exists 0%nat. auto.
        - exists 0%nat. auto.
        - destruct IH as [n IH]. exists n. unfold asked, run_struct in *. cbn [run_q].
          apply shown_mem in Hh. rewrite Hh. auto.
        - destruct IH as [n IH]. exists n. unfold asked, run_struct in *. cbn [run_q].
          destruct (struct_mem vals nm) eqn:Hm; auto. apply shown_mem in Hm. contradiction.
        - destruct (reads_complete _ _ Hy) as [n1 H1]. destruct IH as [n2 H2]. exists (Nat.max n1 n2).
          assert (H1' : struct_get E (Nat.max n1 n2) cid vals nm = ended y).
          { eapply ended_mono; [apply struct_get_mono|exact H1]. lia. }
          pose proof (asked_mono n2 (Nat.max n1 n2) _ _ ltac:(lia) H2) as H2'.
          unfold asked, run_struct in *. cbn [run_q]. rewrite H1'. destruct y; auto.
        - destruct IH as [n IH]. exists n. unfold asked, run_struct in *. cbn [run_q]. rewrite <- shown_keys at 2. auto. }
      destruct Hq as [n2 Hn2]. exists (S (Nat.max n1 n2)).
      rewrite (get_unset _ _ _ Hi Hn), compute_cases.
      destruct (comp_assoc _ _ Hi) as [_ Hc]. rewrite (fallback_unset _ _ _ Hc (not_shown _ Hn)).
      rewrite (asked_mono n1 (Nat.max n1 n2) _ _ ltac:(lia) Hn1). cbn [ended].
      assert (Hv : v <> VNotPresent) by (destruct Hgiv; auto; discriminate).
      replace (is_not_present v) with false by (destruct v; auto; contradiction).
      eapply given_iff; eauto. eapply asked_mono; [|exact Hn2]. lia.
  - destruct H as [c Hd Hf|c x Hd Hf|c q x Hd Hc Hq|c Hd Hc]; unfold fallback_value.
    + exists 0%nat. replace (is_undefined (c_default c)) with false by (destruct (c_default c); auto; contradiction).
      cbn [negb]. unfold default_query. rewrite Hf. auto.
    + exists 0%nat. replace (is_undefined (c_default c)) with false by (destruct (c_default c); auto; contradiction).
      cbn [negb]. unfold default_query. rewrite Hf. destruct x; auto.
    + rewrite Hd. cbn [is_undefined negb]. rewrite Hc.
      clear - reads_complete Hq. induction Hq as [a|e|nm k x Hh _ IH|nm k x Hh _ IH|nm k y x Hy _ IH|k x _ IH].
        * exists 0%nat. auto.
        * exists 0%nat. auto.
        * destruct IH as [n IH]. exists n. unfold asked, run_struct in *. cbn [run_q].
          apply shown_mem in Hh. rewrite Hh. auto.
        * destruct IH as [n IH]. exists n. unfold asked, run_struct in *. cbn [run_q].
          destruct (struct_mem vals nm) eqn:Hm; auto. apply shown_mem in Hm. contradiction.
        * destruct (reads_complete _ _ Hy) as [n1 H1]. destruct IH as [n2 H2]. exists (Nat.max n1 n2).
          assert (H1' : struct_get E (Nat.max n1 n2) cid vals nm = ended y).
          { eapply ended_mono; [apply struct_get_mono|exact H1]. lia. }
          pose proof (asked_mono n2 (Nat.max n1 n2) _ _ ltac:(lia) H2) as H2'.
          unfold asked, run_struct in *. cbn [run_q]. rewrite H1'. destruct y; auto.
        * destruct IH as [n IH]. exists n. unfold asked, run_struct in *. cbn [run_q]. rewrite <- shown_keys at 2. auto.
    + exists 0%nat. rewrite Hd. cbn [is_undefined negb]. rewrite Hc. auto.
Qed.
End Struct.

Lemma reads_iff E cid vals name x : well_formed (cls E cid) ->
  reads E cid vals name x <-> exists n, struct_get E n cid vals name = ended x.
Proof.
  intros Hw. split; [apply reads_complete; auto|]. intros [n H]. eapply get_sound; eauto.
Qed.

Lemma field_reads E cid vals name : well_formed (cls E cid) ->
  (forall v, reads E cid vals name (inl v) <-> exists n, struct_get E n cid vals name = Ok v)
  /\ (forall e, reads E cid vals name (inr e) <-> exists n, struct_get E n cid vals name = Raise e)
  /\ ((forall x, ~ reads E cid vals name x) <-> forall n, struct_get E n cid vals name = OOF).
Proof.
  intros Hw. split; [intros v; apply (reads_iff E cid vals name (inl v) Hw)|].
  split; [intros e; apply (reads_iff E cid vals name (inr e) Hw)|]. split.
  - intros H n. destruct (struct_get E n cid vals name) as [v|e|] eqn:Hg; auto; exfalso.
    + apply (H (inl v)). apply reads_iff; eauto.
    + apply (H (inr e)). apply reads_iff; eauto.
  - intros H x Hx. apply reads_iff in Hx; auto. destruct Hx as [n Hn]. rewrite H in Hn. destruct x; discriminate.
Qed.

Lemma reads_one E cid vals name x y : well_formed (cls E cid) ->
  reads E cid vals name x -> reads E cid vals name y -> x = y.
Proof.
  intros Hw H1 H2. apply reads_iff in H1, H2; auto. destruct H1 as [n1 H1], H2 as [n2 H2].
  eapply (two_ends (fun n => struct_get E n cid vals name)); eauto. intros. apply struct_get_mono; auto.
Qed.

Lemma struct_answers_iff {A} E cid vals (q : query A) x : well_formed (cls E cid) ->
  struct_answers E cid vals q x <-> exists n, run_struct E n cid vals q = ended x.
Proof.
  intros Hw. split.
  - intros H. induction H as [a|e|nm k x Hh _ IH|nm k x Hh _ IH|nm k y x Hy _ IH|k x _ IH].
    + exists 0%nat. auto.
    + exists 0%nat. auto.
    + destruct IH as [n IH]. exists n. unfold run_struct in *. cbn [run_q].
      apply shown_mem in Hh. rewrite Hh. auto.
    + destruct IH as [n IH]. exists n. unfold run_struct in *. cbn [run_q].
      destruct (struct_mem vals nm) eqn:Hm; auto. apply shown_mem in Hm. contradiction.
    + apply reads_iff in Hy; auto. destruct Hy as [n1 H1]. destruct IH as [n2 H2]. exists (Nat.max n1 n2).
      assert (H1' : struct_get E (Nat.max n1 n2) cid vals nm = ended y).
      { eapply ended_mono; [apply struct_get_mono|exact H1]. lia. }
      pose proof (asked_mono E cid vals n2 (Nat.max n1 n2) _ _ ltac:(lia) H2) as H2'.
      unfold asked, run_struct in *. cbn [run_q]. rewrite H1'. destruct y; auto.
    + destruct IH as [n IH]. exists n. unfold run_struct in *. cbn [run_q]. rewrite <- shown_keys at 2. auto.
  - intros [n H]. eapply asked_sound; [apply get_sound; auto|exact H].
Qed.

Lemma struct_answers_one {A} E cid vals (q : query A) x y : well_formed (cls E cid) ->
  struct_answers E cid vals q x -> struct_answers E cid vals q y -> x = y.
Proof.
  intros Hw H1 H2. apply struct_answers_iff in H1, H2; auto. destruct H1 as [n1 H1], H2 as [n2 H2].
  eapply (two_ends (fun n => run_struct E n cid vals q)); eauto. intros. apply run_struct_mono; auto.
Qed.

(** ** The value of a field in a dump *)
Lemma shown_get vals name : NoDup (dkeys vals) ->
  In name (shown vals) <-> exists v, dget vals name = Some v /\ v <> VUndefined.
Proof.
  intros Hnd. rewrite shown_keys. rewrite struct_keys_in by auto.
  split; intros (v & H1 & H2); exists v; auto.
Qed.

Lemma dump_value_iff E cid vals name f x : instance_of E cid vals -> In (name, f) (k_comps (cls E cid)) ->
  dump_value E cid vals name (conf f) x
  <-> exists n, run_struct E n cid vals (compute_value_for_dump (conf f) VNone) = ended x.
Proof.
  intros (Hw & Hnd & _) Hi. destruct (comp_assoc E cid Hw _ _ Hi) as [Ha Hc].
  assert (Hst : forall n v, dget vals name = Some v -> v <> VUndefined ->
            asked E cid vals n (stored_or_fallback (conf f)) = Ok v).
  { intros n v Hg Hv. unfold stored_or_fallback, asked, run_struct. rewrite Hc. cbn [run_q].
    assert (Hm : struct_mem vals name = true) by (apply shown_mem; apply shown_get; eauto). rewrite Hm. cbn [run_q].
    rewrite (struct_get_stored E n cid vals name f v); auto. }
  split.
  - intros [Hg|v p x' Hg Hv Hp Hgiv|e Hn Hs|Hn Hs|v p x' Hn Hs Hp Hgiv].
    + exists 0%nat. change (asked E cid vals 0 (compute_value_for_dump (conf f) VNone) = ended (inl VNotPresent)).
      rewrite compute_cases. rewrite (Hst _ _ Hg) by discriminate. auto.
    + apply struct_answers_iff in Hp; auto. destruct Hp as [n Hp]. exists n.
      change (asked E cid vals n (compute_value_for_dump (conf f) VNone) = ended x').
      rewrite compute_cases. rewrite (Hst _ _ Hg Hv).
      assert (Hvn : v <> VNotPresent) by (destruct Hgiv; auto; discriminate).
      replace (is_not_present v) with false by (destruct v; auto; contradiction).
      eapply given_iff; eauto.
    + destruct (supplies_complete E cid vals Hw _ _ Hs) as [n H1]. exists n.
      change (asked E cid vals n (compute_value_for_dump (conf f) VNone) = ended (inr e)).
      rewrite compute_cases, (fallback_unset _ _ _ _ _ _ Hc Hn), H1. auto.
    + destruct (supplies_complete E cid vals Hw _ _ Hs) as [n H1]. exists n.
      change (asked E cid vals n (compute_value_for_dump (conf f) VNone) = ended (inl VNotPresent)).
      rewrite compute_cases, (fallback_unset _ _ _ _ _ _ Hc Hn), H1. auto.
    + destruct (supplies_complete E cid vals Hw _ _ Hs) as [n1 H1].
      apply struct_answers_iff in Hp; auto. destruct Hp as [n2 Hp]. exists (Nat.max n1 n2).
      change (asked E cid vals (Nat.max n1 n2) (compute_value_for_dump (conf f) VNone) = ended x').
      rewrite compute_cases, (fallback_unset _ _ _ _ _ _ Hc Hn).
      rewrite (asked_mono E cid vals n1 (Nat.max n1 n2) _ _ ltac:(lia) H1). cbn [ended].
      assert (Hvn : v <> VNotPresent) by (destruct Hgiv; auto; discriminate).
      replace (is_not_present v) with false by (destruct v; auto; contradiction).
      eapply given_iff; eauto. eapply asked_mono; [|exact Hp]. lia.
  - intros [n H]. change (asked E cid vals n (compute_value_for_dump (conf f) VNone) = ended x) in H.
    rewrite compute_cases in H.
    assert (Hpres : forall v, v <> VNotPresent -> asked E cid vals n (qbind (c_present (conf f) VNone None) (fun p =>
                     if negb p then QRet VNotPresent
                     else if is_undefined v then QRaise (EMissingRequired (c_name (conf f))) else QRet v)) = ended x ->
              exists p, struct_answers E cid vals (c_present (conf f) VNone None) p /\ given (conf f) v p x).
    { intros v Hv Hq. assert (Hp : exists p, asked E cid vals n (c_present (conf f) VNone None) = ended p).
      { apply ended_of. intros Ho. rewrite bind_ended, Ho in Hq. destruct x; discriminate. }
      destruct Hp as [p Hp]. exists p. split; [apply struct_answers_iff; eauto|]. eapply given_iff; eauto. }
    destruct (in_dec String.string_dec name (shown vals)) as [Hs|Hs].
    + apply shown_get in Hs; auto. destruct Hs as (v & Hg & Hv). rewrite (Hst _ _ Hg Hv) in H.
      destruct (is_not_present v) eqn:Hnp.
      * destruct v; try discriminate. replace x with (@inl value exn VNotPresent) by (destruct x; cbn in H; congruence).
        apply dv_stored_absent; auto.
      * destruct (Hpres v) as (p & Hp & Hgiv); [intros ->; discriminate|auto|]. eapply dv_stored; eauto.
    + rewrite (fallback_unset _ _ _ _ _ _ Hc Hs) in H.
      destruct (asked E cid vals n (fallback_value (conf f))) as [v|e|] eqn:Hf; [| |destruct x; discriminate].
      * assert (Hsup : supplies E cid vals (conf f) (inl v)) by (eapply fallback_sound; [apply get_sound; auto|exact Hf]).
        destruct (is_not_present v) eqn:Hnp.
        -- destruct v; try discriminate. replace x with (@inl value exn VNotPresent) by (destruct x; cbn in H; congruence).
           apply dv_not_present; auto.
        -- destruct (Hpres v) as (p & Hp & Hgiv); [intros ->; discriminate|auto|]. eapply dv_given; eauto.
      * replace x with (@inr value exn e) by (destruct x; cbn in H; congruence). apply dv_nothing; auto.
        eapply fallback_sound; [apply get_sound; auto|exact Hf].
Qed.

(** ** to_dict *)
Lemma free_same E n : forall v w, struct_free v -> recursive_to_dicts E n v = Ok w -> w = v.
Proof.
  induction n as [|n IH]; intros v w Hf H; [discriminate|]. cbn [recursive_to_dicts] in H.
  destruct Hf as [v Hv|l Hl|d Hd].
  - destruct v; try contradiction; congruence.
  - destruct (mapM (recursive_to_dicts E n) l) as [l'|e|] eqn:Hm; try discriminate. injection H as <-. f_equal.
    apply mapM_iff in Hm. induction Hm as [|a b l l' Hab _ IHl]; auto. inversion Hl; subst. f_equal; auto.
  - destruct (mapM _ d) as [d'|e|] eqn:Hm; try discriminate. injection H as <-. f_equal.
    apply mapM_iff in Hm. induction Hm as [|[k a] [k' b] d d' Hab _ IHd]; auto. inversion Hd; subst. cbn [fst snd] in *.
    destruct (recursive_to_dicts E n a) as [a'|e|] eqn:Ha; try discriminate. injection Hab as <- <-. f_equal; auto.
    f_equal. apply (IH a a'); auto.
Qed.

Lemma to_dict_value E n cid vals keep d name f v : instance_of E cid vals ->
  to_dict E n cid vals keep = Ok d -> In (name, f) (k_comps (cls E cid)) ->
  (keep = true \/ c_discard (conf f) = false) ->
  dump_value E cid vals name (conf f) (inl v) -> struct_free v -> dget d name = Some v.
Proof.
  intros Hi H Hin Hk Hv Hfree. pose proof Hi as (Hwf & _).
  destruct (to_dict_spec _ _ _ _ _ _ Hi H) as (w & Hw & raw & Hraw & _ & Hkeys & Hvals).
  apply whatever_spec in Hw; auto. destruct Hw as (_ & _ & Hw).
  specialize (Hw name f Hin). apply dump_value_iff with (f := f) in Hv; auto. destruct Hv as [m Hm].
  assert (Hr : run_struct E n cid vals (compute_value_for_dump (conf f) VNone) = Ok v).
  { destruct (run_struct E n cid vals (compute_value_for_dump (conf f) VNone)) as [a|e|] eqn:Hr; [| |contradiction].
    - assert (Heq : @inl value exn a = inl v); [|congruence].
      eapply (two_ends (fun n => run_struct E n cid vals (compute_value_for_dump (conf f) VNone))); [|exact Hr|exact Hm].
      intros. apply run_struct_mono; auto.
    - exfalso. assert (Heq : @inr value exn e = inl v); [|congruence].
      eapply (two_ends (fun n => run_struct E n cid vals (compute_value_for_dump (conf f) VNone))); [|exact Hr|exact Hm].
      intros. apply run_struct_mono; auto. }
  rewrite Hr in Hw.
  assert (Hrk : In name (dkeys raw)).
  { apply Hkeys. split; [apply (in_map fst) in Hin; auto|]. destruct Hk as [Hk|Hk]; auto. right.
    rewrite (discarded_iff (comps E cid) name f); auto. apply well_formed_bound; auto. }
  apply dget_in in Hrk. destruct Hrk as [r Hr'].
  assert (r = v). { destruct (Hvals name f r Hin Hr') as [Hx|[Hx _]]; congruence. }
  subst r. pose proof (dicts_of_get E n raw d Hraw name) as Hg. rewrite Hr' in Hg.
  destruct Hg as (v' & H1 & H2). rewrite H2. f_equal. eapply free_same; eauto.
Qed.

(** ** Validators and present *)
Lemma validators_answer E n cid vals ctx out : instance_of E cid vals ->
  struct_to_stream E n cid vals ctx = (out, Ok tt) ->
  Forall (fun q => struct_answers E cid vals q (inl tt)) (k_svals (cls E cid))
  /\ forall name methods, In (name, methods) (k_fvals (cls E cid)) ->
       exists f v, In (name, f) (k_comps (cls E cid)) /\ reads E cid vals name (inl v) /\ accepts (conf f) v
         /\ Forall (fun q => struct_answers E cid vals (q v) (inl tt)) methods.
Proof.
  intros (Hw & _) H. apply struct_dump_iff in H. destruct H as (all & parts & [Hf Hs] & _). split.
  - eapply Forall_impl; [|exact Hs]. intros q Hq. apply struct_answers_iff; [auto|exists n; exact Hq].
  - intros name methods Hi. destruct (Hf _ _ Hi) as (f & v & Ha & Hg & Hacc & Hm). exists f, v.
    split; [apply assoc_in; auto|]. split; [apply reads_iff; [auto|exists n; exact Hg]|]. split; auto.
    eapply Forall_impl; [|exact Hm]. intros q Hq. apply struct_answers_iff; [auto|exists n; exact Hq].
Qed.

Lemma present_load E n f ctx d s p : dict_answers d (c_present (conf f) ctx (Some s)) p ->
  field_from_stream E n f ctx d s
  = match p with
    | inl true => field_from_stream E n (regardless f) ctx d s
    | inl false => (s, Ok (c_npv (conf f)))
    | inr e => (s, Raise e)
    end.
Proof.
  intros H. apply dict_answers_iff in H. destruct f as [c k]. cbn [conf] in H.
  unfold field_from_stream, field_from_stream_with, from_stream_with. cbn [conf]. rewrite H.
  destruct p as [[|]|e]; cbn [ended]; auto. destruct c. destruct n; reflexivity.
Qed.
