(** Proofs about loading with [present] functions that change their minds (C109). *)
From Coq Require Import Lia.
From Verif Require Import Tac FieldProofs FieldMore StructProofs ToDictProofs ForwardProofs HistoryProofs AskProofs.
From Verif Require Export SpecMoodLoads.

Section MoodLoadProofs.
Variable E : env.
Variable mood : nat -> fconf -> fconf.

Lemma load_in_turn n ctx : forall fs d t s, snd (t_load_fields E mood n fs ctx d t s) = load_fields E (do_load E n) n (in_turn mood t fs) ctx d s.
Proof.
  induction fs as [|[name f] fs IH]; intros d t s; [reflexivity|]. cbn [t_load_fields in_turn load_fields t_field_from_stream]. unfold t_field_from_stream, lbind.
  unfold field_from_stream. destruct (field_from_stream_with E (do_load E n) n (at_time mood t f) ctx d s) as [s' [v|e|]]; cbn [snd]; auto.
Qed.

Lemma partial_in_turn n last ctx : forall fs d t s,
  snd (t_partial_load_fields E mood n fs last ctx d t s) = partial_load_fields E n (in_turn mood t fs) last ctx d s.
Proof.
  induction fs as [|[name f] fs IH]; intros d t s; [reflexivity|]. cbn [t_partial_load_fields in_turn partial_load_fields]. unfold t_field_from_stream.
  destruct (field_from_stream E n (at_time mood t f) ctx d s) as [s' [v|e|]]; auto.
  - change (conf (at_time mood t f)) with (conf (at_time mood t f)). cbn [at_time conf c_discard cname name_of c_name].
    unfold cname, name_of in *. cbn [at_time conf c_name]. destruct (match last with Some l => _ | None => false end); [reflexivity|apply IH].
  - destruct (is_UnexpectedEOFError e); auto. destruct last; auto.
Qed.

(** Everything is set, so validating calls nothing. *)
Section Set_.
Variables (n cid : nat) (vals : dict).
Hypothesis Hwf : well_formed (cls E cid).
Hypothesis Hset : forall name, In name (map fst (k_comps (cls E cid))) -> In name (dkeys vals).

Lemma set_get name t : t_struct_get E mood n cid vals name t = (t, struct_get E n cid vals name).
Proof.
  assert (H : forall f, assoc (comps E cid) name = Some f -> exists v, oget vals (name_of f) = Some v).
  { intros f Hf. change (comps E cid) with (k_comps (cls E cid)) in Hf. apply assoc_in in Hf as Hi. destruct (bound_assoc _ _ _ (well_formed_bound _ Hwf) Hi) as [_ Hn].
    unfold name_of. rewrite Hn. cbn [oget]. apply ToDictProofs.dget_in. apply Hset. apply in_map_iff. exists (name, f). auto. }
  destruct n; cbn [t_struct_get struct_get]; destruct (assoc (comps E cid) name) as [f|] eqn:Hf; auto;
    destruct (H f eq_refl) as [v ->]; reflexivity.
Qed.

Lemma set_run {A} (q : query A) t : t_run_struct E mood n cid vals q t = (t, run_struct E n cid vals q).
Proof.
  unfold t_run_struct, run_struct. revert t. induction q as [a|e|nm k IH|nm k IH|k IH]; intros t; cbn [t_run_q run_q]; auto.
  rewrite set_get. destruct (struct_get E n cid vals nm); auto.
Qed.

Lemma set_methods vs v t : t_run_method_validators E mood n cid vals vs v t = (t, run_method_validators E n cid vals vs v).
Proof.
  induction vs as [|q vs IH]; [reflexivity|]. cbn [t_run_method_validators run_method_validators]. unfold tbind. rewrite set_run.
  destruct (run_struct E n cid vals (q v)); cbn [bind]; auto.
Qed.

Lemma set_fields fvs t : t_validate_fields E mood n cid vals fvs t = (t, validate_fields E n cid vals fvs).
Proof.
  induction fvs as [|[name vs] fvs IH]; [reflexivity|]. cbn [t_validate_fields validate_fields].
  destruct (assoc (comps E cid) name) as [f|]; [|reflexivity]. unfold tbind, tret. rewrite set_get.
  destruct (struct_get E n cid vals name) as [v|e|]; cbn [bind]; auto.
  destruct (run_validators (c_validators (conf f)) v); cbn [bind]; auto. rewrite set_methods.
  destruct (run_method_validators E n cid vals vs v); cbn [bind]; auto.
Qed.

Lemma set_struct_validators vs t : t_run_struct_validators E mood n cid vals vs t = (t, run_struct_validators E n cid vals vs).
Proof.
  induction vs as [|q vs IH]; [reflexivity|]. cbn [t_run_struct_validators run_struct_validators]. unfold tbind. rewrite set_run.
  destruct (run_struct E n cid vals q); cbn [bind]; auto.
Qed.

Lemma set_validate t : t_validate_contents E mood n cid vals t = (t, validate_contents E n cid vals).
Proof.
  unfold t_validate_contents, validate_contents, tbind. rewrite set_fields.
  destruct (validate_fields E n cid vals (k_fvals (cls E cid))); cbn [bind]; auto. apply set_struct_validators.
Qed.
End Set_.

Lemma in_turn_names t fs : map fst (in_turn mood t fs) = map fst fs.
Proof. revert t. induction fs as [|[name f] fs IH]; intros t; [reflexivity|]. cbn. f_equal. auto. Qed.

Lemma in_turn_length t fs : length (in_turn mood t fs) = length fs.
Proof. revert t. induction fs as [|[name f] fs IH]; intros t; [reflexivity|]. cbn. f_equal. auto. Qed.

(** Loading is loading with the functions as they are, each at its turn, whatever the outcome. *)
Lemma struct_in_turn n cid ctx t s : well_formed (cls E cid) ->
  snd (t_struct_from_stream E mood n cid ctx [] t s)
  = (ldo results <- load_fields E (do_load E n) n (in_turn mood t (k_comps (cls E cid))) ctx [];
     ldo vals <- llift (struct_init E cid results);
     ldo _ <- llift (validate_contents E n cid vals);
     lret (delete_discard (k_comps (cls E cid)) vals)) s.
Proof.
  intros Hwf. unfold t_struct_from_stream. change (comps E cid) with (k_comps (cls E cid)). unfold lbind, llift, lret.
  pose proof (load_in_turn n ctx (k_comps (cls E cid)) [] t s) as H.
  destruct (t_load_fields E mood n (k_comps (cls E cid)) ctx [] t s) as [t' [s' r]]. cbn [snd] in H. rewrite <- H. symmetry in H.
  destruct r as [results|e|]; cbn [snd]; auto.
  destruct (struct_init E cid results) as [vals|e|] eqn:Hi; cbn [snd]; auto.
  apply init_ok_iff in Hi as [-> _]. apply load_fields_iff in H.
  rewrite set_validate; auto.
  - destruct (validate_contents E n cid results); reflexivity.
  - intros name Hn. apply loads_keys in H as (_ & _ & _ & Hk & _). apply Hk. right. rewrite in_turn_names. auto.
Qed.

Lemma field_in_turn n f ctx d t s s' v : field_from_stream E n (at_time mood t f) ctx d s = (s', Ok v)
  <-> exists there, dict_answers d (c_present (mood t (conf f)) ctx (Some s)) (inl there) /\ taken E n f ctx d there s s' v.
Proof.
  destruct (dict_answers_total d (c_present (mood t (conf f)) ctx (Some s))) as [x Hx].
  rewrite (present_load E n (at_time mood t f) ctx d s x Hx). change (regardless (at_time mood t f)) with (regardless f).
  change (c_npv (conf (at_time mood t f))) with (c_npv (conf f)). split.
  - intros H. destruct x as [[|]|e]; [exists true|exists false|discriminate]; split; auto. injection H as <- <-. split; auto.
  - intros (there & Ht & H). rewrite (dict_answers_one _ _ _ _ Hx Ht). destruct there; cbn [taken] in H; auto. destruct H as [-> ->]. auto.
Qed.

Lemma loads_in_turn n ctx : forall fs t d s d' s', NoDup (map fst fs) -> (forall name, In name (map fst fs) -> ~ In name (dkeys d)) ->
  loads E n ctx (in_turn mood t fs) d s d' s' <-> taken_in_turn E mood n ctx t fs d s d' s'.
Proof.
  induction fs as [|[name f] fs IH]; intros t d s d' s' Hn Hd; cbn [in_turn].
  - split; intros H; inversion H; subst; constructor.
  - inversion Hn as [|x l Hx Hl]; subst. cbn [map fst] in *.
    assert (Hm : dmem d name = false).
    { destruct (dmem d name) eqn:Hm; auto. apply dmem_in in Hm. exfalso. apply (Hd name); auto. left. reflexivity. }
    assert (Hd' : forall v x, In x (map fst fs) -> ~ In x (dkeys (d ++ [(name, v)]))).
    { intros v x Hi Hk. unfold dkeys in Hk. rewrite map_app in Hk. apply in_app_or in Hk as [Hk|[<-|[]]]; [|auto]. apply (Hd x); auto. right. auto. }
    split; intros H.
    + inversion H as [|nm g gs d0 s0 v s1 d1 s2 Hf Hr]; subst. rewrite Hm in Hr. apply field_in_turn in Hf as (there & Ht & Hf).
      apply IH in Hr; auto. econstructor; eauto.
    + inversion H as [|t0 nm g gs d0 s0 there v s1 d1 s2 Ht Hf Hr]; subst. apply IH in Hr; auto.
      econstructor; [apply field_in_turn; eauto|]. rewrite Hm. exact Hr.
Qed.

(** One call for each field. *)
Lemma load_calls n ctx : forall fs d t s t' s' r, t_load_fields E mood n fs ctx d t s = (t', (s', Ok r)) -> t' = (t + length fs)%nat.
Proof.
  induction fs as [|[name f] fs IH]; intros d t s t' s' r H; cbn [t_load_fields] in H.
  - injection H as <- _ _. cbn. lia.
  - unfold t_field_from_stream in H. destruct (field_from_stream E n (at_time mood t f) ctx d s) as [s1 [v|e|]]; try discriminate.
    apply IH in H. cbn [length]. lia.
Qed.

Lemma struct_taken n cid ctx t s s' vals : well_formed (cls E cid) ->
  snd (t_struct_from_stream E mood n cid ctx [] t s) = (s', Ok vals)
  <-> exists d, taken_in_turn E mood n ctx t (k_comps (cls E cid)) [] s d s' /\ validated E n cid d
        /\ vals = filter (fun kv => negb (discarded (k_comps (cls E cid)) (fst kv))) d.
Proof.
  intros Hwf. rewrite struct_in_turn by auto. unfold lbind, llift, lret.
  assert (Hnd : NoDup (map fst (k_comps (cls E cid)))) by (destruct Hwf; auto).
  destruct (load_fields E (do_load E n) n (in_turn mood t (k_comps (cls E cid))) ctx [] s) as [s1 [d|e|]] eqn:Hl.
  2, 3: split; [discriminate|]; intros (d & Hd & _); apply loads_in_turn in Hd; auto; apply load_fields_iff in Hd; congruence.
  pose proof Hl as Hl'. apply load_fields_iff in Hl'. destruct (loads_keys _ _ _ _ _ _ _ _ Hl') as (new & Hd & Hi & Hk & Hn).
  assert (Hinit : struct_init E cid d = Ok d).
  { apply init_ok_iff. split; auto. intros x Hx. apply Hk in Hx. destruct Hx as [[]|Hx]. rewrite in_turn_names in Hx. auto. }
  rewrite Hinit. split.
  - intros H. destruct (validate_contents E n cid d) as [[]|e|] eqn:Hv; try discriminate. injection H as <- <-. exists d.
    split; [apply loads_in_turn; auto|]. split; [apply validate_contents_iff; auto|].
    apply delete_discard_filter; [destruct Hwf as (_ & Hb & _); auto|]; apply Hn; constructor.
  - intros (d' & Ht & Hv & ->). apply loads_in_turn in Ht; auto. apply load_fields_iff in Ht. rewrite Hl in Ht. injection Ht as -> ->.
    apply validate_contents_iff in Hv. rewrite Hv. f_equal. f_equal. apply delete_discard_filter; [destruct Hwf as (_ & Hb & _); auto|]; apply Hn; constructor.
Qed.

Lemma struct_calls n cid ctx t s t' s' vals : well_formed (cls E cid) ->
  t_struct_from_stream E mood n cid ctx [] t s = (t', (s', Ok vals)) -> t' = (t + length (k_comps (cls E cid)))%nat.
Proof.
  intros Hwf H. unfold t_struct_from_stream in H. change (comps E cid) with (k_comps (cls E cid)) in H.
  pose proof (load_in_turn n ctx (k_comps (cls E cid)) [] t s) as Hl.
  destruct (t_load_fields E mood n (k_comps (cls E cid)) ctx [] t s) as [t1 [s1 r]] eqn:Hr. cbn [snd] in Hl.
  destruct r as [results|e|]; try discriminate. apply load_calls in Hr.
  destruct (struct_init E cid results) as [v|e|] eqn:Hi; try discriminate. apply init_ok_iff in Hi as [-> _].
  symmetry in Hl. apply load_fields_iff in Hl. rewrite set_validate in H; auto.
  - destruct (validate_contents E n cid results); try discriminate. injection H as <- _ _. auto.
  - intros name Hn. apply loads_keys in Hl as (_ & _ & _ & Hk & _). apply Hk. right. rewrite in_turn_names. auto.
Qed.

Lemma taken_forward n ctx t fs d s d' s' : taken_in_turn E mood n ctx t fs d s d' s' -> forward s s'.
Proof.
  induction 1 as [t d s|t name f fs d s there v s1 d' s' Ht Hv Hl IH]; [apply forward_refl|].
  eapply forward_trans; [|exact IH]. destruct there; [eapply field_load_forward; exact Hv|]. destruct Hv as [-> _]. apply forward_refl.
Qed.

Lemma taken_values n ctx t fs d s d' s' : taken_in_turn E mood n ctx t fs d s d' s' -> exists new, d' = d ++ new /\ dkeys new = map fst fs.
Proof.
  induction 1 as [t d s|t name f fs d s there v s1 d' s' Ht Hv Hl IH]; [exists []; rewrite app_nil_r; auto|].
  destruct IH as (new & -> & Hk). exists ((name, v) :: new). rewrite <- app_assoc. split; [reflexivity|]. cbn. f_equal. exact Hk.
Qed.

(** Every value that is loaded has been accepted. *)
Lemma taken_accepted n cid ctx t s s' vals name f v vs : well_formed (cls E cid) ->
  snd (t_struct_from_stream E mood n cid ctx [] t s) = (s', Ok vals) -> In (name, f) (k_comps (cls E cid)) ->
  dget vals name = Some v -> In (name, vs) (k_fvals (cls E cid)) ->
  accepts (conf f) v /\ exists d, vals = filter (fun kv => negb (discarded (k_comps (cls E cid)) (fst kv))) d
    /\ Forall (fun q => run_struct E n cid d (q v) = Ok tt) vs /\ Forall (fun q => run_struct E n cid d q = Ok tt) (k_svals (cls E cid)).
Proof.
  intros Hwf H Hf Hv Hvs. apply struct_taken in H as (d & Ht & [Hm Hs] & ->); auto.
  destruct (Hm _ _ Hvs) as (f' & v' & Ha & Hg & Hacc & Hall).
  destruct (bound_assoc _ _ _ (well_formed_bound _ Hwf) Hf) as [Ha' Hn]. rewrite Ha in Ha'. injection Ha' as ->.
  assert (Hd : dget d name = Some v).
  { rewrite (dget_filter_key (fun k => negb (discarded (k_comps (cls E cid)) k))) in Hv. destruct (discarded (k_comps (cls E cid)) name); [discriminate|exact Hv]. }
  assert (v' = v) as ->.
  { change (k_comps (cls E cid)) with (comps E cid) in Ha. destruct n; cbn [struct_get] in Hg; rewrite Ha in Hg; unfold name_of in Hg; rewrite Hn in Hg; cbn [oget] in Hg; rewrite Hd in Hg; congruence. }
  split; auto. exists d. auto.
Qed.

Lemma partial_load_in_turn n cid last ctx t s : snd (t_partial_load E mood n cid last ctx t s)
  = (if match last with
        | Some l => match assoc (k_comps (cls E cid)) l with Some _ => false | None => true end
        | None => false
        end
     then (s, Raise EValueErr)
     else (ldo result <- partial_load_fields E n (in_turn mood t (k_comps (cls E cid))) last ctx []; llift (struct_init E cid result)) s).
Proof.
  unfold t_partial_load. change (comps E cid) with (k_comps (cls E cid)).
  destruct (match last with Some l => _ | None => false end); [reflexivity|]. unfold lbind, llift.
  pose proof (partial_in_turn n last ctx (k_comps (cls E cid)) [] t s) as H.
  destruct (t_partial_load_fields E mood n (k_comps (cls E cid)) last ctx [] t s) as [t' [s' r]]. cbn [snd] in H. rewrite <- H.
  destruct r; reflexivity.
Qed.
End MoodLoadProofs.

(** ** Functions that do not change *)
Lemma steady_at mood t f : (forall t c, mood t c = c) -> at_time mood t f = f.
Proof. intros H. unfold at_time. rewrite H. destruct f as [c k]. destruct c. reflexivity. Qed.

Lemma steady_in_turn mood fs : (forall t c, mood t c = c) -> forall t, in_turn mood t fs = fs.
Proof. intros H. induction fs as [|[name f] fs IH]; intros t; [reflexivity|]. cbn [in_turn]. rewrite steady_at by auto. f_equal. auto. Qed.

Lemma steady_load E mood n cid ctx t s : (forall t c, mood t c = c) -> well_formed (cls E cid) ->
  snd (t_struct_from_stream E mood n cid ctx [] t s) = struct_from_stream E n cid ctx [] s.
Proof. intros H Hwf. rewrite struct_in_turn by auto. rewrite steady_in_turn by auto. reflexivity. Qed.

Lemma steady_partial E mood n cid last ctx t s : (forall t c, mood t c = c) ->
  snd (t_partial_load E mood n cid last ctx t s) = partial_load E n cid last ctx s.
Proof. intros H. rewrite partial_load_in_turn. rewrite steady_in_turn by auto. reflexivity. Qed.
