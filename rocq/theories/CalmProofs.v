(** Proofs about structs whose changing callables do not matter (C111). *)
From Coq Require Import Lia.
From Verif Require Import Tac FieldProofs FieldMore StructProofs ToDictProofs DumpErrors RoundProofs MoodProofs MoodLoadProofs.
From Verif Require Export SpecCalm.

Lemma gives_bind_ok {A B} (m : timed A) (k : A -> timed B) r k' : gives m r -> (forall a, r = Ok a -> gives (k a) (k' a)) ->
  gives (tdo x <- m; k x) (do x <- r; k' x).
Proof.
  intros Hm Hk t. unfold tbind. specialize (Hm t). destruct (m t) as [t' [a|e|]]; cbn [snd] in Hm; subst r; cbn [bind snd]; [apply Hk; reflexivity|reflexivity|reflexivity].
Qed.

Lemma gives_map_in {A B} (k : A -> timed B) k' l : (forall a, In a l -> gives (k a) (k' a)) -> gives (t_map k l) (mapM k' l).
Proof.
  intros Hk. induction l as [|x l IH]; [apply gives_ret|]. cbn [t_map mapM]. apply gives_bind; [apply Hk; left; auto|]. intros y.
  apply gives_bind; [apply IH; intros a Ha; apply Hk; right; auto|]. intros ys. apply gives_ret.
Qed.

Section Calm.
Variable E : env.
Variable mood : nat -> fconf -> fconf.
Hypothesis Hmood : moody mood.
Hypothesis Hpres : presence_settled mood.

Lemma uncalled_fallback t c : uncalled c -> fallback_value (mood t c) = fallback_value c.
Proof.
  intros (Hf & Hc). destruct (Hmood t c) as (_ & _ & Hd & _ & _ & _ & _ & _ & Hfac & Hcom).
  unfold fallback_value, default_query. rewrite Hd, (proj2 Hfac Hf), Hf. destruct (is_undefined (c_default c)) eqn:Hu; cbn [negb]; [|reflexivity].
  destruct Hc as [Hc|Hc]; [discriminate|]. rewrite (proj2 Hcom Hc), Hc. reflexivity.
Qed.

Lemma calm_stored t c name mem get keys : c_name c = Some name -> uncalled c \/ mem name = true ->
  run_q mem get keys (stored_or_fallback (mood t c)) = run_q mem get keys (stored_or_fallback c).
Proof.
  intros Hn H. unfold stored_or_fallback. destruct (Hmood t c) as (-> & _). rewrite Hn. cbn [run_q].
  destruct H as [H| -> ]; [|reflexivity]. rewrite (uncalled_fallback t c H). reflexivity.
Qed.

Lemma calm_compute mem get keys (runv : query value -> timed value) (runb : query bool -> timed bool) c name ctx :
  c_name c = Some name -> uncalled c \/ mem name = true ->
  (forall q, gives (runv q) (run_q mem get keys q)) -> (forall q, gives (runb q) (run_q mem get keys q)) ->
  gives (t_compute_value mood runv runb c ctx) (run_q mem get keys (compute_value_for_dump c ctx)).
Proof.
  intros Hn Hc Hv Hb t. unfold compute_value_for_dump. rewrite run_qbind. unfold t_compute_value, tbind, call. rewrite <- (calm_stored t c name mem get keys Hn Hc).
  specialize (Hv (stored_or_fallback (mood t c)) (S t)). destruct (runv (stored_or_fallback (mood t c)) (S t)) as [t' [v|e|]]; cbn [snd] in Hv; rewrite <- Hv; [|reflexivity|reflexivity].
  destruct (is_not_present v); [reflexivity|]. rewrite run_qbind.
  rewrite Hpres. specialize (Hb (c_present c ctx None) (S t')). destruct (runb (c_present c ctx None) (S t')) as [t2 [p|e|]]; cbn [snd] in Hb; rewrite <- Hb; [|reflexivity|reflexivity].
  destruct p; [|reflexivity]. cbn [negb]. destruct (is_undefined v); reflexivity.
Qed.

Lemma calm_dict d c name ctx : c_name c = Some name -> uncalled c \/ dmem d name = true ->
  gives (t_compute_value mood (t_run_dict d) (t_run_dict d) c ctx) (run_dict d (compute_value_for_dump c ctx)).
Proof. intros Hn Hc. apply (calm_compute _ _ _ _ _ _ name); auto; intros q t; rewrite t_run_dict_pure; reflexivity. Qed.

(** The fields of a dictionary, written as they are in it. *)
Lemma calm_dump_fields n ctx d fs : bound fs -> (forall name f, In (name, f) fs -> uncalled (conf f) \/ dmem d name = true) ->
  forall t, t_dump_fields E mood n fs ctx d t = dump_fields (do_dump E n) fs ctx d.
Proof.
  induction fs as [|[name f] fs IH]; intros Hb Hc t; [reflexivity|]. cbn [t_dump_fields dump_fields].
  assert (Hn : c_name (conf f) = Some name) by (destruct Hb as [_ Hb]; inversion Hb; auto).
  pose proof (calm_dict d (conf f) name ctx Hn (Hc name f (or_introl eq_refl)) t) as H. destruct (t_compute_value _ _ _ _ _ t) as [t' r]. cbn [snd] in H. rewrite <- H.
  destruct r as [v|e|]; [|reflexivity|reflexivity]. rewrite !dbind_ok. rewrite IH; [reflexivity|exact (bound_tail _ _ Hb)|].
  intros nm g Hi. apply Hc. right. auto.
Qed.

Section Instance.
Variable cid : nat.
Variable vals : dict.
Hypothesis Hi : instance_of E cid vals.
Hypothesis Hset : all_set E cid vals.

Lemma calm_bound : bound (comps E cid).
Proof. apply well_formed_bound. apply Hi. Qed.

Lemma calm_mem name f : In (name, f) (comps E cid) -> uncalled (conf f) \/ struct_mem vals name = true.
Proof.
  intros Hin. destruct (Hset name f Hin) as [H|(_ & v & Hv & Hu)]; [auto|]. right. apply struct_mem_in, struct_keys_in; [apply Hi|]. eauto.
Qed.

Lemma calm_get : forall n name, gives (t_struct_get E mood n cid vals name) (struct_get E n cid vals name).
Proof.
  induction n as [|n IH]; intros name; cbn [t_struct_get struct_get]; destruct (assoc (comps E cid) name) as [f|] eqn:Ha; try apply gives_ret;
    destruct (oget vals (name_of f)) as [v|] eqn:Hg; try apply gives_ret.
  apply assoc_in in Ha. destruct (bound_assoc _ _ _ calm_bound Ha) as [_ Hn].
  apply (calm_compute _ _ _ _ _ _ name); [exact Hn|exact (calm_mem name f Ha)| |]; intros q; apply gives_run_q; auto.
Qed.

Lemma calm_run {A} n (q : query A) : gives (t_run_struct E mood n cid vals q) (run_struct E n cid vals q).
Proof. apply gives_run_q. apply calm_get. Qed.

Lemma calm_methods n vs v : gives (t_run_method_validators E mood n cid vals vs v) (run_method_validators E n cid vals vs v).
Proof. induction vs as [|q vs IH]; [apply gives_ret|]. cbn [t_run_method_validators run_method_validators]. apply gives_bind; [apply calm_run|auto]. Qed.

Lemma calm_validate_fields n fvs : gives (t_validate_fields E mood n cid vals fvs) (validate_fields E n cid vals fvs).
Proof.
  induction fvs as [|[name vs] fvs IH]; [apply gives_ret|]. cbn [t_validate_fields validate_fields].
  destruct (assoc (comps E cid) name) as [f|]; [|apply gives_ret].
  apply gives_bind; [apply calm_get|]. intros v. apply gives_bind; [apply gives_ret|]. intros _.
  apply gives_bind; [apply calm_methods|auto].
Qed.

Lemma calm_struct_validators n vs : gives (t_run_struct_validators E mood n cid vals vs) (run_struct_validators E n cid vals vs).
Proof. induction vs as [|q vs IH]; [apply gives_ret|]. cbn [t_run_struct_validators run_struct_validators]. apply gives_bind; [apply calm_run|auto]. Qed.

Lemma calm_validate n : gives (t_validate_contents E mood n cid vals) (validate_contents E n cid vals).
Proof. apply gives_bind; [apply calm_validate_fields|]. intros _. apply calm_struct_validators. Qed.

Lemma calm_possible n fs : incl fs (comps E cid) -> forall dct, gives (t_possible_values E mood n cid vals fs dct) (possible_values E n cid vals fs dct).
Proof.
  induction fs as [|[name f] fs IH]; intros Hincl dct; [apply gives_ret|]. cbn [t_possible_values possible_values]. intros t.
  assert (Hin : In (name, f) (comps E cid)) by (apply Hincl; left; auto). destruct (bound_assoc _ _ _ calm_bound Hin) as [_ Hn].
  pose proof (calm_compute _ _ _ (t_run_struct E mood n cid vals) (t_run_struct E mood n cid vals) (conf f) name VNone Hn (calm_mem name f Hin)
                (fun q => calm_run n q) (fun q => calm_run n q) t) as H.
  assert (Hincl' : incl fs (comps E cid)) by (intros x Hx; apply Hincl; right; auto).
  unfold run_struct at 1. destruct (t_compute_value _ _ _ _ _ t) as [t' [v|e|]]; cbn [snd] in H; rewrite <- H; [apply IH; auto| |reflexivity].
  destruct (is_binobj_Error e); [apply IH; auto|reflexivity].
Qed.

Lemma mapM_first {B} (k : string -> res (string * B)) : (forall x y, k x = Ok y -> fst y = x) -> forall l ys, mapM k l = Ok ys -> map fst ys = l.
Proof.
  intros Hk. induction l as [|x l IH]; intros ys H; cbn [mapM] in H; [injection H as <-; reflexivity|].
  destruct (k x) as [y|e|] eqn:Hx; try discriminate. cbn [bind] in H. destruct (mapM k l) as [zs|e|]; try discriminate. cbn [bind] in H.
  injection H as <-. cbn [map]. rewrite (Hk _ _ Hx), (IH zs eq_refl). reflexivity.
Qed.

Lemma whatever_has n dct : to_dict_whatever_possible E n cid vals = Ok dct -> forall name, In name (struct_keys vals) -> dmem dct name = true.
Proof.
  unfold to_dict_whatever_possible. destruct (possible_values E n cid vals (comps E cid) []) as [d|e|]; try discriminate. cbn [bind]. cbv zeta.
  intros H name Hn. match type of H with (do first <- mapM ?k ?l; _) = _ => destruct (mapM k l) as [first|e|] eqn:Hm end; try discriminate.
  cbn [bind] in H. injection H as <-. apply dmem_in. unfold dkeys. rewrite map_app. apply in_or_app. left.
  match type of Hm with mapM ?k _ = _ => assert (Hk : forall x y, k x = Ok y -> fst y = x) end.
  { intros x y Hx. cbv beta in Hx. destruct (dget d x) as [v|]; [apply (f_equal (fun r => match r with Ok z => fst z | _ => x end)) in Hx; symmetry; exact Hx|].
    destruct (struct_get E n cid vals x) as [v|e|]; try discriminate. apply (f_equal (fun r => match r with Ok z => fst z | _ => x end)) in Hx. symmetry. exact Hx. }
  rewrite (mapM_first _ Hk _ _ Hm). exact Hn.
Qed.

Lemma calm_to_dict n keep : gives (t_to_dict E mood n cid vals keep) (to_dict E n cid vals keep).
Proof.
  unfold t_to_dict, to_dict. apply gives_bind_ok.
  - unfold t_to_dict_whatever_possible, to_dict_whatever_possible. apply gives_bind; [apply calm_possible; apply incl_refl|]. intros dct. cbv zeta.
    apply gives_bind; [|intros first; apply gives_ret]. apply gives_map. intros k. destruct (dget dct k); [apply gives_ret|].
    apply gives_bind; [apply calm_get|]. intros v. apply gives_ret.
  - intros dct Hd. apply gives_bind.
    + apply gives_map_in. intros [name f] Hin. apply filter_In in Hin as [Hin Hm]. destruct (bound_assoc _ _ _ calm_bound Hin) as [_ Hn].
      apply gives_bind; [|intros v; apply gives_ret]. apply (calm_dict _ _ name); [exact Hn|].
      destruct (calm_mem name f Hin) as [H|H]; [auto|]. apply struct_mem_in in H. right. exact (whatever_has n dct Hd name H).
    + intros upd. cbv zeta. apply gives_bind; [apply gives_ret|]. intros d. apply gives_ret.
Qed.

Lemma calm_struct n ctx t : t_struct_to_stream E mood n cid vals ctx t = struct_to_stream E n cid vals ctx.
Proof.
  unfold t_struct_to_stream, struct_to_stream, struct_to_stream_with.
  pose proof (gives_bind _ (fun _ => t_to_dict E mood n cid vals false) _ _ (calm_validate n) (fun _ => calm_to_dict n false) t) as H.
  destruct ((tdo _ <- t_validate_contents E mood n cid vals; t_to_dict E mood n cid vals false) t) as [t' r] eqn:Hr. cbn [snd] in H. rewrite H. clear H.
  destruct (validate_contents E n cid vals) as [[]|e|] eqn:Hv; cbn [bind]; [|reflexivity|reflexivity]. rewrite dbind_ok.
  destruct (to_dict E n cid vals false) as [all|e|] eqn:Ha; [|reflexivity|reflexivity]. rewrite !dbind_ok. apply calm_dump_fields; [apply calm_bound|].
  intros name f Hin. destruct (Hset name f Hin) as [Hu|(Hd & _)]; [auto|]. right.
  pose proof (calm_to_dict n false 0%nat) as Ht. rewrite Ha in Ht. destruct (t_to_dict E mood n cid vals false 0%nat) as [t2 r2] eqn:Hr2. cbn [snd] in Ht. subst r2.
  exact (t_to_dict_has E mood n cid vals _ _ _ calm_bound Hr2 name f Hin Hd).
Qed.
End Instance.

(** ** Loading *)
Lemma at_time_settled t f : at_time mood t f = f.
Proof. unfold at_time. rewrite Hpres. destruct f as [[] k]. reflexivity. Qed.

Lemma in_turn_settled fs : forall t, in_turn mood t fs = fs.
Proof. induction fs as [|[name f] fs IH]; intros t; [reflexivity|]. cbn [in_turn]. rewrite at_time_settled, IH. reflexivity. Qed.

Lemma settled_load n cid ctx t s : well_formed (cls E cid) ->
  snd (t_struct_from_stream E mood n cid ctx [] t s) = struct_from_stream E n cid ctx [] s.
Proof. intros Hwf. rewrite struct_in_turn by auto. rewrite in_turn_settled. reflexivity. Qed.

(** ** The round trip *)
Lemma moody_roundtrip n last cid vals ctx t bs t1 t2 d : t_struct_to_stream E mood n cid vals ctx t = (bs, Ok tt) ->
  t_validate_contents E mood n cid vals t = (t1, Ok tt) -> t_to_dict E mood n cid vals false t1 = (t2, Ok d) -> holds_struct E last cid d ->
  exists vals' d', instance_of E cid vals' /\ all_set E cid vals' /\ same_data (VDict d) (VDict d')
    /\ (forall t' ctx' pre suf, (last = true -> suf = []) -> exists N, forall n', (N <= n')%nat ->
          snd (t_struct_from_stream E mood n' cid ctx' [] t' (at_data pre bs suf)) = (after_data pre bs suf, Ok vals'))
    /\ exists N, forall n' t', (N <= n')%nat -> snd (t_to_dict E mood n' cid vals' false t') = Ok d'.
Proof.
  intros Hs Hv Htd Hh. destruct (holds_kept _ _ _ _ Hh) as (Hc & Hf & Hk). pose proof Hc as (Hwf & _).
  pose proof (well_formed_bound _ Hwf) as Hb.
  assert (Hun : forall name f, In (name, f) (k_comps (cls E cid)) -> c_discard (conf f) = true -> uncalled (conf f)).
  { intros name f Hin Hd. destruct (Hk name f Hin) as [(_ & _ & _ & Hfac & Hdef & _)|(Hd' & _)]; [split; auto|congruence]. }
  unfold t_struct_to_stream, tbind in Hs. rewrite Hv, Htd, dbind_ok, calm_dump_fields in Hs.
  2: exact Hb.
  2: { intros name f Hin. destruct (c_discard (conf f)) eqn:Hd; [left; eauto|]. right. apply dmem_in. apply Hf. eauto. }
  apply dump_fields_ok in Hs. destruct Hs as (parts & Hparts & ->).
  destruct (proj2 (proj2 (suits_rt E)) last cid d Hh n ctx parts Hparts) as (vals' & Hla & Hkv & Hgo).
  destruct (converts E _ _ Hla) as (N & u & HN & Hsame & _).
  assert (Hex : exists N' d', N = S N' /\ u = VDict d' /\ to_dict E N' cid vals' false = Ok d').
  { destruct N as [|N']; [discriminate|]. exists N'.
    assert (Heq : recursive_to_dicts E (S N') (VStruct cid vals')
               = do d <- to_dict E N' cid vals' false; Ok (VDict d)) by reflexivity.
    rewrite Heq in HN. destruct (to_dict E N' cid vals' false) as [d'| |]; try discriminate.
    injection HN as <-. eauto. }
  destruct Hex as (N' & d' & -> & -> & Hd').
  assert (Hset : all_set E cid vals').
  { inversion Hla as [ | |cid' m' vals'' _ _ _ Hent Hval]; subst. intros name f Hin.
    destruct (c_discard (conf f)) eqn:Hd; [left; eauto|]. right. split; [auto|].
    destruct (Hent name f Hin) as [He|[He|He]].
    - destruct He as (Hd0 & _). congruence.
    - destruct He as (_ & _ & _ & y & Hy & Hu). exists y. split; [auto|]. intros ->. discriminate.
    - destruct He as (_ & _ & x & y & Hx & Hy & Hne). exists y. split; [auto|].
      destruct (loaded_data _ _ _ (Hval _ _ _ Hx Hne Hy)) as [Hu _]. intros ->. discriminate. }
  exists vals', d'. split; [exact Hkv|]. split; [exact Hset|]. split; [exact Hsame|]. split.
  - intros t' ctx' pre suf Hsuf. destruct (Hgo ctx' pre suf Hsuf) as (N & HN1). exists N. intros n' Hn'. rewrite settled_load by auto. auto.
  - exists N'. intros n' t' Hn'. rewrite (calm_to_dict cid vals' Hkv Hset n' false t').
    apply (rle_ok _ _ _ (to_dict_mono E N' n' cid vals' false Hn') Hd').
Qed.
End Calm.
