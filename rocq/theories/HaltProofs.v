(** Proofs for [PropertiesHalt]. *)
From Coq Require Import ZArith List Bool Lia String.
From Verif Require Import Base Stream Values FieldModel StructModel Spec SpecField SpecHalt
  Tac FuelProofs FieldProofs StructProofs ArrayProofs.
Import ListNotations.
Open Scope Z_scope.

Lemma renamed_set name e : renamed name e (set_field name e).
Proof. destruct e; constructor; discriminate. Qed.

Lemma renamed_fun name e x : renamed name e x -> x = set_field name e.
Proof. intros [f|f sz off|f|y H1 H2 H3]; auto. destruct y; auto; exfalso;
  [eapply H1|eapply H2|eapply H3]; reflexivity. Qed.

Lemma halt_sound E n comp h ctx d cnt nm : forall fuel vs s s' v,
  array_load fuel (array_halt cnt (Some h) nm ctx d) (field_from_stream E n comp ctx d) vs s = (s', Ok v) ->
  exists out, v = VList out /\ halted E comp h ctx d vs s s' out.
Proof.
  induction fuel as [|fuel IH]; intros vs s s' v H; [discriminate|]. cbn [array_load array_halt] in H.
  destruct (h s vs ctx d) as [[[|] vs']|e|] eqn:Hh; try discriminate.
  - injection H as <- <-. exists vs'. split; auto. constructor. auto.
  - destruct (field_from_stream E n comp ctx d s) as [s1 [w|e|]] eqn:Hl; try discriminate.
    apply IH in H. destruct H as (out & -> & H). exists out. split; auto.
    assert (Hld : loads_to E comp ctx d s s1 w) by (exists n; auto).
    destruct (is_not_present w) eqn:Hnp.
    + destruct w; try discriminate Hnp. eapply halted_skip; eauto.
    + eapply halted_take; eauto. intros ->. discriminate.
Qed.

Lemma halt_complete E comp h ctx d cnt nm vs s s' out : halted E comp h ctx d vs s s' out ->
  exists k, forall fuel n, (k <= fuel)%nat -> (k <= n)%nat ->
  array_load fuel (array_halt cnt (Some h) nm ctx d) (field_from_stream E n comp ctx d) vs s
    = (s', Ok (VList out)).
Proof.
  induction 1 as [vs s out Hh|vs s vs' v s1 s' out Hh [k1 Hl] Hnp _ [k2 IH]|vs s vs' s1 s' out Hh [k1 Hl] _ [k2 IH]].
  - exists 1%nat. intros [|fuel] n Hf Hn; [lia|]. cbn [array_load array_halt]. rewrite Hh. auto.
  - exists (S (Nat.max k1 k2)). intros [|fuel] n Hf Hn; [lia|]. cbn [array_load]. unfold array_halt at 1.
    rewrite Hh. rewrite (loads_to_mono E k1 n _ _ _ _ _ _ ltac:(lia) Hl).
    replace (is_not_present v) with false by (destruct v; auto; contradiction). apply IH; lia.
  - exists (S (Nat.max k1 k2)). intros [|fuel] n Hf Hn; [lia|]. cbn [array_load]. unfold array_halt at 1.
    rewrite Hh. rewrite (loads_to_mono E k1 n _ _ _ _ _ _ ltac:(lia) Hl). cbn [is_not_present]. apply IH; lia.
Qed.

Lemma halt_check_loads E c comp cnt h ctx d s s' v : always_present c ->
  c_null c = VUndefined -> c_const c = VUndefined ->
  loads_to E (Field c (KArray comp cnt (Some h))) ctx d s s' v
  <-> accepts c v /\ exists vs, v = VList vs /\ halted E comp h ctx d [] s s' vs.
Proof.
  intros Hp Hn Hk. split.
  - intros [n H]. apply present_load_iff in H; auto. destruct H as [H Ha]. split; auto.
    destruct n as [|n]; [discriminate|]. cbn [do_load kind] in H.
    change (field_from_stream_with E (do_load E n) n comp ctx d)
      with (field_from_stream E n comp ctx d) in H.
    apply halt_sound in H. exact H.
  - intros (Ha & vs & -> & Hel).
    destruct (halt_complete E comp h ctx d cnt (c_name c) [] s s' vs Hel) as [k Hk'].
    exists (S k). apply present_load_iff; auto. split; auto. cbn [do_load kind].
    change (field_from_stream_with E (do_load E k) k comp ctx d)
      with (field_from_stream E k comp ctx d).
    change (name_of (Field c (KArray comp cnt (Some h)))) with (c_name c).
    apply Hk'; auto.
Qed.

Lemma fails_sound E n comp h ctx d cnt nm : forall fuel vs s s' e,
  array_load fuel (array_halt cnt (Some h) nm ctx d) (field_from_stream E n comp ctx d) vs s = (s', Raise e) ->
  halt_fails E comp h ctx d vs s e.
Proof.
  induction fuel as [|fuel IH]; intros vs s s' e H; [discriminate|]. cbn [array_load array_halt] in H.
  destruct (h s vs ctx d) as [[[|] vs']|e'|] eqn:Hh; try discriminate.
  - destruct (field_from_stream E n comp ctx d s) as [s1 [w|e'|]] eqn:Hl; try discriminate.
    + apply IH in H. assert (Hld : loads_to E comp ctx d s s1 w) by (exists n; auto).
      destruct (is_not_present w) eqn:Hnp.
      * destruct w; try discriminate Hnp. eapply fails_skip; eauto.
      * eapply fails_later; eauto. intros ->. discriminate.
    + injection H as <- <-. eapply fails_element; eauto. exists n, s1. auto.
  - injection H as <- <-. apply fails_check. auto.
Qed.

Lemma raises_mono E n m f ctx d s s' e : (n <= m)%nat ->
  field_from_stream E n f ctx d s = (s', Raise e) -> field_from_stream E m f ctx d s = (s', Raise e).
Proof.
  intros Hle H. rewrite <- H. apply finished_mono; auto. rewrite H. discriminate.
Qed.

Lemma fails_complete E comp h ctx d cnt nm vs s e : halt_fails E comp h ctx d vs s e ->
  exists k s', forall fuel n, (k <= fuel)%nat -> (k <= n)%nat ->
  array_load fuel (array_halt cnt (Some h) nm ctx d) (field_from_stream E n comp ctx d) vs s
    = (s', Raise e).
Proof.
  induction 1 as [vs s e Hh|vs s vs' e Hh (k1 & s1 & Hl)|vs s vs' v s1 e Hh [k1 Hl] Hnp _ (k2 & s2 & IH)
                 |vs s vs' s1 e Hh [k1 Hl] _ (k2 & s2 & IH)].
  - exists 1%nat, s. intros [|fuel] n Hf Hn; [lia|]. cbn [array_load array_halt]. rewrite Hh. auto.
  - exists (S k1), s1. intros [|fuel] n Hf Hn; [lia|]. cbn [array_load]. unfold array_halt at 1. rewrite Hh.
    rewrite (raises_mono E k1 n _ _ _ _ _ _ ltac:(lia) Hl). auto.
  - exists (S (Nat.max k1 k2)), s2. intros [|fuel] n Hf Hn; [lia|]. cbn [array_load]. unfold array_halt at 1.
    rewrite Hh. rewrite (loads_to_mono E k1 n _ _ _ _ _ _ ltac:(lia) Hl).
    replace (is_not_present v) with false by (destruct v; auto; contradiction). apply IH; lia.
  - exists (S (Nat.max k1 k2)), s2. intros [|fuel] n Hf Hn; [lia|]. cbn [array_load]. unfold array_halt at 1.
    rewrite Hh. rewrite (loads_to_mono E k1 n _ _ _ _ _ _ ltac:(lia) Hl). cbn [is_not_present]. apply IH; lia.
Qed.

Lemma halt_check_raises E c comp cnt h ctx d s x : always_present c ->
  c_null c = VUndefined -> c_const c = VUndefined -> c_validators c = [] ->
  load_raises E (Field c (KArray comp cnt (Some h))) ctx d s x
  <-> exists e, halt_fails E comp h ctx d [] s e /\ renamed (c_name c) e x.
Proof.
  intros Hp Hn Hk Hv.
  assert (Hst : forall n, field_from_stream E n (Field c (KArray comp cnt (Some h))) ctx d s
                = checked E n c (do_load E n (Field c (KArray comp cnt (Some h))) ctx d) s).
  { intros n. unfold field_from_stream, field_from_stream_with. apply from_stream_present; cbn; auto. }
  unfold load_raises. split.
  - intros (n & s' & H). rewrite Hst in H. unfold checked in H.
    destruct n as [|n]; [discriminate|]. cbn [do_load kind] in H.
    change (field_from_stream_with E (do_load E n) n comp ctx d)
      with (field_from_stream E n comp ctx d) in H.
    destruct (array_load _ _ _ _ s) as [s1 [v|e|]] eqn:Hl; [|injection H as <- <-|discriminate].
    + rewrite Hk, Hv in H. discriminate.
    + exists e. split; [eapply fails_sound; eauto|apply renamed_set].
  - intros (e & Hf & Hr). apply renamed_fun in Hr. subst x.
    destruct (fails_complete E comp h ctx d cnt (c_name c) [] s e Hf) as (k & s' & Hk').
    exists (S k), s'. rewrite Hst. unfold checked. cbn [do_load kind].
    change (field_from_stream_with E (do_load E k) k comp ctx d)
      with (field_from_stream E k comp ctx d).
    change (name_of (Field c (KArray comp cnt (Some h)))) with (c_name c).
    rewrite Hk' by auto. auto.
Qed.

(** ** Sentinels *)
Lemma ends_snoc last vs v : ends_with last (vs ++ [v]) = last v.
Proof. unfold ends_with. rewrite rev_app_distr. reflexivity. Qed.

Lemma sentinel_loop E comp (h : haltfn) (stop : list value -> list value) last ctx d :
  (forall s vs ctx d, h s vs ctx d = if ends_with last vs then Ok (true, stop vs) else Ok (false, vs)) ->
  forall s s1 s' vs v done, ends_with last done = false -> Forall (fun x => last x = false) vs -> last v = true ->
  v <> VNotPresent -> read_all E comp ctx d vs s s1 -> loads_to E comp ctx d s1 s' v ->
  halted E comp h ctx d done s s' (stop (done ++ vs ++ [v])).
Proof.
  intros Hh s s1 s' vs v done Hd Hvs Hv Hnp Hr Hl. revert done Hd Hvs.
  induction Hr as [s|s s0 s1 x vs Hx Hxp Hr IH]; intros done Hd Hvs.
  - eapply halted_take; [rewrite Hh, Hd; reflexivity|exact Hl|auto|].
    cbn [app]. apply halted_stop. rewrite Hh, ends_snoc, Hv. auto.
  - inversion Hvs as [|? ? H1 H2]; subst.
    eapply halted_take; [rewrite Hh, Hd; reflexivity|exact Hx|auto|].
    replace (done ++ (x :: vs) ++ [v]) with ((done ++ [x]) ++ vs ++ [v]) by (rewrite <- app_assoc; auto).
    apply IH; auto. rewrite ends_snoc. auto.
Qed.

Lemma sentinel_loads E c comp cnt last ctx d s s1 s' vs v : always_present c ->
  c_null c = VUndefined -> c_const c = VUndefined ->
  Forall (fun x => last x = false) vs -> last v = true -> v <> VNotPresent ->
  read_all E comp ctx d vs s s1 -> loads_to E comp ctx d s1 s' v ->
  (accepts c (VList (vs ++ [v])) ->
   loads_to E (Field c (KArray comp cnt (Some (sentinel_kept last)))) ctx d s s' (VList (vs ++ [v])))
  /\ (accepts c (VList vs) ->
      loads_to E (Field c (KArray comp cnt (Some (sentinel_removed last)))) ctx d s s' (VList vs)).
Proof.
  intros Hp Hn Hk Hvs Hv Hnp Hr Hl. split; intros Ha; apply halt_check_loads; auto; split; auto.
  - exists (vs ++ [v]). split; auto.
    apply (sentinel_loop E comp (sentinel_kept last) (fun l => l) last) with (s1 := s1) (done := []); auto.
    intros s0 l ctx0 d0. unfold sentinel_kept. destruct (ends_with last l); auto.
  - exists vs. split; auto.
    replace vs with (removelast ([] ++ vs ++ [v])) at 1 by (apply removelast_last).
    apply (sentinel_loop E comp (sentinel_removed last) (@removelast _) last) with (s1 := s1); auto.
Qed.


(** An array read this way ends with its first sentinel. *)
Lemma sentinel_only E comp last ctx d vs s s' out : ends_with last vs = false ->
  halted E comp (sentinel_kept last) ctx d vs s s' out ->
  exists new v, out = vs ++ new ++ [v] /\ Forall (fun x => last x = false) new /\ last v = true.
Proof.
  intros Hv H. revert Hv.
  induction H as [vs s out Hh|vs s vs' v s1 s' out Hh Hl Hnp H IH|vs s vs' s1 s' out Hh Hl _ IH]; intros Hv;
    unfold sentinel_kept in Hh; injection Hh as H1 <-; try congruence.
  - destruct (last v) eqn:Hlv.
    + exists [], v. split; [|auto]. cbn [app].
      inversion H as [? ? ? Hh|? ? ? ? ? ? ? Hh|? ? ? ? ? ? Hh]; subst; unfold sentinel_kept in Hh; rewrite ends_snoc, Hlv in Hh;
        congruence.
    + destruct IH as (new & w & -> & H2 & H3); [rewrite ends_snoc; auto|].
      exists (v :: new), w. rewrite <- !app_assoc. split; auto.
  - apply IH in Hv. exact Hv.
Qed.

Lemma sentinel_loaded E c comp cnt last ctx d s s' v : always_present c ->
  c_null c = VUndefined -> c_const c = VUndefined ->
  loads_to E (Field c (KArray comp cnt (Some (sentinel_kept last)))) ctx d s s' v ->
  exists vs w, v = VList (vs ++ [w]) /\ Forall (fun x => last x = false) vs /\ last w = true.
Proof.
  intros Hp Hn Hk H. apply halt_check_loads in H; auto. destruct H as (_ & out & -> & H).
  apply sentinel_only in H; auto. destruct H as (new & w & -> & H1 & H2). exists new, w. auto.
Qed.

Lemma removed_only E comp last ctx d vs s s' out : Forall (fun x => last x = false) (removelast vs) ->
  halted E comp (sentinel_removed last) ctx d vs s s' out -> Forall (fun x => last x = false) out.
Proof.
  assert (Hend : forall l, ends_with last l = false -> Forall (fun x => last x = false) (removelast l) ->
                 Forall (fun x => last x = false) l).
  { intros l. destruct l as [|w l _] using rev_ind; [constructor|]. rewrite ends_snoc, removelast_last.
    intros H1 H2. apply Forall_app. auto. }
  intros Hv H. revert Hv.
  induction H as [vs s out Hh|vs s vs' v s1 s' out Hh Hl Hnp H IH|vs s vs' s1 s' out Hh Hl _ IH]; intros Hv;
    unfold sentinel_removed in Hh; destruct (ends_with last vs) eqn:He; try discriminate Hh; injection Hh as <-; auto.
  apply IH. rewrite removelast_last. auto.
Qed.

Lemma sentinel_removed_loaded E c comp cnt last ctx d s s' v : always_present c ->
  c_null c = VUndefined -> c_const c = VUndefined ->
  loads_to E (Field c (KArray comp cnt (Some (sentinel_removed last)))) ctx d s s' v ->
  exists vs, v = VList vs /\ Forall (fun x => last x = false) vs.
Proof.
  intros Hp Hn Hk H. apply halt_check_loads in H; auto. destruct H as (_ & out & -> & H).
  apply removed_only in H; [eauto|constructor].
Qed.

(** ** Iterables *)
Lemma codes_text s : VStr (str_codes s) = name_text s.
Proof.
  unfold name_text. f_equal. induction s as [|a s IH]; [reflexivity|].
  cbn [str_codes list_ascii_of_string map]. rewrite IH. auto.
Qed.

Lemma iterates_items v l : iterates v l -> sized_items v = Some l.
Proof.
  intros [bs|cps|d]; auto. cbn [sized_items]. f_equal. unfold dkeys. rewrite map_map.
  apply map_ext. intros [k w]. cbn [fst]. apply codes_text.
Qed.

Lemma iterable_dumps E n c comp cnt halt v l ctx d : iterates v l -> c_validators c = [] ->
  field_to_stream E n (Field c (KArray comp cnt halt)) v ctx d
  = field_to_stream E n (Field c (KArray comp cnt halt)) (VList l) ctx d.
Proof.
  intros Hi Hv. pose proof (iterates_items _ _ Hi) as Hs.
  unfold field_to_stream, field_to_stream_with.
  rewrite !to_stream_data; auto; try (unfold accepts; cbn [conf]; rewrite Hv; constructor).
  - destruct n as [|n]; auto. cbn [do_dump kind]. unfold array_dump. rewrite Hs. cbn [sized_items]. auto.
  - destruct Hi; auto.
Qed.
