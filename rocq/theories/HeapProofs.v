(** Which objects are shared (C93). *)
From Coq Require Import String List Lia.
From Verif Require Import Heap SpecHeap.
Open Scope string_scope.
Open Scope list_scope.

(** ** Heaps that grow *)

Lemma ref_ok_app (h new : heap) o : ref_ok h o -> ref_ok (h ++ new) o.
Proof. destruct o; auto. cbn. rewrite app_length. lia. Qed.

Lemma closed_alloc (h : heap) c : closed_heap h -> (forall o, In o (refs c) -> ref_ok h o) -> closed_heap (h ++ [c]).
Proof.
  intros H Hc c' Hin o Ho. apply ref_ok_app. apply in_app_iff in Hin as [Hin|[<-|[]]]; eauto.
Qed.

Lemma nth_app (h new : heap) a c : nth_error h a = Some c -> nth_error (h ++ new) a = Some c.
Proof. intros H. rewrite nth_error_app1; auto. apply nth_error_Some. congruence. Qed.

Lemma closed_nth (h : heap) a c o : closed_heap h -> nth_error h a = Some c -> In o (refs c) -> ref_ok h o.
Proof. intros H Hn. apply nth_error_In in Hn. eauto. Qed.

Lemma reach_ok h o b : closed_heap h -> ref_ok h o -> reach h o b -> (b < length h)%nat.
Proof. intros Hc Ho Hr. induction Hr as [a|a c o b Hn Hin Hr IH]; auto. apply IH. eapply closed_nth; eauto. Qed.

Lemma reach_app (h new : heap) o b : closed_heap h -> ref_ok h o -> (reach (h ++ new) o b <-> reach h o b).
Proof.
  intros Hc Ho. split.
  - intros Hr. remember (h ++ new) as h' eqn:E. induction Hr as [a|a c o b Hn Hin Hr IH]; subst h'; [constructor|].
    cbn in Ho. rewrite nth_error_app1 in Hn by auto. econstructor; eauto. apply IH; auto. eapply closed_nth; eauto.
  - intros Hr. induction Hr as [a|a c o b Hn Hin Hr IH]; [constructor|]. econstructor; eauto using nth_app.
    apply IH. eapply closed_nth; eauto.
Qed.

(** ** Views depend on reachable objects only *)

Lemma view_agree n : forall h1 h2 o, (forall a, reach h1 o a -> nth_error h1 a = nth_error h2 a) -> view n h1 o = view n h2 o.
Proof.
  induction n as [|n IH]; intros h1 h2 [v|a] H; auto. cbn [view]. rewrite <- (H a (reach_here _ _)).
  destruct (nth_error h1 a) as [c|] eqn:Hc; auto.
  assert (Hr : forall o, In o (refs c) -> view n h1 o = view n h2 o).
  { intros o Ho. apply IH. intros b Hb. apply H. econstructor; eauto. }
  destruct c as [l|d|b|cid d]; auto; cbn [refs] in Hr.
  - f_equal. f_equal. apply map_ext_in. auto.
  - f_equal. f_equal. apply map_ext_in. intros x Hx. apply Hr. apply in_map. auto.
  - f_equal. f_equal. apply map_ext_in. intros x Hx. apply Hr. apply in_map. auto.
Qed.

Lemma update_other (h : heap) : forall a b c, a <> b -> nth_error (update h a c) b = nth_error h b.
Proof. induction h as [|x h IH]; intros [|a] [|b] c H; cbn; auto; try contradiction. Qed.

Lemma update_same (h : heap) : forall a c, (a < length h)%nat -> nth_error (update h a c) a = Some c.
Proof. induction h as [|x h IH]; intros [|a] c H; cbn in *; auto; try lia. apply IH. lia. Qed.

Lemma view_update n h o a c : ~ reach h o a -> view n (update h a c) o = view n h o.
Proof.
  intros H. symmetry. apply view_agree. intros b Hb. symmetry. apply update_other. intros ->. auto.
Qed.

(** ** to_dict *)

Section Conversion.
Variable classes : nat -> list hfield.

Notation good := (good_heap classes).

Lemma class_ok_app h new : class_ok classes h -> class_ok classes (h ++ new).
Proof. intros H cid f Hf. destruct (H cid f Hf) as [? ?]. split; auto using ref_ok_app. Qed.

Lemma value_for_dump_grows f h a values h' r : good h -> (exists cid, In f (classes cid)) -> (a < length h)%nat ->
  (forall o, In o (map snd values) -> ref_ok h o) ->
  value_for_dump f h a values = (h', r) ->
  exists new, h' = h ++ new /\ good h' /\ forall o, r = Ok o -> ref_ok h' o.
Proof.
  intros [Hc Hk] (cid & Hf) Ha Hv. destruct (Hk cid f Hf) as [Hg Hd].
  unfold value_for_dump. set (stored := match assoc values (hf_name f) with Some o => _ | None => None end).
  assert (Hs : forall o, stored = Some o -> ref_ok h o).
  { intros o Ho. unfold stored in Ho. destruct (assoc values (hf_name f)) as [o'|] eqn:Ea; [|discriminate].
    destruct (undefined o'); [discriminate|]. injection Ho as ->. apply Hv. clear - Ea.
    induction values as [|[k x] values IH]; cbn [assoc] in Ea; [discriminate|].
    destruct (String.eqb k (hf_name f)); [injection Ea as ->; left; auto|right; auto]. }
  assert (Hgen : exists new o, match stored with
                  | Some o => (h, o)
                  | None => if undefined (hf_default f)
                            then match hf_compute f with Some fn => fn h a | None => (h, OVal VUndefined) end
                            else (h, hf_default f)
                  end = (h ++ new, o) /\ good (h ++ new) /\ ref_ok (h ++ new) o).
  { destruct stored as [o|] eqn:Es.
    - exists [], o. rewrite app_nil_r. split; auto. split; [split; auto|auto].
    - destruct (undefined (hf_default f)).
      + destruct (hf_compute f) as [fn|] eqn:Ef.
        * destruct (Hg fn Ef h a Hc Ha) as (new & E1 & E2 & E3). exists new, (snd (fn h a)).
          destruct (fn h a) as [h1 o1]. cbn [fst snd] in *. subst h1. split; auto. split; auto. split; auto using class_ok_app.
        * exists [], (OVal VUndefined). rewrite app_nil_r. split; auto. split; [split; auto|exact I].
      + exists [], (hf_default f). rewrite app_nil_r. split; auto. split; [split; auto|auto]. }
  destruct Hgen as (new & o & -> & Hgood & Ho). intros E. exists new.
  destruct (not_present o || negb (hf_present f (h ++ new) a));
    [injection E as <- <-; split; auto; split; auto; intros ? [= <-]; exact I|].
  destruct (undefined o); injection E as <- <-; split; auto; split; auto; [discriminate|intros ? [= <-]; auto].
Qed.

Lemma field_objects_grows cid fs : forall h a values h' r, (forall f, In f fs -> In f (classes cid)) -> good h -> (a < length h)%nat ->
  (forall o, In o (map snd values) -> ref_ok h o) ->
  field_objects fs h a values = (h', r) ->
  exists new, h' = h ++ new /\ good h' /\ forall d, r = Ok d ->
    (forall o, In o (map snd d) -> ref_ok h' o) /\ map fst d = map hf_name (filter (fun f => negb (hf_discard f)) fs).
Proof.
  induction fs as [|f fs IH]; intros h a values h' r Hfs Hg Ha Hv E; cbn [field_objects] in E.
  - injection E as <- <-. exists []. rewrite app_nil_r. split; auto. split; auto. intros d [= <-]. split; auto. intros o [].
  - destruct (value_for_dump f h a values) as [h1 r1] eqn:E1.
    destruct (value_for_dump_grows f h a values h1 r1 Hg) as (new1 & -> & Hg1 & Ho1); eauto.
    { exists cid. apply Hfs. left. auto. }
    destruct r1 as [o|e|]; [|injection E as <- <-; exists new1; split; auto; split; auto; discriminate
                            |injection E as <- <-; exists new1; split; auto; split; auto; discriminate].
    destruct (field_objects fs (h ++ new1) a values) as [h2 r2] eqn:E2.
    assert (Hfs' : forall f0, In f0 fs -> In f0 (classes cid)) by (intros f0 H0; apply Hfs; right; auto).
    assert (Ha' : (a < length (h ++ new1))%nat) by (rewrite app_length; lia).
    assert (Hv' : forall o0, In o0 (map snd values) -> ref_ok (h ++ new1) o0) by (intros o0 H0; apply ref_ok_app; auto).
    destruct (IH _ _ _ _ _ Hfs' Hg1 Ha' Hv' E2) as (new2 & -> & Hg2 & Hd).
    exists (new1 ++ new2). rewrite app_assoc.
    destruct r2 as [d|e|]; injection E as <- <-; split; auto; split; auto; try discriminate.
    intros d0 [= <-]. destruct (Hd d eq_refl) as [Hd1 Hd2]. cbn [filter]. destruct (hf_discard f); cbn [negb]; auto.
    split; [|cbn [map fst]; f_equal; auto].
    intros o0 [<-|H0]; auto. cbn [snd]. apply ref_ok_app. apply Ho1. auto.
Qed.

(** Everything reachable from the result is new, apart from bytearrays, and no struct. *)
Definition new_cell (k a : nat) (c : cell) : Prop :=
  match c with CStruct _ _ => False | CBuf _ => True | CList _ | CDict _ => (k <= a)%nat end.

Definition new_from (k : nat) (h : heap) (o : obj) : Prop :=
  forall a, reach h o a -> exists c, nth_error h a = Some c /\ new_cell k a c.

Definition converts (conv : heap -> obj -> heap * res obj) : Prop :=
  forall h o h' r, good h -> ref_ok h o -> conv h o = (h', r) ->
    exists new, h' = h ++ new /\ good h' /\ forall o', r = Ok o' -> ref_ok h' o' /\ new_from (length h) h' o'.

Lemma new_from_app k h new o : closed_heap h -> ref_ok h o -> new_from k h o -> new_from k (h ++ new) o.
Proof.
  intros Hc Ho H a Hr. apply (reach_app h new o a Hc Ho) in Hr. destruct (H a Hr) as (c & Hn & Hnew).
  exists c. split; auto. apply nth_app. auto.
Qed.

Lemma new_from_less k k' h o : (k <= k')%nat -> new_from k' h o -> new_from k h o.
Proof.
  intros Hk H a Hr. destruct (H a Hr) as (c & Hn & Hnew). exists c. split; auto. destruct c; cbn in *; auto; lia.
Qed.

Lemma convert_all_grows conv : converts conv -> forall l h h' r, good h -> (forall o, In o l -> ref_ok h o) ->
  convert_all conv h l = (h', r) ->
  exists new, h' = h ++ new /\ good h' /\ forall os, r = Ok os ->
    length os = length l /\ forall o', In o' os -> ref_ok h' o' /\ new_from (length h) h' o'.
Proof.
  intros Hconv. induction l as [|o l IH]; intros h h' r Hg Hl E; cbn [convert_all] in E.
  - injection E as <- <-. exists []. rewrite app_nil_r. split; auto. split; auto. intros os [= <-]. split; auto. intros o' [].
  - destruct (conv h o) as [h1 r1] eqn:E1.
    destruct (Hconv _ _ _ _ Hg (Hl o (or_introl eq_refl)) E1) as (new1 & -> & Hg1 & Ho1).
    destruct r1 as [o1|e|]; [|injection E as <- <-; exists new1; split; auto; split; auto; discriminate
                             |injection E as <- <-; exists new1; split; auto; split; auto; discriminate].
    destruct (convert_all conv (h ++ new1) l) as [h2 r2] eqn:E2.
    destruct (IH (h ++ new1) h2 r2 Hg1) as (new2 & -> & Hg2 & Hos); auto.
    { intros o0 H0. apply ref_ok_app. apply Hl. right. auto. }
    destruct (Ho1 o1 eq_refl) as [Ha Hb].
    exists (new1 ++ new2). rewrite app_assoc.
    destruct r2 as [os|e|]; injection E as <- <-; split; auto; split; auto; try discriminate.
    intros os0 [= <-]. destruct (Hos os eq_refl) as [Hn Hos']. split; [cbn; auto|].
    intros o' [<-|Hin].
    + split; [apply ref_ok_app; auto|]. apply new_from_app; auto. apply Hg1.
    + destruct (Hos' o' Hin) as [H1 H2]. split; auto. eapply new_from_less; [|exact H2]. rewrite app_length. lia.
Qed.

Lemma alloc_new k h c : closed_heap h -> new_cell k (length h) c -> (forall o, In o (refs c) -> ref_ok h o /\ new_from k h o) ->
  new_from k (h ++ [c]) (ORef (length h)).
Proof.
  intros Hc Hk Hr a Hreach.
  assert (Hn0 : nth_error (h ++ [c]) (length h) = Some c) by (rewrite nth_error_app2, Nat.sub_diag by lia; auto).
  inversion Hreach as [|? c' o ? Hn Hin Hro]; subst; [eauto|].
  rewrite Hn0 in Hn. injection Hn as <-.
  destruct (Hr o Hin) as [H1 H2]. exact (new_from_app k h [c] o Hc H1 H2 a Hro).
Qed.

Lemma good_alloc h c : good h -> (forall o, In o (refs c) -> ref_ok h o) -> good (h ++ [c]).
Proof. intros [H1 H2] Hr. split; [apply closed_alloc; auto|apply class_ok_app; auto]. Qed.

Lemma in_snd_combine {A B} (l : list A) (l' : list B) x : In x (map snd (combine l l')) -> In x l'.
Proof. intros H. apply in_map_iff in H as ([a b] & <- & H). eapply in_combine_r; eauto. Qed.

Lemma convert_dict_grows conv : converts conv -> forall d h h' r, good h -> (forall o, In o (map snd d) -> ref_ok h o) ->
  convert_dict conv h d = (h', r) ->
  exists new, h' = h ++ new /\ good h' /\ forall o', r = Ok o' -> ref_ok h' o' /\ new_from (length h) h' o'
    /\ exists a items, o' = ORef a /\ nth_error h' a = Some (CDict items) /\ map fst items = map fst d.
Proof.
  intros Hconv d h h' r Hg Hd E. unfold convert_dict in E.
  destruct (convert_all conv h (map snd d)) as [h1 r1] eqn:E1.
  destruct (convert_all_grows conv Hconv _ _ _ _ Hg Hd E1) as (new1 & -> & Hg1 & Hos).
  destruct r1 as [os|e|]; [|injection E as <- <-; exists new1; split; auto; split; auto; discriminate
                           |injection E as <- <-; exists new1; split; auto; split; auto; discriminate].
  unfold alloc in E. injection E as <- <-. destruct (Hos os eq_refl) as [Hn Hos'].
  set (c := CDict (combine (map fst d) os)).
  assert (Hr : forall o, In o (refs c) -> ref_ok (h ++ new1) o /\ new_from (length h) (h ++ new1) o).
  { intros o Ho. apply in_snd_combine in Ho. auto. }
  exists (new1 ++ [c]). rewrite app_assoc. split; auto. split; [apply good_alloc; auto; intros o Ho; apply Hr; auto|].
  intros o' [= <-]. split; [cbn; rewrite !app_length; cbn; lia|].
  split; [apply alloc_new; auto; [apply Hg1|cbn; rewrite app_length; lia]|].
  exists (length (h ++ new1)), (combine (map fst d) os). split; auto. split.
  - rewrite nth_error_app2, Nat.sub_diag by lia. auto.
  - rewrite map_length in Hn. clear - Hn. revert os Hn.
    induction d as [|[k x] d IH]; intros [|o os] Hn; cbn in *; try discriminate; auto. f_equal. auto.
Qed.

Lemma to_dicts_converts n : converts (to_dicts classes n).
Proof.
  induction n as [|n IH]; intros h o h' r Hg Ho E; cbn [to_dicts] in E.
  - injection E as <- <-. exists []. rewrite app_nil_r. split; auto. split; auto. discriminate.
  - destruct o as [v|a].
    + injection E as <- <-. exists []. rewrite app_nil_r. split; auto. split; auto. intros o' [= <-]. split; [exact I|].
      intros b Hb. inversion Hb.
    + destruct (nth_error h a) as [c|] eqn:Hn.
      2:{ injection E as <- <-. exists []. rewrite app_nil_r. split; auto. split; auto. discriminate. }
      assert (Hr : forall o, In o (refs c) -> ref_ok h o) by (intros o Hin; eapply closed_nth; [apply Hg|eauto|eauto]).
      destruct c as [l|d|b|cid d]; cbn [refs] in Hr.
      * destruct (convert_all (to_dicts classes n) h l) as [h1 r1] eqn:E1.
        destruct (convert_all_grows _ IH _ _ _ _ Hg Hr E1) as (new1 & -> & Hg1 & Hos).
        destruct r1 as [os|e|]; [|injection E as <- <-; exists new1; split; auto; split; auto; discriminate
                                 |injection E as <- <-; exists new1; split; auto; split; auto; discriminate].
        unfold alloc in E. injection E as <- <-. destruct (Hos os eq_refl) as [_ Hos'].
        exists (new1 ++ [CList os]). rewrite app_assoc. split; auto.
        split; [apply good_alloc; auto; intros o Hin; apply Hos'; auto|].
        intros o' [= <-]. split; [cbn; rewrite !app_length; cbn; lia|].
        apply alloc_new; auto; [apply Hg1|cbn; rewrite app_length; lia].
      * destruct (convert_dict_grows _ IH _ _ _ _ Hg Hr E) as (new & -> & Hg' & H).
        exists new. split; auto. split; auto. intros o' Ho'. destruct (H o' Ho') as (? & ? & _). auto.
      * injection E as <- <-. exists []. rewrite app_nil_r. split; auto. split; auto. intros o' [= <-]. split; auto.
        intros a' Hra. inversion Hra as [|? c o ? Hn' Hin Hro]; subst; [exists (CBuf b); split; auto; exact I|].
        rewrite Hn in Hn'. injection Hn' as <-. destruct Hin.
      * destruct (field_objects (classes cid) h a d) as [h1 r1] eqn:E1.
        destruct (field_objects_grows cid (classes cid) _ _ _ _ _ (fun f H => H) Hg Ho Hr E1) as (new1 & -> & Hg1 & Hd).
        destruct r1 as [items|e|]; [|injection E as <- <-; exists new1; split; auto; split; auto; discriminate
                                    |injection E as <- <-; exists new1; split; auto; split; auto; discriminate].
        destruct (Hd items eq_refl) as [Hd1 _].
        destruct (convert_dict_grows _ IH _ _ _ _ Hg1 Hd1 E) as (new & -> & Hg' & H).
        exists (new1 ++ new). rewrite app_assoc. split; auto. split; auto.
        intros o' Ho'. destruct (H o' Ho') as (H1 & H2 & _). split; auto.
        eapply new_from_less; [|exact H2]. rewrite app_length. lia.
Qed.

(** ** What the result looks like *)

Lemma view_app n h new o : closed_heap h -> ref_ok h o -> view n (h ++ new) o = view n h o.
Proof.
  intros Hc Ho. symmetry. apply view_agree. intros a Hr. symmetry. apply nth_error_app1. eapply reach_ok; eauto.
Qed.

Lemma no_structs_app h new o : closed_heap h -> ref_ok h o -> no_structs h o -> no_structs (h ++ new) o.
Proof.
  intros Hc Ho H a cid d Hr. apply (reach_app h new o a Hc Ho) in Hr. rewrite nth_error_app1; eauto.
  eapply reach_ok; eauto.
Qed.

Lemma no_structs_in h a c o : no_structs h (ORef a) -> nth_error h a = Some c -> In o (refs c) -> no_structs h o.
Proof. intros H Hn Hin b cid d Hr. apply H. econstructor; eauto. Qed.

Lemma all_some_cons {A} (x : option A) l vs : all_some (x :: l) = Some vs ->
  exists v vs', x = Some v /\ all_some l = Some vs' /\ vs = v :: vs'.
Proof.
  cbn. destruct x as [v|]; [|discriminate]. destruct (all_some l) as [vs'|]; [|discriminate].
  intros [= <-]. eauto.
Qed.

Definition copies (n : nat) : Prop :=
  forall h o v, good h -> ref_ok h o -> no_structs h o -> view n h o = Some v ->
    exists h' o', to_dicts classes n h o = (h', Ok o') /\ view n h' o' = Some v.

Lemma convert_all_copies n : copies n -> forall l h vs, good h -> (forall o, In o l -> ref_ok h o /\ no_structs h o) ->
  all_some (map (view n h) l) = Some vs ->
  exists h' os, convert_all (to_dicts classes n) h l = (h', Ok os) /\ all_some (map (view n h') os) = Some vs.
Proof.
  intros Hcopy. induction l as [|o l IH]; intros h vs Hg Hl E.
  - exists h, []. auto.
  - cbn [map] in E. apply all_some_cons in E as (v & vs' & E1 & E2 & ->).
    destruct (Hl o (or_introl eq_refl)) as [Ho1 Ho2].
    destruct (Hcopy h o v Hg Ho1 Ho2 E1) as (h1 & o1 & Ec & Ev).
    destruct (to_dicts_converts n h o h1 (Ok o1) Hg Ho1 Ec) as (new1 & -> & Hg1 & Hres).
    destruct (Hres o1 eq_refl) as [Hok1 _].
    assert (Hl' : forall o0, In o0 l -> ref_ok (h ++ new1) o0 /\ no_structs (h ++ new1) o0).
    { intros o0 H0. destruct (Hl o0 (or_intror H0)) as [H1 H2].
      split; [apply ref_ok_app; auto|apply no_structs_app; auto; apply Hg]. }
    assert (E2' : all_some (map (view n (h ++ new1)) l) = Some vs').
    { rewrite <- E2. f_equal. apply map_ext_in. intros o0 H0. apply view_app; [apply Hg|apply Hl; right; auto]. }
    destruct (IH (h ++ new1) vs' Hg1 Hl' E2') as (h2 & os & Ec2 & Ev2).
    destruct (convert_all_grows _ (to_dicts_converts n) l _ _ _ Hg1 (fun o0 H0 => proj1 (Hl' o0 H0)) Ec2) as (new2 & -> & Hg2 & _).
    exists ((h ++ new1) ++ new2), (o1 :: os). cbn [convert_all]. rewrite Ec, Ec2. split; auto.
    cbn [map]. rewrite (view_app n (h ++ new1) new2 o1), Ev; [|apply Hg1|auto]. cbn [all_some]. rewrite Ev2. auto.
Qed.

Lemma map_snd_combine {A B} : forall (l : list A) (l' : list B), length l = length l' -> map snd (combine l l') = l'.
Proof. induction l as [|x l IH]; intros [|y l'] H; cbn in *; try discriminate; auto. f_equal. auto. Qed.

Lemma map_fst_combine {A B} : forall (l : list A) (l' : list B), length l = length l' -> map fst (combine l l') = l.
Proof. induction l as [|x l IH]; intros [|y l'] H; cbn in *; try discriminate; auto. f_equal. auto. Qed.

Lemma to_dicts_copies n : copies n.
Proof.
  induction n as [|n IH]; intros h o v Hg Ho Hs E; [discriminate|].
  destruct o as [v0|a]; [exists h, (OVal v0); auto|].
  cbn [view] in E. cbn [to_dicts]. destruct (nth_error h a) as [c|] eqn:Hn; [|discriminate].
  assert (Hr : forall o, In o (refs c) -> ref_ok h o /\ no_structs h o).
  { intros o Hin. split; [eapply closed_nth; [apply Hg| |]; eauto|eapply no_structs_in; eauto]. }
  destruct c as [l|d|b|cid d]; cbn [refs] in Hr.
  - destruct (all_some (map (view n h) l)) as [vs|] eqn:Ev; [|discriminate]. injection E as <-.
    destruct (convert_all_copies n IH l h vs Hg Hr Ev) as (h1 & os & Ec & Ev').
    destruct (convert_all_grows _ (to_dicts_converts n) l _ _ _ Hg (fun o0 H0 => proj1 (Hr o0 H0)) Ec) as (new & -> & Hg1 & Hos).
    destruct (Hos os eq_refl) as [_ Hos']. rewrite Ec.
    unfold alloc. eexists _, _. split; [reflexivity|]. cbn [view].
    rewrite nth_error_app2, Nat.sub_diag by lia. cbn [nth_error].
    assert (Hall : map (view n ((h ++ new) ++ [CList os])) os = map (view n (h ++ new)) os); [|rewrite Hall, Ev'; auto].
    apply map_ext_in. intros o Hin. apply view_app; [apply Hg1|apply Hos'; auto].
  - destruct (all_some (map (fun x => view n h (snd x)) d)) as [vs|] eqn:Ev; [|discriminate]. injection E as <-.
    rewrite <- (map_map snd (view n h)) in Ev.
    destruct (convert_all_copies n IH (map snd d) h vs Hg Hr Ev) as (h1 & os & Ec & Ev').
    destruct (convert_all_grows _ (to_dicts_converts n) _ _ _ _ Hg (fun o0 H0 => proj1 (Hr o0 H0)) Ec) as (new & -> & Hg1 & Hos).
    destruct (Hos os eq_refl) as [Hlen Hos']. unfold convert_dict. rewrite Ec.
    unfold alloc. eexists _, _. split; [reflexivity|]. cbn [view].
    rewrite nth_error_app2, Nat.sub_diag by lia. cbn [nth_error].
    assert (Hlen' : length (map fst d) = length os) by (rewrite Hlen, !map_length; auto).
    rewrite <- (map_map snd (view n _)), map_snd_combine, map_fst_combine by auto.
    assert (Hall : forall c, map (view n ((h ++ new) ++ [c])) os = map (view n (h ++ new)) os); [|rewrite Hall, Ev'; auto].
    intros c. apply map_ext_in. intros o Hin. apply view_app; [apply Hg1|apply Hos'; auto].
  - exists h, (ORef a). split; auto. cbn [view]. rewrite Hn. auto.
  - exfalso. eapply Hs; [constructor|eauto].
Qed.

(** Each entry of the dictionary of a struct is the conversion of the object of the field. *)
Lemma convert_all_each conv : converts conv -> forall l h h' os i o, good h -> (forall o, In o l -> ref_ok h o) ->
  convert_all conv h l = (h', Ok os) -> nth_error l i = Some o ->
  exists new h2 o' rest, conv (h ++ new) o = (h2, Ok o') /\ good (h ++ new) /\ good h2 /\ h' = h2 ++ rest
    /\ ref_ok h2 o' /\ nth_error os i = Some o'.
Proof.
  intros Hconv. induction l as [|x l IH]; intros h h' os i o Hg Hl E Hi; [destruct i; discriminate|].
  cbn [convert_all] in E. destruct (conv h x) as [h1 [x'|e|]] eqn:Ex; [|discriminate|discriminate].
  destruct (Hconv h x h1 (Ok x') Hg (Hl x (or_introl eq_refl)) Ex) as (new1 & -> & Hg1 & Hx).
  destruct (convert_all conv (h ++ new1) l) as [h2 [os'|e|]] eqn:El; [|discriminate|discriminate].
  injection E as <- <-.
  assert (Hl' : forall o0, In o0 l -> ref_ok (h ++ new1) o0) by (intros o0 H0; apply ref_ok_app; apply Hl; right; auto).
  destruct i as [|i]; cbn [nth_error] in *.
  - injection Hi as ->. destruct (convert_all_grows conv Hconv l _ _ _ Hg1 Hl' El) as (new2 & -> & _ & _).
    exists [], (h ++ new1), x', new2. rewrite app_nil_r. destruct (Hx x' eq_refl) as [Hok _]. repeat (split; auto).
  - destruct (IH (h ++ new1) h2 os' i o Hg1 Hl' El Hi) as (new & h3 & o' & rest & E1 & E2 & E3 & E4 & E5).
    exists (new1 ++ new), h3, o', rest. rewrite app_assoc. repeat (split; auto).
Qed.

Lemma assoc_combine {A} : forall (ks : list string) (l : list A) i k x, NoDup ks -> nth_error ks i = Some k -> nth_error l i = Some x ->
  assoc (combine ks l) k = Some x.
Proof.
  induction ks as [|k0 ks IH]; intros [|x0 l] [|i] k x Hnd Hk Hx; cbn in *; try discriminate.
  - injection Hk as ->. injection Hx as ->. rewrite String.eqb_refl. auto.
  - inversion Hnd as [|? ? Hni Hnd']; subst. destruct (String.eqb k0 k) eqn:E; [|eauto].
    apply String.eqb_eq in E as ->. exfalso. apply Hni. eapply nth_error_In; eauto.
Qed.

Lemma filter_names_nodup (fs : list hfield) p : NoDup (map hf_name fs) -> NoDup (map hf_name (filter p fs)).
Proof.
  induction fs as [|f fs IH]; cbn; intros H; auto. inversion H as [|? ? H1 H2]; subst.
  destruct (p f); auto. cbn. constructor; auto. intros Hin. apply H1.
  apply in_map_iff in Hin as (g & <- & Hg). apply filter_In in Hg as [Hg _]. apply in_map. auto.
Qed.

(** The stored object of a field, if it is set and present. *)
Lemma field_objects_stored cid fs : forall h a values h' d f o, (forall f, In f fs -> In f (classes cid)) -> good h -> (a < length h)%nat ->
  (forall o, In o (map snd values) -> ref_ok h o) -> NoDup (map hf_name fs) ->
  field_objects fs h a values = (h', Ok d) -> In f fs -> hf_discard f = false ->
  assoc values (hf_name f) = Some o -> undefined o = false -> not_present o = false -> (forall h, hf_present f h a = true) ->
  assoc d (hf_name f) = Some o.
Proof.
  induction fs as [|g fs IH]; intros h a values h' d f o Hfs Hg Ha Hv Hnd E Hin Hd Has Hu Hnp Hp; [destruct Hin|].
  cbn [field_objects] in E. destruct (value_for_dump g h a values) as [h1 [x|e|]] eqn:E1; [|discriminate|discriminate].
  destruct (value_for_dump_grows g h a values h1 (Ok x) Hg) as (new1 & -> & Hg1 & _); auto.
  { exists cid. apply Hfs. left. auto. }
  destruct (field_objects fs (h ++ new1) a values) as [h2 [os|e|]] eqn:E2; [|discriminate|discriminate].
  injection E as <- <-. inversion Hnd as [|? ? Hni Hnd']; subst. destruct Hin as [->|Hin].
  - rewrite Hd. cbn [assoc]. rewrite String.eqb_refl. unfold value_for_dump in E1. rewrite Has, Hu, Hnp, Hp, Hu in E1.
    cbn in E1. injection E1 as _ <-. auto.
  - assert (Hrec : assoc os (hf_name f) = Some o).
    { eapply (IH (h ++ new1) a values h2 os f o); eauto.
      - intros f0 H0. apply Hfs. right. auto.
      - rewrite app_length. lia.
      - intros o0 H0. apply ref_ok_app. auto. }
    destruct (hf_discard g); auto. cbn [assoc]. destruct (String.eqb (hf_name g) (hf_name f)) eqn:En; auto.
    apply String.eqb_eq in En. exfalso. apply Hni. rewrite En. apply in_map. auto.
Qed.

Lemma assoc_nth {A} : forall (d : list (string * A)) k x, assoc d k = Some x ->
  exists i, nth_error (map fst d) i = Some k /\ nth_error (map snd d) i = Some x.
Proof.
  induction d as [|[k0 x0] d IH]; intros k x H; cbn [assoc] in H; [discriminate|].
  destruct (String.eqb k0 k) eqn:E.
  - injection H as ->. apply String.eqb_eq in E as ->. exists O. auto.
  - destruct (IH k x H) as (i & H1 & H2). exists (S i). auto.
Qed.

Lemma convert_dict_each conv : converts conv -> forall d h h' r k o, good h -> (forall o, In o (map snd d) -> ref_ok h o) ->
  NoDup (map fst d) -> convert_dict conv h d = (h', Ok r) -> assoc d k = Some o ->
  exists b items new h2 o' rest, r = ORef b /\ nth_error h' b = Some (CDict items) /\ assoc items k = Some o'
    /\ conv (h ++ new) o = (h2, Ok o') /\ good (h ++ new) /\ good h2 /\ h' = h2 ++ rest /\ ref_ok h2 o'.
Proof.
  intros Hconv d h h' r k o Hg Hd Hnd E Hk. unfold convert_dict in E.
  destruct (convert_all conv h (map snd d)) as [h1 [os|e|]] eqn:Ec; [|discriminate|discriminate].
  unfold alloc in E. injection E as <- <-. destruct (assoc_nth d k o Hk) as (i & H1 & H2).
  destruct (convert_all_each conv Hconv _ _ _ _ i o Hg Hd Ec H2) as (new & h2 & o' & rest & E1 & E2 & E3 & -> & E5 & E6).
  exists (length (h2 ++ rest)), (combine (map fst d) os), new, h2, o', (rest ++ [CDict (combine (map fst d) os)]).
  split; auto. split; [rewrite nth_error_app2, Nat.sub_diag by lia; auto|].
  split; [eapply assoc_combine; eauto|]. rewrite app_assoc. repeat (split; auto).
Qed.

(** ** to_dict of structs *)

Lemma to_dict_keys n h a cid values h' r : good h -> nth_error h a = Some (CStruct cid values) ->
  to_dicts classes n h (ORef a) = (h', Ok r) ->
  exists b items, r = ORef b /\ nth_error h' b = Some (CDict items)
    /\ map fst items = map hf_name (filter (fun f => negb (hf_discard f)) (classes cid)).
Proof.
  intros Hg Hn E. destruct n as [|n]; [discriminate|]. cbn [to_dicts] in E. rewrite Hn in E.
  assert (Ha : (a < length h)%nat) by (apply nth_error_Some; congruence).
  assert (Hv : forall o, In o (map snd values) -> ref_ok h o) by (intros o Ho; eapply (closed_nth h a); [apply Hg|eauto|auto]).
  destruct (field_objects (classes cid) h a values) as [h1 [d|e|]] eqn:E1; [|discriminate|discriminate].
  destruct (field_objects_grows cid (classes cid) _ _ _ _ _ (fun f H => H) Hg Ha Hv E1) as (new1 & -> & Hg1 & Hd).
  destruct (Hd d eq_refl) as [Hd1 Hd2].
  destruct (convert_dict_grows _ (to_dicts_converts n) _ _ _ _ Hg1 Hd1 E) as (new & -> & Hg' & H).
  destruct (H r eq_refl) as (_ & _ & b & items & -> & Hb & Hk). exists b, items. split; auto. split; auto. congruence.
Qed.

Lemma to_dict_entry n h a cid values h' r f o : good h -> nth_error h a = Some (CStruct cid values) ->
  NoDup (map hf_name (classes cid)) -> to_dicts classes (S n) h (ORef a) = (h', Ok r) ->
  In f (classes cid) -> hf_discard f = false -> assoc values (hf_name f) = Some o -> undefined o = false -> not_present o = false ->
  (forall h, hf_present f h a = true) ->
  exists b items new h2 o' rest, r = ORef b /\ nth_error h' b = Some (CDict items) /\ assoc items (hf_name f) = Some o'
    /\ to_dicts classes n (h ++ new) o = (h2, Ok o') /\ h' = h2 ++ rest
    /\ (forall v, no_structs h o -> view n h o = Some v -> view n h' o' = Some v).
Proof.
  intros Hg Hn Hnd E Hf Hdis Has Hu Hnp Hp. cbn [to_dicts] in E. rewrite Hn in E.
  assert (Ha : (a < length h)%nat) by (apply nth_error_Some; congruence).
  assert (Hv : forall o, In o (map snd values) -> ref_ok h o) by (intros o0 Ho; eapply (closed_nth h a); [apply Hg|eauto|auto]).
  destruct (field_objects (classes cid) h a values) as [h1 [d|e|]] eqn:E1; [|discriminate|discriminate].
  destruct (field_objects_grows cid (classes cid) _ _ _ _ _ (fun f H => H) Hg Ha Hv E1) as (new1 & -> & Hg1 & Hd).
  destruct (Hd d eq_refl) as [Hd1 Hd2].
  assert (Hok : ref_ok h o).
  { apply Hv. destruct (assoc_nth _ _ _ Has) as (i & _ & Hi). eapply nth_error_In; eauto. }
  pose proof (field_objects_stored cid _ _ _ _ _ _ f o (fun f H => H) Hg Ha Hv Hnd E1 Hf Hdis Has Hu Hnp Hp) as Hin.
  assert (Hnd' : NoDup (map fst d)) by (rewrite Hd2; apply filter_names_nodup; auto).
  destruct (convert_dict_each _ (to_dicts_converts n) d _ _ _ (hf_name f) o Hg1 Hd1 Hnd' E Hin)
    as (b & items & new & h2 & o' & rest & -> & Hb & Hi & Hc & Hgn & Hg2 & -> & Hok2).
  exists b, items, (new1 ++ new), h2, o', rest. rewrite <- app_assoc in Hc, Hgn. repeat (split; auto).
  intros v Hns Hview. rewrite view_app by (auto; apply Hg2).
  destruct (to_dicts_copies n (h ++ new1 ++ new) o v) as (h3 & o3 & E3 & E4); auto.
  - apply ref_ok_app; auto.
  - apply no_structs_app; auto. apply Hg.
  - rewrite view_app; auto. apply Hg.
  - rewrite E3 in Hc. injection Hc as -> ->. auto.
Qed.

(** ** Changing objects afterwards *)

Lemma to_dict_only_adds n h o h' r : good h -> ref_ok h o -> to_dicts classes n h o = (h', r) ->
  (forall a, (a < length h)%nat -> nth_error h' a = nth_error h a) /\ forall m x, ref_ok h x -> view m h' x = view m h x.
Proof.
  intros Hg Ho E. destruct (to_dicts_converts n h o h' r Hg Ho E) as (new & -> & _). split.
  - intros a Ha. apply nth_error_app1. auto.
  - intros m x Hx. apply view_app; auto. apply Hg.
Qed.

Lemma to_dict_snapshot n h o h' r a c : good h -> ref_ok h o -> to_dicts classes n h o = (h', Ok r) ->
  (a < length h)%nat -> (forall b, nth_error h a <> Some (CBuf b)) ->
  forall m, view m (update h' a c) r = view m h' r.
Proof.
  intros Hg Ho E Ha Hnb m. destruct (to_dicts_converts n h o h' _ Hg Ho E) as (new & -> & _ & H).
  destruct (H r eq_refl) as [_ Hnew]. apply view_update. intros Hr.
  destruct (Hnew a Hr) as (c0 & Hn & Hcell). rewrite nth_error_app1 in Hn by auto.
  destruct c0; cbn in Hcell; try lia; auto. eapply Hnb; eauto.
Qed.

Lemma to_dict_detached n h o h' r a c : good h -> ref_ok h o -> to_dicts classes n h o = (h', Ok r) ->
  reach h' r a -> (forall b, nth_error h' a <> Some (CBuf b)) ->
  forall m x, ref_ok h x -> view m (update h' a c) x = view m h x.
Proof.
  intros Hg Ho E Hra Hnb m x Hx. destruct (to_dicts_converts n h o h' _ Hg Ho E) as (new & -> & _ & H).
  destruct (H r eq_refl) as [_ Hnew]. destruct (Hnew a Hra) as (c0 & Hn & Hcell).
  assert (Hge : (length h <= a)%nat) by (destruct c0; cbn in Hcell; auto; try contradiction; exfalso; eapply Hnb; eauto).
  rewrite view_update; [apply view_app; auto; apply Hg|]. intros Hr.
  apply (reach_app h new x a (proj1 Hg) Hx) in Hr. apply (reach_ok h x a (proj1 Hg) Hx) in Hr. lia.
Qed.

Lemma to_dict_no_structs n h o h' r : good h -> ref_ok h o -> to_dicts classes n h o = (h', Ok r) -> no_structs h' r.
Proof.
  intros Hg Ho E a cid d Hr Hn. destruct (to_dicts_converts n h o h' _ Hg Ho E) as (new & -> & _ & H).
  destruct (H r eq_refl) as [_ Hnew]. destruct (Hnew a Hr) as (c0 & Hn' & Hcell). rewrite Hn in Hn'.
  injection Hn' as <-. exact Hcell.
Qed.

(** A bytearray is not copied. *)
Lemma to_dict_bytearray n h a b : nth_error h a = Some (CBuf b) -> to_dicts classes (S n) h (ORef a) = (h, Ok (ORef a)).
Proof. intros H. cbn [to_dicts]. rewrite H. auto. Qed.

(** ** Attributes *)

Lemma attribute_set f h a cid values o : nth_error h a = Some (CStruct cid values) -> assoc values (hf_name f) = Some o ->
  attribute f h a = (h, Ok o).
Proof. intros H1 H2. unfold attribute. rewrite H1, H2. auto. Qed.

Lemma attribute_default f h a cid values : nth_error h a = Some (CStruct cid values) -> assoc values (hf_name f) = None ->
  undefined (hf_default f) = false -> not_present (hf_default f) = false -> hf_present f h a = true ->
  attribute f h a = (h, Ok (hf_default f)).
Proof.
  intros H1 H2 H3 H4 H5. unfold attribute, value_for_dump. rewrite H1, H2, H3, H4, H5, H3. auto.
Qed.
End Conversion.

(** ** Setting, deleting, constructing *)

Lemma assoc_store values name o : assoc (store values name o) name = Some o.
Proof.
  induction values as [|[k x] values IH]; cbn [store assoc]; [rewrite String.eqb_refl; auto|].
  destruct (String.eqb k name) eqn:E; cbn [assoc]; rewrite E; auto.
Qed.

Lemma assoc_store_other values name name' o : name' <> name -> assoc (store values name o) name' = assoc values name'.
Proof.
  intros Hn. induction values as [|[k x] values IH]; cbn [store assoc].
  - destruct (String.eqb name name') eqn:E; auto. apply String.eqb_eq in E. congruence.
  - destruct (String.eqb k name) eqn:E; cbn [assoc]; [|destruct (String.eqb k name'); auto].
    apply String.eqb_eq in E as ->. destruct (String.eqb name name') eqn:E'; auto. apply String.eqb_eq in E'. congruence.
Qed.

Lemma assoc_removed (values : list (string * obj)) name : assoc (filter (fun x => negb (String.eqb (fst x) name)) values) name = None.
Proof.
  induction values as [|[k x] values IH]; cbn [filter fst]; auto.
  destruct (String.eqb k name) eqn:E; cbn [negb]; auto. cbn [assoc]. rewrite E. auto.
Qed.

Lemma assoc_removed_other (values : list (string * obj)) name name' : name' <> name ->
  assoc (filter (fun x => negb (String.eqb (fst x) name)) values) name' = assoc values name'.
Proof.
  intros Hn. induction values as [|[k x] values IH]; cbn [filter fst]; auto.
  destruct (String.eqb k name) eqn:E; cbn [negb assoc]; [|destruct (String.eqb k name'); auto].
  apply String.eqb_eq in E as ->. destruct (String.eqb name name') eqn:E'; auto. apply String.eqb_eq in E'. congruence.
Qed.

(** A field is changed in one instance, and in this field alone. *)
Lemma set_effect f h a o h' : set_attribute f h a o = (h', Ok tt) ->
  attribute f h' a = (h', Ok o)
  /\ (forall g cid values x, nth_error h a = Some (CStruct cid values) -> hf_name g <> hf_name f -> assoc values (hf_name g) = Some x ->
        attribute g h' a = (h', Ok x))
  /\ (forall b, b <> a -> nth_error h' b = nth_error h b)
  /\ (forall m x, ~ reach h x a -> view m h' x = view m h x).
Proof.
  unfold set_attribute. destruct (match hf_compute f with Some _ => true | None => hf_const f end); [discriminate|].
  destruct (nth_error h a) as [[l|d|b|cid values]|] eqn:Hn; try discriminate. intros [= <-].
  assert (Ha : (a < length h)%nat) by (apply nth_error_Some; congruence).
  split; [unfold attribute; rewrite update_same, assoc_store; auto|].
  split; [|split; [intros b Hb; apply update_other; auto|intros m x Hx; apply view_update; auto]].
  intros g cid' values' x Hn' Hname Hx. injection Hn' as <- <-. unfold attribute.
  rewrite update_same, assoc_store_other, Hx by auto. auto.
Qed.

Lemma set_refused f h a o : hf_compute f <> None \/ hf_const f = true ->
  set_attribute f h a o = (h, Raise (EImmutable (Some (hf_name f)))).
Proof. unfold set_attribute. intros [H|H]; destruct (hf_compute f); try rewrite H; auto. contradiction. Qed.

Lemma set_accepted f h a o cid values : hf_compute f = None -> hf_const f = false -> nth_error h a = Some (CStruct cid values) ->
  exists h', set_attribute f h a o = (h', Ok tt).
Proof. unfold set_attribute. intros -> -> ->. eauto. Qed.

Lemma delete_effect f h a cid values : nth_error h a = Some (CStruct cid values) ->
  undefined (hf_default f) = false -> not_present (hf_default f) = false -> (forall h, hf_present f h a = true) ->
  attribute f (delete_item f h a) a = (delete_item f h a, Ok (hf_default f))
  /\ forall g x, hf_name g <> hf_name f -> assoc values (hf_name g) = Some x -> attribute g (delete_item f h a) a = (delete_item f h a, Ok x).
Proof.
  intros Hn Hu Hnp Hp. unfold delete_item. rewrite Hn.
  assert (Ha : (a < length h)%nat) by (apply nth_error_Some; congruence). split.
  - eapply attribute_default; eauto using update_same, assoc_removed.
  - intros g x Hname Hx. unfold attribute. rewrite update_same, assoc_removed_other, Hx by auto. auto.
Qed.

Lemma delete_local f h a m x : ~ reach h x a -> view m (delete_item f h a) x = view m h x.
Proof.
  intros H. unfold delete_item. destruct (nth_error h a) as [[l|d|b|cid values]|]; auto. apply view_update. auto.
Qed.

Lemma new_struct_fields h cid values h' r f o : new_struct h cid values = (h', r) -> assoc values (hf_name f) = Some o ->
  exists a, r = ORef a /\ length h = a /\ attribute f h' a = (h', Ok o).
Proof.
  unfold new_struct, alloc. intros [= <- <-] Ho. exists (length h). split; auto. split; auto.
  eapply attribute_set; [|exact Ho]. rewrite nth_error_app2, Nat.sub_diag by lia. reflexivity.
Qed.

(** Instances with values of their own do not influence each other. *)
Lemma separate_instances h x y a c m : (forall b, reach h x b -> reach h y b -> False) -> reach h x a ->
  view m (update h a c) y = view m h y.
Proof. intros H Hx. apply view_update. eauto. Qed.

(** ** Where the object of a field comes from *)

Lemma undefined_iff o : undefined o = true <-> o = OVal VUndefined.
Proof. destruct o as [[]|]; cbn; split; congruence. Qed.

Lemma not_present_iff o : not_present o = true <-> o = OVal VNotPresent.
Proof. destruct o as [[]|]; cbn; split; congruence. Qed.

Lemma given_exists f h a values : exists h' o, given f h a values h' o.
Proof.
  destruct (assoc values (hf_name f)) as [o|] eqn:E.
  - destruct (undefined o) eqn:Eu; [|exists h, o; constructor 1; auto].
    assert (Hs : unset values (hf_name f)) by (right; eauto).
    destruct (undefined (hf_default f)) eqn:Ed; [|exists h, (hf_default f); constructor 2; auto].
    destruct (hf_compute f) as [fn|] eqn:Ec; [|exists h, (OVal VUndefined); constructor 4; auto].
    destruct (fn h a) as [h' o'] eqn:Ef. exists h', o'. econstructor 3; eauto.
  - assert (Hs : unset values (hf_name f)) by (left; auto).
    destruct (undefined (hf_default f)) eqn:Ed; [|exists h, (hf_default f); constructor 2; auto].
    destruct (hf_compute f) as [fn|] eqn:Ec; [|exists h, (OVal VUndefined); constructor 4; auto].
    destruct (fn h a) as [h' o'] eqn:Ef. exists h', o'. econstructor 3; eauto.
Qed.

Lemma value_for_dump_given f h a values h1 o : given f h a values h1 o ->
  value_for_dump f h a values =
  (h1, if not_present o || negb (hf_present f h1 a) then Ok (OVal VNotPresent)
       else if undefined o then Raise (EMissingRequired (Some (hf_name f))) else Ok o).
Proof.
  intros H. unfold value_for_dump.
  assert (Hun : unset values (hf_name f) -> match assoc values (hf_name f) with Some o => if undefined o then None else Some o | None => None end = None).
  { intros [->|(x & -> & ->)]; auto. }
  destruct H as [o H1 H2|H1 H2|fn h' o H1 H2 H3 H4|H1 H2 H3].
  - rewrite H1, H2. destruct (not_present o || _); auto. rewrite H2. auto.
  - rewrite (Hun H1), H2. destruct (not_present (hf_default f) || _); auto. rewrite H2. auto.
  - rewrite (Hun H1), H2, H3, H4. destruct (not_present o || _); auto. destruct (undefined o); auto.
  - rewrite (Hun H1), H2, H3. cbn [not_present undefined orb]. destruct (negb _); auto.
Qed.

Lemma value_for_dump_iff f h a values h1 r : value_for_dump f h a values = (h1, r) <->
  exists o, given f h a values h1 o /\ dumped_as f h1 a o r.
Proof.
  split.
  - intros E. destruct (given_exists f h a values) as (h' & o & Hg). rewrite (value_for_dump_given _ _ _ _ _ _ Hg) in E.
    injection E as -> <-. exists o. split; auto. destruct (not_present o) eqn:En.
    + apply not_present_iff in En as ->. cbn. constructor. auto.
    + cbn [orb]. destruct (hf_present f h1 a) eqn:Ep; cbn [negb]; [|constructor; auto].
      destruct (undefined o) eqn:Eu; [apply undefined_iff in Eu as ->; constructor; auto|].
      constructor; auto; intros ->; discriminate.
  - intros (o & Hg & Hd). rewrite (value_for_dump_given _ _ _ _ _ _ Hg). f_equal. destruct Hd as [o [->|Hp]|Hp|o Hp H1 H2]; auto.
    + rewrite Hp, orb_true_r. auto.
    + rewrite Hp. auto.
    + destruct (not_present o) eqn:En; [apply not_present_iff in En; contradiction|].
      destruct (undefined o) eqn:Eu; [apply undefined_iff in Eu; contradiction|]. rewrite Hp. auto.
Qed.

Lemma attribute_unset f h a cid values h1 r : nth_error h a = Some (CStruct cid values) -> assoc values (hf_name f) = None ->
  (attribute f h a = (h1, r) <-> exists o, given f h a values h1 o /\ dumped_as f h1 a o r).
Proof. intros H1 H2. unfold attribute. rewrite H1, H2. apply value_for_dump_iff. Qed.

(** ** Every entry of the dictionary *)
Section Entries.
Variable classes : nat -> list hfield.
Notation good := (good_heap classes).

Lemma field_objects_each cid fs : forall h a values h' d f, (forall f, In f fs -> In f (classes cid)) -> good h -> (a < length h)%nat ->
  (forall o, In o (map snd values) -> ref_ok h o) -> NoDup (map hf_name fs) ->
  field_objects fs h a values = (h', Ok d) -> In f fs -> hf_discard f = false ->
  exists new h1 o rest, value_for_dump f (h ++ new) a values = (h1, Ok o) /\ h' = h1 ++ rest /\ assoc d (hf_name f) = Some o.
Proof.
  induction fs as [|g fs IH]; intros h a values h' d f Hfs Hg Ha Hv Hnd E Hin Hd; [destruct Hin|].
  cbn [field_objects] in E. destruct (value_for_dump g h a values) as [h1 [x|e|]] eqn:E1; [|discriminate|discriminate].
  destruct (value_for_dump_grows classes g h a values h1 (Ok x) Hg) as (new1 & -> & Hg1 & _); auto.
  { exists cid. apply Hfs. left. auto. }
  destruct (field_objects fs (h ++ new1) a values) as [h2 [os|e|]] eqn:E2; [|discriminate|discriminate].
  injection E as <- <-. inversion Hnd as [|? ? Hni Hnd']; subst.
  assert (Hfs' : forall f0, In f0 fs -> In f0 (classes cid)) by (intros f0 H0; apply Hfs; right; auto).
  assert (Ha' : (a < length (h ++ new1))%nat) by (rewrite app_length; lia).
  assert (Hv' : forall o0, In o0 (map snd values) -> ref_ok (h ++ new1) o0) by (intros o0 H0; apply ref_ok_app; auto).
  destruct Hin as [->|Hin].
  - rewrite Hd. cbn [assoc]. rewrite String.eqb_refl.
    destruct (field_objects_grows classes cid fs _ _ _ _ _ Hfs' Hg1 Ha' Hv' E2) as (new2 & -> & _).
    exists [], (h ++ new1), x, new2. rewrite app_nil_r. auto.
  - destruct (IH _ _ _ _ _ f Hfs' Hg1 Ha' Hv' Hnd' E2 Hin Hd) as (new & h3 & o & rest & H1 & H2 & H3).
    exists (new1 ++ new), h3, o, rest. rewrite app_assoc. split; auto. split; auto.
    destruct (hf_discard g); auto. cbn [assoc]. destruct (String.eqb (hf_name g) (hf_name f)) eqn:En; auto.
    apply String.eqb_eq in En. exfalso. apply Hni. rewrite En. apply in_map. auto.
Qed.

Lemma to_dict_every_entry n h a cid values h' r f : good h -> nth_error h a = Some (CStruct cid values) ->
  NoDup (map hf_name (classes cid)) -> to_dicts classes (S n) h (ORef a) = (h', Ok r) ->
  In f (classes cid) -> hf_discard f = false ->
  exists b items o' new1 h1 o0 o new2 h2 rest,
    r = ORef b /\ nth_error h' b = Some (CDict items) /\ assoc items (hf_name f) = Some o'
    /\ given f (h ++ new1) a values h1 o0 /\ dumped_as f h1 a o0 (Ok o)
    /\ to_dicts classes n (h1 ++ new2) o = (h2, Ok o') /\ h' = h2 ++ rest.
Proof.
  intros Hg Hn Hnd E Hf Hdis. cbn [to_dicts] in E. rewrite Hn in E.
  assert (Ha : (a < length h)%nat) by (apply nth_error_Some; congruence).
  assert (Hv : forall o, In o (map snd values) -> ref_ok h o) by (intros o0 Ho; eapply (closed_nth h a); [apply Hg|eauto|auto]).
  destruct (field_objects (classes cid) h a values) as [hd [d|e|]] eqn:E1; [|discriminate|discriminate].
  destruct (field_objects_each cid _ _ _ _ _ _ f (fun f H => H) Hg Ha Hv Hnd E1 Hf Hdis) as (new1 & h1 & o & rest1 & H1 & H2 & H3).
  destruct (field_objects_grows classes cid (classes cid) _ _ _ _ _ (fun f H => H) Hg Ha Hv E1) as (newd & Ehd & Hgd & Hd).
  destruct (Hd d eq_refl) as [Hd1 Hd2].
  assert (Hnd' : NoDup (map fst d)) by (rewrite Hd2; apply filter_names_nodup; auto).
  destruct (convert_dict_each classes _ (to_dicts_converts classes n) d _ _ _ (hf_name f) o Hgd Hd1 Hnd' E H3)
    as (b & items & new & h2 & o' & rest & -> & Hb & Hi & Hc & _ & _ & -> & _).
  apply value_for_dump_iff in H1 as (o0 & Hgiven & Hdump).
  exists b, items, o', new1, h1, o0, o, (rest1 ++ new), h2, rest.
  rewrite H2, <- app_assoc in Hc. repeat (split; auto).
Qed.
End Entries.
