(** Proofs about files with several structs (C112). *)
From Coq Require Import Lia.
From Verif Require Import Tac SizeProofs StructProofs RoundProofs InjProofs.
From Verif Require Export SpecRecords.

Section Records.
Variable E : env.

Lemma read_records l out : recorded E l out ->
  exists l', Forall2 (read_back E) l l'
    /\ forall ctx pre suf, exists N, forall n, (N <= n)%nat ->
         read_each E n (map fst l) ctx (at_data pre out suf) = (after_data pre out suf, Ok l').
Proof.
  induction 1 as [|n cid vals ctx0 bs d l out Hi Hs Htd Hh Hr (l' & Hl' & IH)].
  - exists []. split; [constructor|]. intros ctx pre suf. exists 0%nat. intros n _. cbn [map read_each]. rewrite after_nil. reflexivity.
  - destruct (struct_roundtrip E n false cid vals ctx0 bs d Hi Hs Htd Hh) as (vals' & d' & Hi' & Hsame & Hgo & N1 & HN1).
    exists ((cid, vals') :: l'). split.
    { constructor; [|auto]. split; [reflexivity|]. split; [exact Hi'|]. exists N1, d'. auto. }
    intros ctx pre suf. destruct (Hgo ctx pre (out ++ suf) ltac:(discriminate)) as (N2 & HN2). destruct (IH ctx (pre ++ bs) suf) as (N3 & HN3).
    exists (N2 + N3)%nat. intros m Hm. cbn [map fst read_each]. unfold lbind at 1. rewrite at_app, HN2 by lia. rewrite after_at.
    unfold lbind. rewrite HN3 by lia. unfold lret. rewrite after_app. reflexivity.
Qed.

(** Records are found one by one: reading fewer of them ends where the next one begins. *)
Lemma recorded_app l m out : recorded E (l ++ m) out -> exists o1 o2, out = o1 ++ o2 /\ recorded E l o1 /\ recorded E m o2.
Proof.
  revert out. induction l as [|x l IH]; intros out H; cbn [app] in H.
  - exists [], out. split; [reflexivity|]. split; [constructor|exact H].
  - inversion H as [|n cid vals ctx bs d l0 out0 Hi Hs Htd Hh Hr]; subst. destruct (IH _ Hr) as (o1 & o2 & -> & H1 & H2).
    exists (bs ++ o1), o2. split; [apply app_assoc|]. split; [econstructor; eauto|exact H2].
Qed.

Lemma recorded_join l m o1 o2 : recorded E l o1 -> recorded E m o2 -> recorded E (l ++ m) (o1 ++ o2).
Proof.
  induction 1 as [|n cid vals ctx bs d l out Hi Hs Htd Hh Hr IH]; intros Hm; [exact Hm|]. cbn [app]. rewrite <- app_assoc. econstructor; eauto.
Qed.

Lemma read_first l m out : recorded E (l ++ m) out ->
  exists o1 o2 l', out = o1 ++ o2 /\ recorded E m o2 /\ Forall2 (read_back E) l l'
    /\ forall ctx pre suf, exists N, forall n, (N <= n)%nat ->
         read_each E n (map fst l) ctx (at_data pre out suf) = (at_data (pre ++ o1) o2 suf, Ok l').
Proof.
  intros H. destruct (recorded_app _ _ _ H) as (o1 & o2 & -> & H1 & H2). destruct (read_records _ _ H1) as (l' & Hl & Hgo).
  exists o1, o2, l'. split; [reflexivity|]. split; [exact H2|]. split; [exact Hl|]. intros ctx pre suf.
  destruct (Hgo ctx pre (o2 ++ suf)) as (N & HN). exists N. intros n Hn. rewrite at_app, HN by auto. rewrite after_at. reflexivity.
Qed.

(** The same bytes, read with the same classes, are the same records. *)
Lemma records_determined l m out : map fst l = map fst m -> recorded E l out -> recorded E m out ->
  Forall2 (fun a b => same_data (VDict (snd a)) (VDict (snd b))) l m.
Proof.
  intros Hc Hl Hm. destruct (read_records _ _ Hl) as (x & Hx & Hgx). destruct (read_records _ _ Hm) as (y & Hy & Hgy).
  destruct (Hgx VNone [] []) as (N1 & HN1). destruct (Hgy VNone [] []) as (N2 & HN2).
  specialize (HN1 (N1 + N2)%nat ltac:(lia)). specialize (HN2 (N1 + N2)%nat ltac:(lia)). rewrite Hc, HN2 in HN1. injection HN1 as ->.
  clear -Hx Hy. revert m Hy. induction Hx as [|a a' l x Ha Hx IH]; intros m Hy; inversion Hy as [|b ? m' ? Hb Hy']; subst; constructor; [|auto].
  destruct Ha as (_ & _ & N & d & Hd & HN). destruct Hb as (_ & _ & N' & d' & Hd' & HN').
  specialize (HN (N + N')%nat ltac:(lia)). specialize (HN' (N + N')%nat ltac:(lia)). rewrite HN in HN'. injection HN' as ->.
  eapply data_trans; [exact Hd|]. apply data_sym. exact Hd'.
Qed.
End Records.
