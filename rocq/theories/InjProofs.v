(** Dumps of straight classes determine the data: injectivity and prefix-freeness. *)
From Verif Require Export RoundProofs.

Lemma data_sym v w : same_data v w -> same_data w v.
Proof.
  induction 1 as [v|l m Hlen H IH|d e Hk H IH]; [constructor|..].
  - apply data_list; eauto.
  - apply data_dict; eauto. intros k. symmetry. apply Hk.
Qed.

Lemma data_trans v w u : same_data v w -> same_data w u -> same_data v u.
Proof.
  intros H. revert u. induction H as [v|l m Hlen H IH|d e Hk H IH]; intros u Hu; auto.
  - inversion Hu as [?|? p Hlen' H'|]; subst.
    + apply data_list; auto.
    + apply data_list; [congruence|]. intros i x z Hx Hz.
      destruct (nth_error m i) as [y|] eqn:Hy; [eauto|].
      apply nth_error_None in Hy. assert (i < length l)%nat by (apply nth_error_Some; congruence). lia.
  - inversion Hu as [?| |? p Hk' H']; subst.
    + apply data_dict; auto.
    + apply data_dict; [intros k; rewrite Hk; apply Hk'|]. intros k x z Hx Hz.
      destruct (dget e k) as [y|] eqn:Hy; [eauto|]. apply Hk in Hy. congruence.
Qed.

Lemma app_same_length {A} (a b c d : list A) : a ++ b = c ++ d -> length a = length c -> a = c.
Proof.
  revert c. induction a as [|x a IH]; intros [|y c] H Hl; try discriminate Hl; auto.
  cbn in H. injection H as -> H. f_equal. apply IH; auto.
Qed.

(** Two dumps of the same class, one of which starts the other (or what follows it). *)
Lemma dump_prefix E cid n vals ctx bs d n' vals' ctx' bs' d' suf suf' :
  instance_of E cid vals -> instance_of E cid vals' ->
  struct_to_stream E n cid vals ctx = (bs, Ok tt) -> to_dict E n cid vals false = Ok d ->
  struct_to_stream E n' cid vals' ctx' = (bs', Ok tt) -> to_dict E n' cid vals' false = Ok d' ->
  holds_struct E false cid d -> holds_struct E false cid d' -> bs ++ suf = bs' ++ suf' ->
  bs = bs' /\ suf = suf' /\ same_data (VDict d) (VDict d').
Proof.
  intros Hi Hi' Hs Htd Hs' Htd' Hsu Hsu' Heq.
  destruct (struct_roundtrip E n false cid vals ctx bs d Hi Hs Htd Hsu)
    as (w & e & _ & Hsame & Hgo & N1 & HN1).
  destruct (struct_roundtrip E n' false cid vals' ctx' bs' d' Hi' Hs' Htd' Hsu')
    as (w' & e' & _ & Hsame' & Hgo' & N1' & HN1').
  destruct (Hgo VNone [] suf) as [N2 HN2]; [discriminate|].
  destruct (Hgo' VNone [] suf') as [N2' HN2']; [discriminate|].
  set (N := Nat.max (Nat.max N1 N1') (Nat.max N2 N2')).
  specialize (HN2 N ltac:(lia)). specialize (HN2' N ltac:(lia)).
  unfold at_data, after_data in HN2, HN2'. rewrite <- Heq in HN2'. rewrite HN2 in HN2'.
  injection HN2' as Hlen Hw. subst w'. cbn in Hlen.
  assert (Hb : bs = bs') by (eapply app_same_length; eauto).
  subst bs'. split; auto. split; [apply app_inv_head in Heq; auto|].
  specialize (HN1 N ltac:(lia)). specialize (HN1' N ltac:(lia)). rewrite HN1 in HN1'.
  injection HN1' as <-. eapply data_trans; eauto. apply data_sym. auto.
Qed.

Lemma dump_injective E last last' cid n vals ctx bs d n' vals' ctx' d' :
  instance_of E cid vals -> instance_of E cid vals' ->
  struct_to_stream E n cid vals ctx = (bs, Ok tt) -> to_dict E n cid vals false = Ok d ->
  struct_to_stream E n' cid vals' ctx' = (bs, Ok tt) -> to_dict E n' cid vals' false = Ok d' ->
  holds_struct E last cid d -> holds_struct E last' cid d' ->
  same_data (VDict d) (VDict d').
Proof.
  intros Hi Hi' Hs Htd Hs' Htd' Hsu Hsu'.
  destruct (bytes_roundtrip E n last cid vals ctx bs d Hi Hs Htd Hsu) as (w & e & Hsame & Hgo).
  destruct (bytes_roundtrip E n' last' cid vals' ctx' bs d' Hi' Hs' Htd' Hsu') as (w' & e' & Hsame' & Hgo').
  destruct (Hgo VNone) as [N1 H1]. destruct (Hgo' VNone) as [N2 H2].
  destruct (H1 (Nat.max N1 N2) ltac:(lia)) as (_ & Hl & Ht).
  destruct (H2 (Nat.max N1 N2) ltac:(lia)) as (_ & Hl' & Ht').
  rewrite Hl in Hl'. injection Hl' as <-. rewrite Ht in Ht'. injection Ht' as <-.
  eapply data_trans; eauto. apply data_sym. auto.
Qed.

(** A file of instances, one dump after the other. *)
Lemma concat_roundtrip E cid (dumps : list (list Z)) :
  Forall (fun bs => exists n vals ctx d, instance_of E cid vals
    /\ struct_to_stream E n cid vals ctx = (bs, Ok tt) /\ to_dict E n cid vals false = Ok d
    /\ holds_struct E false cid d) dumps ->
  forall dumps', Forall (fun bs => exists n vals ctx d, instance_of E cid vals
    /\ struct_to_stream E n cid vals ctx = (bs, Ok tt) /\ to_dict E n cid vals false = Ok d
    /\ holds_struct E false cid d) dumps' ->
  length dumps = length dumps' -> concat dumps = concat dumps' -> dumps = dumps'.
Proof.
  induction 1 as [|bs dumps H1 H IH]; intros dumps' H' Hlen Heq; destruct H' as [|bs' dumps' H1' H'];
    try discriminate Hlen; auto.
  cbn in Heq. destruct H1 as (n & vals & ctx & d & ? & ? & ? & ?).
  destruct H1' as (n' & vals' & ctx' & d' & ? & ? & ? & ?).
  destruct (dump_prefix E cid n vals ctx bs d n' vals' ctx' bs' d' (concat dumps) (concat dumps'))
    as (-> & Ht & _); auto.
  f_equal. apply IH; auto.
Qed.
