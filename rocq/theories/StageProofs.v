(** Proofs: what partial_dump writes, partial_load reads. *)
From Coq Require Import String ZArith List Lia.
From Verif Require Import FieldProofs StructProofs ArrayProofs ToDictProofs RoundLeaf ContainedProofs SizeProofs OldProofs.
From Verif Require Export SpecStage RoundProofs.
Import ListNotations.
Open Scope string_scope.
Open Scope list_scope.
Open Scope Z_scope.

(** [d] holds what is loaded for [fs]. *)
Definition holds_same (E : env) (vals : dict) (nf : string * field) (kv : string * value) : Prop :=
  fst kv = fst nf /\ exists v, own_value vals (fst nf) (conf (snd nf)) v /\ loaded_as E v (snd kv).

Lemma prefix_mono E n m ctx fs d s d' s' : (n <= m)%nat -> prefix_loads E n ctx fs d s d' s' ->
  prefix_loads E m ctx fs d s d' s'.
Proof.
  intros Hn H. induction H as [d s|name f fs d s v s1 d' s' Hf _ IH]; [constructor|].
  econstructor; [eapply loads_to_mono; eauto|exact IH].
Qed.

Lemma stages E n ctx vals last fs parts :
  Forall2 (own_part E n ctx vals) fs parts -> alone E last vals fs -> NoDup (map fst fs) ->
  Forall (fun nf => c_name (conf (snd nf)) = Some (fst nf)) fs ->
  exists new, Forall2 (holds_same E vals) fs new
    /\ forall ctx' d pre suf, (last = true -> suf = []) -> (forall k, In k (map fst fs) -> ~ In k (dkeys d)) ->
       exists N, prefix_loads E N ctx' fs d (at_data pre (concat parts) suf) (d ++ new)
         (after_data pre (concat parts) suf).
Proof.
  intros H. induction H as [|[name f] bs fs parts (v & Hv & Hd) Hrest IH]; intros Hal Hnd Hnames.
  - exists []. split; [constructor|]. intros ctx' d pre suf _ _. exists O. cbn [concat].
    rewrite after_nil, app_nil_r. constructor.
  - inversion Hnd as [|? ? Hni Hnd']; subst. inversion Hnames as [|? ? Hname Hnames']; subst. cbn in Hname, Hv, Hd.
    destruct (Hal [] name f fs v eq_refl Hv) as [Hdis Hs].
    destruct (proj1 (suits_rt E) _ _ _ _ _ Hs n ctx bs Hd) as (v' & Hla & _ & Hload).
    destruct IH as (new & Hnew & Hloads); auto.
    { intros pre nm g post w -> Hw. apply (Hal ((name, f) :: pre) nm g post w); auto. }
    exists ((name, v') :: new). split.
    { constructor; [|exact Hnew]. split; [reflexivity|]. exists v. auto. }
    intros ctx' d pre suf Hsuf Hfresh. cbn [concat].
    assert (Hd0 : oget d (c_name (conf f)) = None).
    { rewrite Hname. cbn. apply dget_none. apply Hfresh. left. reflexivity. }
    destruct (Hload ctx' d (fun r w Hr => match Hr with end) Hd0 pre (concat parts ++ suf)) as [N1 H1].
    { intros Hlast. unfold at_end in Hlast. destruct fs; [|discriminate].
      inversion Hrest; subst. cbn. auto. }
    destruct (Hloads ctx' (d ++ [(name, v')]) (pre ++ bs) suf Hsuf) as [N2 H2].
    { intros k Hk Hin. unfold dkeys in Hin. rewrite map_app in Hin. apply in_app_or in Hin.
      destruct Hin as [Hin|[<-|[]]]; [|contradiction]. apply (Hfresh k); auto. right. auto. }
    exists (Nat.max N1 N2). rewrite at_app. econstructor.
    + apply (loads_to_mono E N1); [lia|exact H1].
    + rewrite Hdis, after_at. rewrite after_app, <- app_assoc in H2.
      apply (prefix_mono E N2); [lia|exact H2].
Qed.

Lemma same_reads E vals fs new : Forall2 (holds_same E vals) fs new -> NoDup (map fst fs) -> reads_back E vals fs new.
Proof.
  intros H Hnd. assert (Hk : dkeys new = map fst fs).
  { clear Hnd. induction H as [|nf kv fs new [Hk _] _ IH]; [reflexivity|]. cbn. unfold dkeys in IH. rewrite IH, Hk. reflexivity. }
  split; [exact Hk|]. intros name f v Hin Hv.
  assert (Hin' : exists w, In (name, w) new /\ loaded_as E v w).
  { clear Hnd Hk. induction H as [|nf kv fs new (Hk & v0 & Hv0 & Hla) _ IH]; [destruct Hin|].
    destruct Hin as [->|Hin].
    - cbn in Hk, Hv0. exists (snd kv). split; [left; rewrite <- Hk; destruct kv; reflexivity|].
      destruct Hv as (dv & Hdv & ->), Hv0 as (dv0 & Hdv0 & ->). replace dv with dv0 by congruence. exact Hla.
    - destruct IH as (w & Hw & Hl); auto. exists w. split; [right; auto|auto]. }
  destruct Hin' as (w & Hw & Hla). destruct (converts E v w Hla) as (n & u & Hu & Hsame & _).
  exists w, n, u. split; [|auto]. apply in_dget; auto. rewrite Hk. exact Hnd.
Qed.

Lemma split_unique {A} (l l' : list (string * A)) name f f' m m' :
  l ++ (name, f) :: m = l' ++ (name, f') :: m' -> NoDup (map fst (l ++ (name, f) :: m)) -> l' = l /\ f' = f.
Proof.
  revert l'. induction l as [|x l IH]; intros [|y l'] H Hnd.
  - injection H as -> _. auto.
  - exfalso. injection H as <- ->. inversion Hnd as [|? ? Hni _]; subst. apply Hni. cbn [map fst].
    rewrite map_app. apply in_or_app. right. left. reflexivity.
  - exfalso. injection H as -> <-. inversion Hnd as [|? ? Hni _]; subst. apply Hni. cbn [map fst].
    rewrite map_app. apply in_or_app. right. left. reflexivity.
  - injection H as -> H. inversion Hnd; subst. destruct (IH l' H) as [-> ->]; auto.
Qed.

Lemma staged E n cid vals ctx out last fs post parts : well_formed (cls E cid) ->
  k_comps (cls E cid) = fs ++ post -> Forall2 (own_part E n ctx vals) fs parts -> out = concat parts ->
  alone E last vals fs ->
  exists vals', reads_back E vals fs vals' /\ forall ctx' pre suf, (last = true -> suf = []) ->
    exists N, forall n', (N <= n')%nat ->
      prefix_loads E n' ctx' fs [] (at_data pre out suf) vals' (after_data pre out suf).
Proof.
  intros (Hnd & Hnames & _) Hc Hp -> Hal. rewrite Hc in Hnd, Hnames. rewrite map_app in Hnd.
  apply nodup_app_l in Hnd. apply Forall_app in Hnames. destruct Hnames as [Hnames _].
  destruct (stages E n ctx vals last fs parts Hp Hal Hnd Hnames) as (new & Hnew & Hl).
  exists new. split; [apply same_reads; auto|]. intros ctx' pre suf Hsuf.
  destruct (Hl ctx' [] pre suf Hsuf (fun _ _ H => H)) as [N HN]. exists N. intros n' Hn.
  apply (prefix_mono E N); auto.
Qed.

Lemma stage_last E n cid vals name ctx out last : well_formed (cls E cid) ->
  partial_dump E n cid vals (Some name) ctx = (out, Ok tt) ->
  forall fs f post, k_comps (cls E cid) = fs ++ (name, f) :: post -> alone E last vals (fs ++ [(name, f)]) ->
  exists vals', reads_back E vals (fs ++ [(name, f)]) vals' /\ forall ctx' pre suf, (last = true -> suf = []) ->
    exists N, forall n', (N <= n')%nat ->
      partial_load E n' cid (Some name) ctx' (at_data pre out suf) = (after_data pre out suf, Ok vals').
Proof.
  intros Hwf Hd fs f post Hc Hal.
  assert (Hin : In name (map fst (k_comps (cls E cid)))).
  { rewrite Hc, map_app. apply in_or_app. right. left. reflexivity. }
  apply partial_dump_last in Hd; auto. destruct Hd as (fs' & f' & post' & parts & Hc' & Hp & ->).
  assert (Heq : fs' = fs /\ f' = f).
  { destruct Hwf as [Hnd _]. rewrite Hc in Hc', Hnd.
    apply (split_unique fs fs' name f f' post post'); auto. }
  destruct Heq as [-> ->].
  destruct (staged E n cid vals ctx (concat parts) last (fs ++ [(name, f)]) post parts) as (vals' & Hr & Hl); auto.
  { rewrite Hc, <- app_assoc. reflexivity. }
  exists vals'. split; [exact Hr|]. intros ctx' pre suf Hsuf. destruct (Hl ctx' pre suf Hsuf) as [N HN].
  exists N. intros n' Hn. apply partial_load_last; auto. exists fs, f, post. auto.
Qed.

Lemma stage_none E n cid vals ctx out last : well_formed (cls E cid) ->
  partial_dump E n cid vals None ctx = (out, Ok tt) ->
  exists fs post, k_comps (cls E cid) = fs ++ post
    /\ (forall nf, In nf fs -> exists v, own_value vals (fst nf) (conf (snd nf)) v)
    /\ match post with [] => True | (name, f) :: _ => own_value vals name (conf f) VUndefined end
    /\ (alone E last vals fs -> match post with [] => True | (_, f) :: _ => needs_data E f end ->
        exists vals', reads_back E vals fs vals' /\ forall ctx' pre, exists N, forall n', (N <= n')%nat ->
          partial_load E n' cid None ctx' (at_data pre out []) = (after_data pre out [], Ok vals')).
Proof.
  intros Hwf Hd. apply partial_dump_none in Hd; auto. destruct Hd as (fs & post & parts & Hc & Hp & -> & Hend).
  exists fs, post. split; [exact Hc|]. split.
  { intros nf Hin. clear Hc Hend. induction Hp as [|nf' bs fs parts (v & Hv & _) _ IH]; [destruct Hin|].
    destruct Hin as [->|Hin]; eauto. }
  split; [exact Hend|]. intros Hal Hneed.
  destruct (staged E n cid vals ctx (concat parts) last fs post parts) as (vals' & Hr & Hl); auto.
  exists vals'. split; [exact Hr|]. intros ctx' pre. destruct (Hl ctx' pre [] (fun _ => eq_refl)) as [N HN].
  destruct post as [|[name f] post].
  - exists N. intros n' Hn. apply partial_load_none; auto. exists fs, []. auto.
  - destruct (needs_data_ends E f Hneed) as [M HM]. exists (Nat.max N M). intros n' Hn.
    apply partial_load_none; auto. exists fs, ((name, f) :: post). split; [exact Hc|]. split; [apply HN; lia|].
    destruct (HM n' ltac:(lia) ctx' vals' (after_data pre (concat parts) [])) as (s1 & e & H1 & H2).
    { unfold after_data, rest. cbn [s_data s_pos]. rewrite app_nil_r. rewrite skipn_all2; auto.
      rewrite app_length. auto. }
    eauto.
Qed.

(** Completing the instance later. *)
Lemma own_part_defined E n ctx vals nf bs : own_part E n ctx vals nf bs ->
  exists v, own_value vals (fst nf) (conf (snd nf)) v /\ v <> VUndefined
    /\ field_to_stream E n (snd nf) v ctx [] = (bs, Ok tt).
Proof.
  intros (v & Hv & Hd). exists v. split; [exact Hv|]. split; [|exact Hd]. intros ->.
  destruct nf as [name [c k]]. cbn in Hd. discriminate.
Qed.

Lemma completed E n cid vals vals2 last ctx out full : instance_of E cid vals2 -> plain_data vals2 ->
  (forall name f, In (name, f) (k_comps (cls E cid)) -> simple f /\ self_contained E f) ->
  (forall l, last = Some l -> In l (map fst (k_comps (cls E cid)))) ->
  (forall name f v, In (name, f) (k_comps (cls E cid)) -> own_value vals name (conf f) v -> v <> VUndefined ->
     own_value vals2 name (conf f) v) ->
  partial_dump E n cid vals last ctx = (out, Ok tt) ->
  struct_to_stream E n cid vals2 ctx = (full, Ok tt) -> exists suffix, full = out ++ suffix.
Proof.
  intros Hi Hp Hs Hlast Hown Hd Hfull. pose proof Hi as (Hwf & _).
  assert (Hfs : exists fs post parts, k_comps (cls E cid) = fs ++ post
     /\ Forall2 (own_part E n ctx vals) fs parts /\ out = concat parts).
  { destruct last as [l|].
    - apply partial_dump_last in Hd; auto. destruct Hd as (fs & f & post & parts & Hc & Hf & ->).
      exists (fs ++ [(l, f)]), post, parts. split; [rewrite Hc, <- app_assoc; reflexivity|auto].
    - apply partial_dump_none in Hd; auto. destruct Hd as (fs & post & parts & Hc & Hf & -> & _).
      exists fs, post, parts. auto. }
  destruct Hfs as (fs & post & parts & Hc & Hf & ->).
  assert (Hf2 : Forall2 (own_part E n ctx vals2) fs parts).
  { assert (Hsub : incl fs (k_comps (cls E cid))) by (rewrite Hc; apply incl_appl, incl_refl).
    clear - Hf Hown Hsub. induction Hf as [|[name f] bs fs parts H _ IH]; constructor.
    - destruct (own_part_defined _ _ _ _ _ _ H) as (v & Hv & Hu & Hd). exists v. split; [|exact Hd].
      apply Hown; auto. apply Hsub. left. reflexivity.
    - apply IH. intros x Hx. apply Hsub. right. exact Hx. }
  destruct fs as [|x fs]; [inversion Hf; subst; exists full; reflexivity|].
  destruct (exists_last (l := x :: fs)) as (fs' & [l f] & Heq); [discriminate|]. rewrite Heq in *.
  apply (partial_dump_prefix E n cid vals2 (Some l) ctx (concat parts) full); auto.
  - intros l' [= <-]. rewrite Hc, !map_app. apply in_or_app. left. apply in_or_app. right. left. reflexivity.
  - apply partial_dump_last; auto.
    + rewrite Hc, !map_app. apply in_or_app. left. apply in_or_app. right. left. reflexivity.
    + exists fs', f, post, parts. split; [rewrite Hc, <- app_assoc; reflexivity|auto].
Qed.
