(** An instance rebuilt from its own [to_dict()] (C64). *)
From Verif Require Import Tac FieldMore StructProofs ToDictProofs ContainedProofs.
From Verif Require Export RoundProofs.

(** Converting again changes nothing. *)
Lemma recursive_again E n : forall v v', recursive_to_dicts E n v = Ok v' -> recursive_to_dicts E n v' = Ok v'.
Proof.
  induction n as [|n IH]; intros v v' H; [discriminate|].
  assert (Hd : forall d d', mapM (fun kv => do v <- recursive_to_dicts E n (snd kv); Ok (fst kv, v)) d = Ok d' ->
            mapM (fun kv : string * value => do v <- recursive_to_dicts E n (snd kv); Ok (fst kv, v)) d' = Ok d').
  { intros d. induction d as [|kv d IHd]; intros d' Hd'; [injection Hd' as <-; reflexivity|].
    cbn [mapM] in Hd'. destruct (recursive_to_dicts E n (snd kv)) as [u| |] eqn:Hu; try discriminate. cbn [bind] in Hd'.
    destruct (mapM _ d) as [t| |] eqn:Ht; try discriminate. injection Hd' as <-.
    cbn [mapM fst snd]. rewrite (IH _ _ Hu). cbn [bind]. rewrite (IHd _ eq_refl). reflexivity. }
  assert (Hl : forall l l', mapM (recursive_to_dicts E n) l = Ok l' -> mapM (recursive_to_dicts E n) l' = Ok l').
  { intros l. induction l as [|x l IHl]; intros l' Hl'; [injection Hl' as <-; reflexivity|].
    cbn [mapM] in Hl'. destruct (recursive_to_dicts E n x) as [u| |] eqn:Hu; try discriminate. cbn [bind] in Hl'.
    destruct (mapM _ l) as [t| |] eqn:Ht; try discriminate. injection Hl' as <-.
    cbn [mapM]. rewrite (IH _ _ Hu). cbn [bind]. rewrite (IHl _ eq_refl). reflexivity. }
  destruct v; cbn [recursive_to_dicts] in H; try (injection H as <-; reflexivity);
    repeat match goal with
    | H : (do _ <- ?x; _) = Ok _ |- _ => destruct x eqn:?; [cbn [bind] in H|discriminate H|discriminate H]
    end; injection H as <-; cbn [recursive_to_dicts];
    match goal with Hm : mapM _ _ = Ok _ |- _ => first [rewrite (Hl _ _ Hm)|rewrite (Hd _ _ Hm)] end;
    reflexivity.
Qed.

Lemma dicts_again E n d d' : dicts_of E n d = Ok d' -> dicts_of E n d' = Ok d'.
Proof.
  intros H. assert (Hr : recursive_to_dicts E (S n) (VDict d) = Ok (VDict d')).
  { assert (Heq : recursive_to_dicts E (S n) (VDict d) = do d' <- dicts_of E n d; Ok (VDict d')) by reflexivity.
    rewrite Heq, H. reflexivity. }
  apply recursive_again in Hr.
  assert (Heq : recursive_to_dicts E (S n) (VDict d') = do d' <- dicts_of E n d'; Ok (VDict d')) by reflexivity.
  rewrite Heq in Hr. destruct (dicts_of E n d') as [x| |]; try discriminate. injection Hr as ->. reflexivity.
Qed.

(** ** Nothing is UNDEFINED in [to_dict()] *)
Lemma compute_defined mem get keys c ctx v : run_q mem get keys (compute_value_for_dump c ctx) = Ok v ->
  is_undefined v = false.
Proof.
  rewrite run_compute. destruct (run_q mem get keys (stored_or_fallback c)) as [u| |]; try discriminate.
  destruct (is_not_present u); [intros [= <-]; reflexivity|].
  destruct (run_q mem get keys (c_present c ctx None)) as [[|]| |]; try discriminate.
  - destruct (is_undefined u) eqn:Hu; [discriminate|]. intros [= <-]. exact Hu.
  - intros [= <-]. reflexivity.
Qed.

Lemma converted_undefined E n v : recursive_to_dicts E n v = Ok VUndefined -> v = VUndefined.
Proof.
  destruct n; [discriminate|]. destruct v; cbn [recursive_to_dicts]; try discriminate; auto;
    intros H; repeat match type of H with
    | (do _ <- ?x; _) = Ok _ => destruct x eqn:?; [cbn [bind] in H|discriminate H|discriminate H]
    end; discriminate.
Qed.

Lemma to_dict_defined E n cid vals keep d name : instance_of E cid vals ->
  to_dict E n cid vals keep = Ok d -> dget d name <> Some VUndefined.
Proof.
  intros Hi H Hx. destruct (to_dict_spec _ _ _ _ _ _ Hi H) as (w & Hw & raw & Hr & _ & Hkeys & Hget).
  pose proof (dicts_of_get _ _ _ _ Hr name) as Hg.
  destruct (dget raw name) as [v|] eqn:Hv; [|congruence].
  destruct Hg as (u & Hu & Hd). rewrite Hd in Hx. injection Hx as ->. apply converted_undefined in Hu. subst v.
  assert (Hin : In name (map fst (comps E cid))) by (apply Hkeys, dget_in; eauto).
  apply in_map_iff in Hin. destruct Hin as ([nm f] & Hnm & Hin). cbn in Hnm. subst nm.
  destruct (Hget name f _ Hin Hv) as [H1|[_ H1]]; [|apply compute_defined in H1; discriminate].
  destruct (whatever_spec _ _ _ _ _ Hi Hw) as (_ & _ & Hspec). specialize (Hspec name f Hin).
  destruct (run_struct E n cid vals (compute_value_for_dump (conf f) VNone)) as [u| |] eqn:Hrun; [| |destruct Hspec].
  - unfold run_struct in Hrun. apply compute_defined in Hrun. rewrite H1 in Hspec. injection Hspec as <-. discriminate.
  - destruct Hspec as [_ Hspec]. rewrite H1 in Hspec.
    destruct (struct_mem vals name) eqn:Hm; [|discriminate].
    apply struct_mem_in in Hm. apply struct_keys_in in Hm; [|apply Hi]. destruct Hm as (x & Hx & Hne). congruence.
Qed.

(** ** Rebuilding *)
Section Rebuild.
Variables (E : env) (n cid : nat) (vals d : dict).
Hypothesis Hi : instance_of E cid vals.
Hypothesis Htd : to_dict E n cid vals false = Ok d.
Hypothesis Hpres : forall name f x, In (name, f) (k_comps (cls E cid)) -> dget d name = Some x ->
  x <> VNotPresent -> run_struct E n cid d (c_present (conf f) VNone None) = Ok true.
Hypothesis Hdis : forall name f, In (name, f) (k_comps (cls E cid)) -> c_discard (conf f) = true ->
  exists v, run_struct E n cid d (compute_value_for_dump (conf f) VNone) = Ok v.

Lemma rebuilt_filled : filled (cls E cid) d.
Proof.
  destruct (to_dict_keys _ _ _ _ _ _ Hi Htd) as [Hnd Hk]. split; auto. intros name. rewrite Hk.
  split; intros (f & Hin & H); exists f; split; auto. destruct H; auto. discriminate.
Qed.

Lemma rebuilt_instance : instance_of E cid d.
Proof.
  destruct rebuilt_filled as [Hnd Hk]. split; [apply Hi|]. split; auto. intros k Hin. apply Hk in Hin.
  destruct Hin as (f & Hin & _). apply in_map_iff. exists (k, f). auto.
Qed.

Lemma rebuilt_init : struct_init E cid d = Ok d.
Proof. apply init_ok_iff. split; auto. apply rebuilt_instance. Qed.

Lemma rebuilt_to_dict : to_dict E n cid d false = Ok d.
Proof.
  pose proof rebuilt_instance as Hid. pose proof rebuilt_filled as Hf. pose proof Hf as [Hnd Hk].
  pose proof Hi as (Hwf & _). pose proof (well_formed_bound _ Hwf) as Hb.
  assert (Hpick : forall name f, In (name, f) (k_comps (cls E cid)) -> exists v,
            run_struct E n cid d (compute_value_for_dump (conf f) VNone) = Ok v
            /\ dget d name = if c_discard (conf f) then None else Some v).
  { intros name f Hin. destruct (c_discard (conf f)) eqn:Hd.
    - destruct (Hdis name f Hin Hd) as [v Hv]. exists v. split; auto. apply dget_none. intros Hx.
      apply Hk in Hx. destruct Hx as (g & Hg & Hgd).
      pose proof (bound_assoc _ _ _ Hb Hin) as [H1 _]. pose proof (bound_assoc _ _ _ Hb Hg) as [H2 _]. congruence.
    - assert (Hx : In name (dkeys d)) by (apply Hk; eauto). apply dget_in in Hx. destruct Hx as [x Hx].
      exists x. split; auto. assert (Hu : is_undefined x = false).
      { destruct x; auto. destruct (to_dict_defined _ _ _ _ _ _ name Hi Htd). exact Hx. }
      destruct (bound_assoc _ _ _ Hb Hin) as [Ha Hn].
      unfold run_struct. rewrite run_compute. fold (run_struct E n cid d (stored_or_fallback (conf f))).
      rewrite (struct_value E n cid d name f Hwf Hid Hin true) by (symmetry; eapply mem_stored; eauto).
      rewrite (struct_get_stored E n cid d name f x Ha Hn Hx).
      destruct (is_not_present x) eqn:Hnp; [destruct x; try discriminate Hnp; reflexivity|].
      assert (Hp : run_struct E n cid d (c_present (conf f) VNone None) = Ok true).
      { eapply Hpres; eauto. intros ->. discriminate. }
      unfold run_struct in Hp. rewrite Hp, Hu. reflexivity. }
  destruct (to_dict_picks E n cid d Hwf Hid) as (D & HD & HndD & HinclD & HgetD & Hkeys).
  { intros name f Hin. destruct (Hpick name f Hin) as (v & Hv & _). eauto. }
  assert (HDd : D = d).
  { apply dict_ext; auto.
    - apply Hkeys; auto. intros k. exact (to_dict_defined E n cid vals false d k Hi Htd).
    - intros k Hin. apply HinclD in Hin. apply in_map_iff in Hin. destruct Hin as ([nm f] & Hnm & Hin).
      cbn in Hnm. subst nm. destruct (Hpick k f Hin) as (v & Hv & Hg). rewrite Hg.
      apply (HgetD k f v Hin Hv). }
  rewrite HD, HDd.
  destruct (to_dict_spec _ _ _ _ _ _ Hi Htd) as (w & _ & raw & Hr & _).
  eapply dicts_again; eauto.
Qed.

Lemma rebuilt_dump ctx : validated E n cid vals -> validated E n cid d ->
  struct_to_stream E n cid d ctx = struct_to_stream E n cid vals ctx.
Proof.
  intros Hv Hvd. unfold struct_to_stream, struct_to_stream_with.
  apply validate_contents_iff in Hv. apply validate_contents_iff in Hvd.
  rewrite Hv, Hvd, !dbind_ok, rebuilt_to_dict, Htd. reflexivity.
Qed.
End Rebuild.
