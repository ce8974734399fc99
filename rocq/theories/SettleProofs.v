(** Rewriting what was loaded: the dump is loaded as the same value (C87). *)
From Coq Require Import String ZArith List Lia.
From Verif Require Import Tac PyIntProofs StreamProofs FieldProofs FieldMore StructProofs FuelProofs.
From Verif Require Import ForwardProofs ArrayProofs ToDictProofs ContainerProofs RoundProofs LocalProofs InjProofs.
From Verif Require Export SettleLeaf CanonProofs.
Import ListNotations.
Open Scope list_scope.
Open Scope Z_scope.

(** What the load consumed is empty just if what will be written is. *)
Definition used_up (s s1 : stream) (bs : list Z) : Prop :=
  exists cs, rest s = cs ++ rest s1 /\ s1 = advance s (length cs) /\ (cs = [] <-> bs = []).

Lemma used_up_nil s : used_up s s [].
Proof. exists []. cbn [length]. rewrite advance_0. repeat split; auto. Qed.

Lemma used_up_app s s1 s2 bs bs' : used_up s s1 bs -> used_up s1 s2 bs' -> used_up s s2 (bs ++ bs').
Proof.
  intros (cs & H1 & H2 & H3) (cs' & H4 & H5 & H6). exists (cs ++ cs').
  split; [rewrite H1, H4, app_assoc; auto|]. split; [rewrite H5, H2, advance_advance, app_length; auto|].
  split; intros H; apply app_eq_nil in H; destruct H as [Ha Hb].
  - rewrite (proj1 H3 Ha), (proj1 H6 Hb). auto.
  - rewrite (proj2 H3 Ha), (proj2 H6 Hb). auto.
Qed.

(** At the end of the data nothing more is consumed, or written. *)
Lemma used_up_end s s1 bs : used_up s s1 bs -> rest s = [] -> bs = [] /\ rest s1 = [].
Proof.
  intros (cs & H1 & _ & H3) H. rewrite H in H1. symmetry in H1. apply app_eq_nil in H1. tauto.
Qed.

Lemma used_same s s1 bs : rest s = bs ++ rest s1 -> s1 = advance s (length bs) -> used_up s s1 bs.
Proof. intros H1 H2. exists bs. tauto. Qed.

Section Settle.
Variable E : env.

(** What is shown about a successful load of a value: it is dumped, and loaded again from there. *)
Definition resettled (known : list string) (f : field) (d : dict) (s s1 : stream) (v : value) : Prop :=
  exists bs u N, used_up s s1 bs
    /\ settled v /\ v <> VNone /\ settled u /\ u <> VNone /\ (is_leaf (kind f) -> u = v)
    /\ recursive_to_dicts E N v = Ok u /\ recursive_to_dicts E N u = Ok u
    /\ (forall n' ctx' all, (N <= n')%nat -> keeps known d all ->
         do_dump E n' f u ctx' all = (bs, Ok tt) /\ fits_size (conf f) all bs)
    /\ forall n' ctx' s' suf, (N <= n')%nat -> rest s' = bs ++ suf -> (rest s1 = [] -> suf = []) ->
         do_load E n' f ctx' d s' = (advance s' (length bs), Ok v).

(** The same for a component. *)
Definition rewritten (known : list string) (f : field) (d : dict) (s s1 : stream) (v : value) : Prop :=
  exists bs u N, used_up s s1 bs
    /\ settled v /\ settled u /\ (is_leaf (kind f) -> u = v)
    /\ recursive_to_dicts E N v = Ok u /\ recursive_to_dicts E N u = Ok u
    /\ accepts (conf f) v /\ accepts (conf f) u
    /\ (forall n' ctx' all, (N <= n')%nat -> keeps known d all ->
         field_to_stream E n' f u ctx' all = (bs, Ok tt))
    /\ forall n' ctx' s' suf, (N <= n')%nat -> rest s' = bs ++ suf -> (rest s1 = [] -> suf = []) ->
         run_dict d (c_present (conf f) ctx' (Some s')) = Ok true ->
         field_from_stream E n' f ctx' d s' = (advance s' (length bs), Ok v).

Lemma load_up n m f ctx d s s1 v : (n <= m)%nat -> do_load E n f ctx d s = (s1, Ok v) ->
  do_load E m f ctx d s = (s1, Ok v).
Proof.
  intros Hle H. destruct (do_load_mono E n m Hle f ctx d s) as [Ho|Ho]; [rewrite H in Ho; discriminate|].
  congruence.
Qed.

Lemma eq_up n m a b r : (n <= m)%nat -> py_eq E n a b = Ok r -> py_eq E m a b = Ok r.
Proof. intros Hle. apply rle_ok. apply py_eq_mono. auto. Qed.

(** ** Leaves with one form *)
Lemma canonical_delimited nats c k : canonical_leaf nats c k -> delimited_leaf nats c k.
Proof.
  intros H. pose proof (canonical_sized _ _ _ H) as Hs.
  destruct H as [sg e n H Hp|i k0 e Hf H|tz sg e n H Hp|Hn|cd pad Hn|cd pad H|fmt Hf H];
    try destruct Hf; cbn [delimited_leaf]; auto; (split; [exact I|]); destruct Hs; auto; congruence.
Qed.

Lemma load_context n n' c k ctx ctx' d : leaf_kind k = true -> (n <= n')%nat -> forall s s1 v,
  do_load E n (Field c k) ctx d s = (s1, Ok v) -> do_load E n' (Field c k) ctx' d s = (s1, Ok v).
Proof.
  intros Hk Hle s s1 v H. apply (load_up n n'); auto. rewrite do_load_leaf in H |- * by auto. exact H.
Qed.

Lemma canonical_resettled n known nats c k ctx d s s1 v : canonical_leaf nats c k ->
  incl nats known -> have_nats nats d -> bytes_ok (rest s) -> nan_free v ->
  do_load E n (Field c k) ctx d s = (s1, Ok v) -> resettled known (Field c k) d s s1 v.
Proof.
  intros Hk Hi Hd Hb Hnan H. pose proof (canonical_leaf_is _ _ _ Hk) as Hl.
  destruct (leaf_redumped E n known nats c k ctx d s s1 v Hk Hi Hd Hb Hnan H)
    as (bs & u & N & R & A & S1 & S2 & S3 & S4 & L & C1 & C2 & W).
  exists bs, u, (Nat.max n N). split; [apply used_same; auto|]. do 5 (split; [assumption|]).
  do 2 (split; [eapply rtd_up; [|eassumption]; lia|]). split.
  { intros n' ctx' all Hn'. apply W. lia. }
  intros n' ctx' s' suf Hn' Hr _.
  assert (Hsd : self_delimiting (do_load E n (Field c k) ctx d)).
  { rewrite do_load_leaf by auto. apply (leaf_sd nats); auto. apply canonical_delimited. auto. }
  destruct (Hsd _ _ _ Hb H) as (bs' & suf' & R' & A' & Hload).
  assert (bs' = bs).
  { assert (Hlen : length bs' = length bs).
    { subst s1. apply (f_equal s_pos) in A'. cbn [advance s_pos] in A'. lia. }
    rewrite R in R'. symmetry. eapply app_same_length; eauto. }
  subst bs'. apply (load_context n n' c k ctx ctx'); auto. lia. apply (Hload s' suf). auto.
Qed.

Lemma steady_blind known c : steady known c -> blind c.
Proof.
  intros [H|(_ & _ & nm & p & _ & H)] ctx s s' d; unfold run_dict; rewrite !H; reflexivity.
Qed.

Lemma field_context n f ctx ctx' d s : run_dict d (c_present (conf f) ctx (Some s)) = Ok true ->
  run_dict d (c_present (conf f) ctx' (Some s)) = Ok true ->
  do_load E n f ctx d = do_load E n f ctx' d ->
  field_from_stream E n f ctx d s = field_from_stream E n f ctx' d s.
Proof.
  intros H1 H2 H3. unfold field_from_stream, field_from_stream_with, from_stream_with.
  rewrite H1, H2, H3. reflexivity.
Qed.

Lemma canonical_rewritten n known nats c k ctx d s s1 v : canonical_leaf nats c k -> canonical_null nats c k ->
  delimited_null nats c k -> steady known c ->
  incl nats known -> have_nats nats d -> bytes_ok (rest s) -> nan_free v ->
  run_dict d (c_present c ctx (Some s)) = Ok true ->
  field_from_stream E n (Field c k) ctx d s = (s1, Ok v) -> rewritten known (Field c k) d s s1 v.
Proof.
  intros Hk Hnull Hdn Hst Hi Hd Hb Hnan Hp H. pose proof (canonical_leaf_is _ _ _ Hk) as Hl.
  destruct (leaf_restored E n known nats c k ctx d s s1 v Hk Hnull Hi Hd Hb Hnan Hp H)
    as (bs & u & N & R & A & S1 & S2 & L & C1 & C2 & A1 & A2 & W).
  exists bs, u, (Nat.max n N). split; [apply used_same; auto|]. do 3 (split; [assumption|]).
  do 2 (split; [eapply rtd_up; [|eassumption]; lia|]). do 2 (split; [assumption|]). split.
  { intros n' ctx' all Hn'. apply W. lia. }
  intros n' ctx' s' suf Hn' Hr _ Hp'.
  assert (Hsd : self_delimiting (field_from_stream E n (Field c k) ctx d)).
  { apply (field_sd E n nats); auto.
    - constructor; auto; [eapply steady_blind; eauto|apply canonical_delimited; auto].
    - rewrite do_load_leaf by auto. apply (leaf_sd nats); auto. apply canonical_delimited. auto. }
  destruct (Hsd _ _ _ Hb H) as (bs' & suf' & R' & A' & Hload).
  assert (bs' = bs).
  { assert (Hlen : length bs' = length bs).
    { subst s1. apply (f_equal s_pos) in A'. cbn [advance s_pos] in A'. lia. }
    rewrite R in R'. symmetry. eapply app_same_length; eauto. }
  subst bs'. apply (loads_to_mono E n n'); [lia|].
  rewrite <- (field_context n (Field c k) ctx ctx' d s'); auto.
  - apply (Hload s' suf). auto.
  - cbn [conf]. rewrite (steady_blind _ _ Hst ctx s' s). auto.
  - rewrite !do_load_leaf by auto. reflexivity.
Qed.

(** ** Leaves with several forms *)
Lemma several_leaf nats c k : several_forms nats c k -> leaf_kind k = true /\ delimited_leaf nats c k.
Proof.
  intros [fmt Hs|fmt Hf|t pad Hn|cd pad Hs Hfa Hde]; (split; [reflexivity|]); cbn [delimited_leaf]; auto;
    (split; [exact I|]); auto.
  destruct Hf as [[_ H]|[_ H]]; left; eexists; (split; [exact H|lia]).
Qed.

Lemma several_resettled n known nats c k ctx d s s1 v : several_forms nats c k ->
  incl nats known -> have_nats nats d -> bytes_ok (rest s) -> oget d (c_name c) = None ->
  do_load E n (Field c k) ctx d s = (s1, Ok v) -> resettled known (Field c k) d s s1 v.
Proof.
  intros Hk Hi Hd Hb Hown H. destruct (several_leaf _ _ _ Hk) as [Hl Hdl]. pose proof H as H0.
  rewrite do_load_leaf in H by auto.
  destruct (several_redump nats c k d _ _ s s1 v Hk Hb Hd H)
    as (Hsu & Hlv & cs & bs & R & A & Hiff & Hok & Hsz & Hfit & W).
  assert (Hset : settled v /\ v <> VNone) by
    (split; [destruct v; try destruct Hlv; exact I|intros Hx; rewrite Hx in Hlv; destruct Hlv]).
  destruct Hset as [Hset Hnn].
  assert (Hrtd : recursive_to_dicts E 1 v = Ok v) by (destruct v; try destruct Hlv; reflexivity).
  assert (Hdump : forall n' ctx' all, keeps known d all ->
    do_dump E n' (Field c k) v ctx' all = (bs, Ok tt) /\ fits_size c all bs).
  { intros n' ctx' all Hkp. split.
    - rewrite do_dump_leaf by auto. apply W. destruct Hsz as [Hs|Hs]; auto. right. symmetry.
      apply (size_same nats); auto. eapply keeps_incl; eauto.
    - unfold fits_size. destruct (c_size c) as [|m|nm] eqn:Hs; auto.
      + destruct Hfit as [Hx|Hx]; [discriminate|]. unfold get_expected_size_with in Hx. rewrite Hs in Hx. congruence.
      + destruct Hfit as [Hx|Hx]; [discriminate|]. unfold get_expected_size_with in Hx. rewrite Hs in Hx.
        destruct Hsz as [Hy|[(? & Hy & _)|(x & Hy & Hin)]]; try congruence.
        assert (x = nm) by congruence. subst x.
        destruct (Hd nm Hin) as (z & Hz & _). rewrite Hz in Hx. apply Hkp; auto. congruence. }
  exists bs, v, 1%nat. split; [exists cs; auto|]. do 7 (split; [solve [auto]|]).
  split; [intros n' ctx' all _ Hkp; apply Hdump; auto|].
  intros n' ctx' s' suf _ Hr _.
  assert (Hdump' : field_to_stream E 0 (Field (RoundProofs.strip c) k) v VNone d = (bs, Ok tt)).
  { destruct (Hdump 0%nat VNone d) as [H1 H2]; [intros nm w _ Hw; exact Hw|].
    rewrite do_dump_leaf in H1 by auto.
    apply write_back; auto; [constructor|]. rewrite do_dump_leaf by auto.
    etransitivity; [|exact H1]. apply leaf_dump_strip; auto. }
  pose proof (leaf_rt E 0 (RoundProofs.strip c) k v VNone d bs (strip_suits _ _ _ _ Hsu) Hdump' n' ctx' d [] []
    (strip_suits _ _ _ _ Hsu) Hown) as Hload.
  rewrite (do_load_strip E n' c k v) in Hload by auto.
  assert (Hsd : self_delimiting (do_load E n' (Field c k) ctx' d)).
  { rewrite do_load_leaf by auto. apply (leaf_sd nats); auto. }
  destruct (Hsd _ _ _ ltac:(rewrite (VarintsMore.rest_at [] bs []), app_nil_r; exact Hok) Hload)
    as (bs' & suf' & R' & A' & Hany).
  assert (bs' = bs).
  { rewrite VarintsMore.rest_at, app_nil_r in R'.
    assert (Hlen : length bs' = length bs) by (apply (f_equal s_pos) in A'; cbn in A'; lia).
    symmetry. eapply app_same_length; [|symmetry; exact Hlen]. rewrite app_nil_r. exact R'. }
  subst bs'. apply (Hany s' suf). auto.
Qed.

(** From [_do_load]/[_do_dump] to [from_stream]/[to_stream]: fields that are not nullable. *)
Lemma plain_rewritten n known f ctx d s s1 v : c_null (conf f) = VUndefined ->
  (is_leaf (kind f) \/ bare (conf f)) ->
  (forall w, do_load E n f ctx d s = (s1, Ok w) -> nan_free w -> resettled known f d s s1 w) ->
  nan_free v -> run_dict d (c_present (conf f) ctx (Some s)) = Ok true ->
  field_from_stream E n f ctx d s = (s1, Ok v) -> rewritten known f d s s1 v.
Proof.
  intros Hnull Hval Hdl Hnan Hp H. apply from_stream_cases in H.
  assert (Hno : allow_null (conf f) = false) by (unfold allow_null; rewrite Hnull; auto).
  destruct H as [(Hx & _)|(_ & [(nb & _ & Hx & _)|(w & Hw & Hv & Hc & Ha)])]; [congruence|congruence|].
  destruct Hv as [[_ ->]|(Hx & _)]; [|congruence].
  destruct (Hdl _ Hw Hnan) as (bs & u & N & H1 & H3 & H4 & H5 & H6 & H7 & H8 & H9 & H10 & H11).
  assert (Hacc : accepts (conf f) u).
  { destruct Hval as [Hval|(_ & _ & Hval)]; [rewrite H7 by auto; auto|].
    unfold accepts. rewrite Hval. constructor. }
  exists bs, u, (Nat.max n N). do 4 (split; [solve [auto]|]).
  do 2 (split; [eapply rtd_up; [|eassumption]; lia|]). do 2 (split; [solve [auto]|]). split.
  - intros n' ctx' all Hn' Hkeep. destruct (H10 n' ctx' all ltac:(lia) Hkeep). apply write_back; auto.
  - intros n' ctx' s' suf Hn' Hr Hend Hp'. apply present_loads; auto.
    + destruct Hc as [Hc|Hc]; auto. right. apply (eq_up n); auto. lia.
    + apply (H11 n' ctx' s' suf); auto. lia.
Qed.

(** ** Arrays *)
Lemma items_resettled n known comp ctx d cnt name : unconditional (conf comp) ->
  (forall s s1 v, bytes_ok (rest s) -> nan_free v -> field_from_stream E n comp ctx d s = (s1, Ok v) ->
     rewritten known comp d s s1 v) ->
  forall fuel values s s1 w, bytes_ok (rest s) ->
  array_load fuel (array_halt cnt None name ctx d) (field_from_stream E n comp ctx d) values s = (s1, Ok w) ->
  exists new, w = VList (values ++ new)
    /\ (Forall nan_free new -> exists bs us N, used_up s s1 bs
         /\ length us = length new
         /\ mapM (recursive_to_dicts E N) new = Ok us /\ mapM (recursive_to_dicts E N) us = Ok us
         /\ (forall n' ctx' all, (N <= n')%nat -> keeps known d all ->
              dump_items (fun x => field_to_stream E n' comp x ctx' all) us = (bs, Ok tt))
         /\ forall n' fuel' ctx' s' suf, (N <= n')%nat -> (length new < fuel')%nat ->
              rest s' = bs ++ suf -> (rest s1 = [] -> suf = []) ->
              array_load fuel' (array_halt cnt None name ctx' d) (field_from_stream E n' comp ctx' d) values s'
              = (advance s' (length bs), Ok (VList (values ++ new))))
    /\ (cnt = CntNone -> rest s1 = [])
    /\ (cnt <> CntNone -> exists m, get_final_element_count cnt d = Ok (Some (CountInt m))
         /\ (zlen values <= m -> zlen (values ++ new) = m)).
Proof.
  intros Hun Hld. induction fuel as [|fuel IH]; intros values s s1 w Hb H; [discriminate|].
  cbn [array_load] in H. unfold array_halt at 1 in H.
  destruct (should_halt cnt name s values d) as [stop|e|] eqn:Hh; try discriminate. cbn [bind] in H.
  destruct stop.
  - injection H as <- <-. exists []. rewrite app_nil_r. split; auto. split; [|split].
    + intros _. exists [], [], O. split; [apply used_up_nil|]. do 3 (split; [reflexivity|]).
      split; [reflexivity|]. intros n' fuel' ctx' s' suf _ Hf Hr Hend.
      destruct fuel' as [|fuel']; [lia|]. cbn [array_load]. unfold array_halt at 1.
      replace (should_halt cnt name s' values d) with (Ok true); [cbn [bind length]; rewrite advance_0; auto|].
      cbn [app] in Hr. rewrite <- Hh. unfold should_halt in *. destruct cnt; auto.
      destruct (rest s) eqn:Hs; [|discriminate]. rewrite Hr, (Hend eq_refl). auto.
    + intros ->. unfold should_halt in Hh. destruct (rest s); auto. discriminate.
    + intros Hc. unfold should_halt in Hh. destruct cnt; [contradiction|..];
        destruct (get_final_element_count _ d) as [[[m|]|]|e|]; cbn [count_at_most bind] in Hh; try discriminate;
        injection Hh as Hh; exists m; (split; auto; lia).
  - destruct (field_from_stream E n comp ctx d s) as [s2 [v|e|]] eqn:Hv; try discriminate.
    assert (Hnp : is_not_present v = false).
    { destruct v; auto. exfalso.
      assert (Hs : rewritten known comp d s s2 VNotPresent) by (apply Hld; auto; apply nan_free_scalar; exact I).
      destruct Hs as (? & ? & ? & _ & Hs & _). exact Hs. }
    assert (Hb2 : bytes_ok (rest s2)).
    { eapply bytes_forward; eauto. eapply field_load_forward; eauto. }
    rewrite Hnp in H. apply IH in H; auto. destruct H as (new & -> & H1 & Hend & H2).
    exists (v :: new). rewrite <- app_assoc. split; [reflexivity|]. split; [|split; [exact Hend|]].
    + intros Hnan. inversion Hnan as [|? ? Hv1 Hnan']; subst.
      destruct (Hld _ _ _ Hb Hv1 Hv) as (bs1 & u & N1 & U1 & _ & _ & _ & C1 & C2 & _ & _ & W1 & L1).
      destruct (H1 Hnan') as (bs2 & us & N2 & U2 & Hlen & M1 & M2 & W2 & L2).
      exists (bs1 ++ bs2), (u :: us), (Nat.max N1 N2).
      pose proof (used_up_app _ _ _ _ _ U1 U2) as U. split; [exact U|].
      split; [cbn [length]; auto|].
      assert (E1 : (N1 <= Nat.max N1 N2)%nat) by lia. assert (E2 : (N2 <= Nat.max N1 N2)%nat) by lia.
      split; [|split; [|split]].
      * cbn [mapM]. rewrite (rtd_up _ _ _ _ _ E1 C1). cbn [bind]. rewrite (dict_list_up _ _ _ _ _ E2 M1). auto.
      * cbn [mapM]. rewrite (rtd_up _ _ _ _ _ E1 C2). cbn [bind]. rewrite (dict_list_up _ _ _ _ _ E2 M2). auto.
      * intros n' ctx' all Hn' Hkeep. cbn [dump_items]. rewrite W1 by (auto; lia).
        unfold dbind. rewrite W2 by (auto; lia). reflexivity.
      * intros n' fuel' ctx' s' suf Hn' Hf Hr Hsuf. cbn [length] in Hf.
        destruct fuel' as [|fuel']; [lia|]. cbn [array_load]. unfold array_halt at 1.
        replace (should_halt cnt name s' values d) with (Ok false).
        2:{ rewrite <- Hh. unfold should_halt in *. destruct cnt; auto.
            destruct (rest s) eqn:Hs; [discriminate|]. destruct (rest s') eqn:Hs'; auto. exfalso.
            symmetry in Hr. apply app_eq_nil in Hr. destruct Hr as [Hbs _].
            destruct U as (cs & R & _ & Hiff). rewrite (proj2 Hiff Hbs) in R. cbn [app] in R.
            rewrite Hend in R by auto. congruence. }
        cbn [bind]. rewrite <- app_assoc in Hr. rewrite (L1 n' ctx' s' (bs2 ++ suf)); auto; [|lia| |apply Hun].
        2:{ intros Hr2. destruct (used_up_end _ _ _ U2 Hr2) as [-> Hr1]. rewrite Hsuf; auto. }
        rewrite Hnp. rewrite (L2 n' fuel' ctx' (advance s' (length bs1)) suf); auto; try lia.
        -- rewrite advance_advance, app_length, <- app_assoc. reflexivity.
        -- exact (rest_advance_app _ _ _ Hr).
    + intros Hc. destruct (H2 Hc) as (m & Hm & Hlen). exists m. split; auto. intros Hle.
      rewrite <- app_assoc in Hlen. cbn [app] in Hlen. apply Hlen.
      unfold should_halt in Hh. destruct cnt; [contradiction|..]; rewrite Hm in Hh; cbn [count_at_most bind] in Hh;
        injection Hh as Hh; unfold zlen in *; rewrite app_length; cbn [length]; lia.
Qed.

Lemma fits_of_dumps f n u ctx all all' bs : sized_dumps E f -> do_dump E n f u ctx all = (bs, Ok tt) ->
  fits_size (conf f) all' bs.
Proof.
  intros [Hs|(m & Hs & Hm)] H; unfold fits_size; rewrite Hs; auto. exact (Hm _ _ _ _ _ H).
Qed.

Lemma array_resettled n known nats c comp cnt ctx d s s1 v : natural_count nats cnt ->
  sized_dumps E (Field c (KArray comp cnt None)) -> unconditional (conf comp) ->
  incl nats known -> have_nats nats d -> bytes_ok (rest s) -> nan_free v ->
  (forall s s1 v, bytes_ok (rest s) -> nan_free v -> field_from_stream E n comp ctx d s = (s1, Ok v) ->
     rewritten known comp d s s1 v) ->
  do_load E (S n) (Field c (KArray comp cnt None)) ctx d s = (s1, Ok v) ->
  resettled known (Field c (KArray comp cnt None)) d s s1 v.
Proof.
  intros Hcnt Hsz Hun Hi Hd Hb Hnan Hld H. pose proof H as H0. cbn [do_load kind] in H.
  change (field_from_stream_with E (do_load E n) n comp ctx d) with (field_from_stream E n comp ctx d) in H.
  apply (items_resettled n known) in H; auto. destruct H as (new & -> & H1 & _ & H2). cbn [app] in *.
  inversion Hnan as [|? Hx|? Hf| |]; subst; [destruct Hx|].
  destruct (H1 Hf) as (bs & us & N & U & Hlen & M1 & M2 & W & L).
  exists bs, (VList us), (S (Nat.max N (S (length new)))). split; auto.
  split; [exact I|]. split; [discriminate|]. split; [exact I|]. split; [discriminate|].
  split; [intros []|]. cbn [recursive_to_dicts].
  assert (E1 : (N <= Nat.max N (S (length new)))%nat) by lia.
  rewrite (dict_list_up _ _ _ _ _ E1 M1), (dict_list_up _ _ _ _ _ E1 M2). do 2 (split; [reflexivity|]). split.
  - intros n' ctx' all Hn' Hkeep.
    assert (Hdump : do_dump E n' (Field c (KArray comp cnt None)) (VList us) ctx' all = (bs, Ok tt));
      [|split; [exact Hdump|eapply fits_of_dumps; eauto]].
    destruct n' as [|n']; [lia|]. cbn [do_dump kind].
    change (fun x => field_to_stream_with (do_dump E n') comp x ctx' all)
      with (fun x => field_to_stream E n' comp x ctx' all).
    unfold array_dump. cbn [sized_items].
    assert (Hz : zlen us = zlen new) by (unfold zlen; congruence).
    destruct cnt as [|m|nm|]; [|destruct H2 as (m' & Hm & Hcount); [discriminate|]..].
    + cbn [get_final_element_count]. rewrite dbind_ok. apply W; auto. lia.
    + cbn [get_final_element_count] in Hm |- *. injection Hm as <-. rewrite dbind_ok.
      cbn [natural_count] in Hcnt. cbn [count_is].
      rewrite Hz, Hcount, Z.eqb_refl by (unfold zlen; cbn; lia). apply W; auto; lia.
    + cbn [natural_count] in Hcnt. destruct (Hd nm Hcnt) as (z & Hz1 & Hz2).
      cbn [get_final_element_count] in Hm |- *. rewrite Hz1 in Hm. injection Hm as <-.
      rewrite (Hkeep nm (VInt z)) by auto. rewrite dbind_ok.
      cbn [count_is]. rewrite Hz, Hcount, Z.eqb_refl by (unfold zlen; cbn; lia). apply W; auto; lia.
    + destruct Hcnt.
  - intros n' ctx' s' suf Hn' Hr Hend. destruct n' as [|n']; [lia|]. cbn [do_load kind].
    change (field_from_stream_with E (do_load E n') n' comp ctx' d) with (field_from_stream E n' comp ctx' d).
    apply (L n' n' ctx' s' suf); auto; lia.
Qed.

(** ** Structs *)
Definition comp_settles (n : nat) (ctx : value) : Prop := forall known nats f d s s1 v,
  settling E known nats f -> steady known (conf f) -> incl nats known -> have_nats nats d ->
  bytes_ok (rest s) -> nan_free v -> oget d (c_name (conf f)) = None ->
  run_dict d (c_present (conf f) ctx (Some s)) = Ok true ->
  field_from_stream E n f ctx d s = (s1, Ok v) -> rewritten known f d s s1 v.

Lemma field_resettled n ctx known nats name f d s s1 v : comp_settles n ctx -> settling E known nats f ->
  steady known (conf f) -> discard_ok f -> incl nats known -> have_nats nats d -> bytes_ok (rest s) ->
  dget d name = None -> c_name (conf f) = Some name -> (c_discard (conf f) = false -> nan_free v) ->
  field_from_stream E n f ctx d s = (s1, Ok v) ->
  exists bs N, used_up s s1 bs /\ entry E known (d ++ [(name, v)]) N (name, f) bs
    /\ forall n' ctx' s' suf, (N <= n')%nat -> rest s' = bs ++ suf -> (rest s1 = [] -> suf = []) ->
         field_from_stream E n' f ctx' d s' = (advance s' (length bs), Ok v).
Proof.
  intros Hcomp Hf Hst Hdis Hi Hd Hb Hnone Hname Hnan H.
  assert (Hv : dget (d ++ [(name, v)]) name = Some v).
  { rewrite dget_app, Hnone. cbn. rewrite String.eqb_refl. auto. }
  assert (Hext : forall nm w, dget d nm = Some w -> dget (d ++ [(name, v)]) nm = Some w).
  { intros nm w Hw. rewrite dget_app, Hw. auto. }
  assert (Hk : forall all, keeps known (d ++ [(name, v)]) all -> keeps known d all).
  { intros all Ha nm w Hin Hw. apply Ha; auto. }
  assert (Hkd : keeps known d (d ++ [(name, v)])) by (intros nm w _; auto).
  assert (Hd1 : c_discard (conf f) = true -> v = c_const (conf f)) by (intros; eapply discard_value; eauto).
  pose proof H as H0. apply from_stream_cases in H0.
  destruct H0 as [(Hp & -> & Hnp)|(Hp & _)].
  - exists [], O. split; [apply used_up_nil|].
    assert (Hcd : c_discard (conf f) = false).
    { destruct (c_discard (conf f)) eqn:Hc; auto. destruct (Hdis Hc) as (_ & Hu & _).
      unfold run_dict in Hp. rewrite Hu in Hp. discriminate. }
    pose proof (steady_presence _ _ _ _ _ _ Hst Hp) as Hpr. split.
    + exists v. split; auto. right; left.
      destruct Hst as [Hu|(Hval & Hund & _)].
      { unfold run_dict in Hp. rewrite Hu in Hp. discriminate. }
      split; [assumption|]. split; [reflexivity|]. split; [assumption|]. split; [subst v; assumption|].
      exact (presence_up _ _ _ _ _ _ (incl_refl _) Hkd Hpr).
    + intros n' ctx' s' suf _ _ _. cbn [length]. rewrite advance_0.
      unfold field_from_stream, field_from_stream_with, from_stream_with.
      rewrite (presence_run _ _ _ ctx' (Some s') _ Hpr), Hnp. reflexivity.
  - assert (Hnf : nan_free v).
    { destruct (c_discard (conf f)) eqn:Hc; auto. rewrite (Hd1 eq_refl).
      destruct (Hdis Hc) as (_ & _ & _ & Hpc & _).
      destruct (c_const (conf f)); try contradiction; apply nan_free_scalar; exact I. }
    assert (Hown : oget d (c_name (conf f)) = None) by (rewrite Hname; exact Hnone).
    destruct (Hcomp _ _ _ _ _ _ _ Hf Hst Hi Hd Hb Hnf Hown Hp H)
      as (bs & u & N & U & S1 & S2 & L & C1 & C2 & A1 & A2 & W & R).
    pose proof (steady_presence _ _ _ _ _ _ Hst Hp) as Hpr.
    exists bs, N. split; auto. split.
    + exists v. split; auto.
      destruct (c_discard (conf f)) eqn:Hc.
      * left. destruct (Hdis Hc) as (Hsl & Hun & _ & Hpc & Hdef & Hfac).
        assert (u = v). { apply L. cbn [snd] in *. destruct f as [c k]. cbn [kind] in *. destruct k; try contradiction; exact I. }
        subst u. rewrite <- (Hd1 eq_refl) in Hpc, Hdef. repeat (split; [assumption|]).
        intros n' ctx' all Hn' Ha. apply W; auto.
      * right; right. exists u. repeat (split; [assumption|]).
        split; [eapply presence_up; [apply incl_refl|exact Hkd|exact Hpr]|].
        intros n' ctx' all Hn' Ha. apply W; auto.
    + intros n' ctx' s' suf Hn' Hr Hend. apply (R n' ctx' s' suf); auto.
      exact (presence_run _ _ _ ctx' (Some s') _ Hpr).
Qed.

Lemma fields_resettled n ctx fs known nats : comp_settles n ctx ->
  settling_fields E known nats fs -> forall d s d' s', loads E n ctx fs d s d' s' ->
  incl nats known -> have_nats nats d -> bytes_ok (rest s) -> bound fs ->
  (forall name, In name (map fst fs) -> dget d name = None) ->
  (forall name f v, In (name, f) fs -> c_discard (conf f) = false -> dget d' name = Some v -> nan_free v) ->
  exists bss N K, incl known K
    /\ (forall nm, In nm K -> In nm known \/ exists f, In (nm, f) fs /\ referable f)
    /\ used_up s s' (concat bss)
    /\ Forall2 (entry E K d' N) fs bss
    /\ forall n' ctx' s0 suf, (N <= n')%nat -> rest s0 = concat bss ++ suf -> (rest s' = [] -> suf = []) ->
         loads E n' ctx' fs d s0 d' (advance s0 (length (concat bss))).
Proof.
  intros Hcomp Hfs. induction Hfs as [known nats|known nats name f fs Hf Href Hnat Hfs IH
    |known nats name f fs Hf Href Hfs IH|known nats name f fs Hf Hst Hdis Hfs IH];
    intros d s d' s' Hl Hi Hd Hb Hbd Hnone Hnan.
  { inversion Hl; subst. exists [], O, known. cbn [concat].
    split; [apply incl_refl|]. split; auto. split; [apply used_up_nil|]. split; [constructor|].
    intros n' ctx' s0 suf _ _ _. cbn [length]. rewrite advance_0. constructor. }
  all: inversion Hl as [|? ? ? ? ? v s1 ? ? Hv Hl']; subst.
  all: assert (Hown : dget d name = None) by (apply Hnone; left; auto).
  all: unfold dmem in Hl'; rewrite Hown in Hl'.
  all: assert (Hown' : dget d' name = Some v) by
    (destruct (loads_keys _ _ _ _ _ _ _ _ Hl') as (new & -> & _); rewrite !dget_app, Hown; cbn;
     rewrite String.eqb_refl; auto).
  all: assert (Hvn : c_discard (conf f) = false -> nan_free v) by
    (intros; eapply Hnan; eauto; left; auto).
  all: pose proof Hbd as [Hnd Hnames].
  all: assert (Hnone' : forall nm, In nm (map fst fs) -> dget (d ++ [(name, v)]) nm = None) by
    (intros nm Hnm; rewrite dget_app, Hnone by (right; auto); cbn;
     destruct (String.eqb_spec name nm) as [->|]; auto; inversion Hnd; contradiction).
  all: assert (Hb1 : bytes_ok (rest s1)) by
    (eapply bytes_forward; eauto; eapply field_load_forward; eauto).
  all: assert (Hbd' : bound fs) by (eapply bound_tail; eauto).
  all: assert (Hcn : c_name (conf f) = Some name) by (inversion Hnames; auto).
  all: assert (Hnan' : forall name f v, In (name, f) fs -> c_discard (conf f) = false ->
    dget d' name = Some v -> nan_free v) by (intros; eapply Hnan; eauto; right; eauto).
  all: assert (Hdd : forall nm w, dget (d ++ [(name, v)]) nm = Some w -> dget d' nm = Some w) by
    (destruct (loads_keys _ _ _ _ _ _ _ _ Hl') as (new & -> & _); intros nm w Hw; rewrite dget_app, Hw; auto).
  all: assert (Hstep : steady known (conf f) /\ discard_ok f) by (auto using referable_steady).
  all: destruct Hstep as [Hst' Hdis'].
  all: destruct (field_resettled n ctx known nats name f d s s1 v Hcomp Hf Hst' Hdis' Hi Hd Hb Hown Hcn Hvn Hv)
    as (bs & N & U & He & R).
  all: match type of IH with (forall _ _ _ _, _ -> incl ?ns ?kn -> _) =>
    assert (Hrec : exists bss N' K, incl kn K
      /\ (forall nm, In nm K -> In nm kn \/ exists f, In (nm, f) fs /\ referable f)
      /\ used_up s1 s' (concat bss)
      /\ Forall2 (entry E K d' N') fs bss
      /\ forall n' ctx' s0 suf, (N' <= n')%nat -> rest s0 = concat bss ++ suf -> (rest s' = [] -> suf = []) ->
           loads E n' ctx' fs (d ++ [(name, v)]) s0 d' (advance s0 (length (concat bss)))) end.
  2, 4, 6: destruct Hrec as (bss & N' & K & HK1 & HK2 & U' & Hall & R');
    exists (bs :: bss), (Nat.max N N'), K;
    (split; [intros x Hx; apply HK1; auto; right; auto|]);
    (split; [intros nm Hnm; destruct (HK2 nm Hnm) as [Hx|(g & Hg & Hr)];
             [try (destruct Hx as [<-|Hx]; [right; exists f; split; [left; auto|auto]|]); left; exact Hx
             |right; exists g; split; [right; auto|auto]]|]);
    cbn [concat]; (split; [eapply used_up_app; eauto|]);
    (split; [constructor;
      [eapply entry_up; [| |exact Hdd|exact He]; [intros x Hx; apply HK1; auto; right; auto|lia]
      |eapply forall2_impl; [|exact Hall]; intros nf b; apply entry_up; auto; [apply incl_refl|lia]]|]);
    intros n' ctx' s0 suf Hn' Hr Hend; rewrite <- app_assoc in Hr;
    (apply (loads_cons E n' ctx' name f fs d s0 v (advance s0 (length bs)));
     [apply (R n' ctx' s0 (concat bss ++ suf)); auto; [lia|];
      intros Hr1; destruct (used_up_end _ _ _ U' Hr1) as [-> Hr2]; rewrite Hend; auto
     |unfold dmem; rewrite Hown, app_length, <- advance_advance; apply (R' n' ctx' _ suf); auto; [lia|];
      exact (rest_advance_app _ _ _ Hr)]).
  - eapply IH; eauto.
    + intros x [<-|Hx]; [left; auto|right; auto].
    + intros x [<-|Hx].
      * destruct (natural_loads E _ _ _ _ _ _ _ Hnat Hb Hv) as (z & -> & Hz).
        exists z. rewrite dget_app, Hown. cbn. rewrite String.eqb_refl. auto.
      * apply (have_nats_app nats d [(name, v)]); auto.
  - eapply IH; eauto.
    + intros x Hx. right; auto.
    + apply have_nats_app; auto.
  - eapply IH; eauto. apply have_nats_app; auto.
Qed.

(** ** Everything together *)
Hypothesis Hschema : settling_schema E.

Lemma validated_up n m cid d : well_formed (cls E cid) -> (n <= m)%nat -> k_svals (cls E cid) = [] ->
  (forall name methods, In (name, methods) (k_fvals (cls E cid)) -> methods = []) ->
  validated E n cid d -> validated E m cid d.
Proof.
  intros _ Hle Hsv Hmeth [H1 _]. split; [|rewrite Hsv; constructor].
  intros name methods Hin. destruct (H1 name methods Hin) as (f & v & Ha & Hg & Hacc & _).
  exists f, v. split; auto. split; [|split; auto].
  - revert Hg. apply rle_ok. apply struct_get_mono. auto.
  - rewrite (Hmeth name methods Hin). constructor.
Qed.

Lemma struct_resettled n cid ctx s s1 vals : comp_settles n ctx -> bytes_ok (rest s) ->
  nan_free (VStruct cid vals) -> struct_from_stream E n cid ctx [] s = (s1, Ok vals) ->
  exists bs u N, used_up s s1 bs
    /\ recursive_to_dicts E N (VStruct cid vals) = Ok (VDict u)
    /\ recursive_to_dicts E N (VDict u) = Ok (VDict u)
    /\ struct_init E cid u = Ok u
    /\ (forall n' ctx', (N <= n')%nat -> struct_to_stream E n' cid vals ctx' = (bs, Ok tt)
         /\ struct_to_stream E n' cid u ctx' = (bs, Ok tt))
    /\ forall n' ctx' s' suf, (N <= n')%nat -> rest s' = bs ++ suf -> (rest s1 = [] -> suf = []) ->
         struct_from_stream E n' cid ctx' [] s' = (advance s' (length bs), Ok vals).
Proof.
  intros Hcomp Hb Hnan H. destruct (Hschema cid) as (Hwf & Hfs & Hmeth & Hsv).
  pose proof (well_formed_bound _ Hwf) as Hbd. pose proof Hbd as [Hnd0 _].
  apply struct_load_iff in H; auto; [|constructor]. destruct H as (d & Hl & Hkw & Hvalid & Hvals).
  destruct (loads_keys _ _ _ _ _ _ _ _ Hl) as (new & Hd & _ & Hkeys & Hnd).
  cbn [app] in Hd. subst new. specialize (Hnd ltac:(constructor)).
  assert (Hvg : forall name, dget vals name
    = if negb (discarded (k_comps (cls E cid)) name) then dget d name else None).
  { intros name. rewrite Hvals. apply (dget_filter_key (fun k => negb (discarded (k_comps (cls E cid)) k))). }
  destruct (fields_resettled n ctx _ [] [] Hcomp Hfs _ _ _ _ Hl) as (bss & N & K & _ & HK & U & Hent & R); auto.
  { apply incl_refl. }
  { intros nm []. }
  { intros name f v Hf Hdis Hv. inversion Hnan as [|? Hx| | |? ? Hall]; subst; [destruct Hx|].
    rewrite Forall_forall in Hall. apply (Hall (name, v)).
    apply assoc_in. rewrite <- dget_assoc, Hvg, (discarded_iff _ _ _ Hbd Hf), Hdis. auto. }
  assert (HK' : forall nm, In nm K -> exists f, In (nm, f) (k_comps (cls E cid)) /\ referable f).
  { intros nm Hin. destruct (HK nm Hin) as [[]|Hx]; auto. }
  assert (HN : (1 <= S N)%nat) by lia.
  assert (Hsh : shaped E cid K d (S N) bss vals).
  { split.
    - split; auto. split; [rewrite Hvals; apply nodup_filter_keys; auto|].
      intros name Hi. apply dget_in in Hi. destruct Hi as [v Hv]. rewrite Hvg in Hv.
      destruct (negb _); [|discriminate].
      destruct (proj1 (Hkeys name)) as [[]|Hx]; auto. apply dget_in. eauto.
    - eapply forall2_impl_in; [|exact Hent]. intros [name f] bs Hf He.
      apply (entry_up E K K d d N (S N)) in He; auto; [|apply incl_refl].
      destruct He as (v & Hv & He). cbn [fst snd] in *. exists v. split; auto. cbn [fst snd].
      specialize (Hvg name). rewrite (discarded_iff _ _ _ Hbd Hf) in Hvg.
      destruct He as [He|[He|(u & He)]].
      + left. split; auto. destruct He as (Hdis & _). rewrite Hdis in Hvg. auto.
      + right; left. split; auto. destruct He as (Hdis & _ & _ & Hu & _). rewrite Hdis in Hvg.
        exists v. rewrite Hvg. auto.
      + right; right. exists u. split; auto. destruct He as (Hdis & _). rewrite Hdis in Hvg.
        left. rewrite Hvg. auto. }
  destruct (shaped_to_dict E cid K d (S N) bss Hwf Hmeth HK' HN vals (S N) ltac:(lia) Hsh) as (u & Hu & Hi & Hfin).
  pose proof (final_shaped E cid K d (S N) bss u Hi Hfin) as Hshu.
  set (M := Nat.max n (S (S N))).
  exists (concat bss), u, M. split; auto.
  split; [|split; [|split; [|split]]].
  - apply (rtd_up E (S (S N))); [lia|].
    change (recursive_to_dicts E (S (S N)) (VStruct cid vals))
      with (do d <- to_dict E (S N) cid vals false; Ok (VDict d)). rewrite Hu. auto.
  - apply (rtd_up E (S (S N))); [lia|].
    change (recursive_to_dicts E (S (S N)) (VDict u)) with (do d <- dicts_of E (S N) u; Ok (VDict d)).
    erewrite (final_idem E cid K d (S N) bss); eauto.
  - apply init_ok_iff. split; auto. apply Hi.
  - intros n' ctx' Hn'. split; apply (shaped_dumps E cid K d (S N)); auto; lia.
  - intros n' ctx' s' suf Hn' Hr Hend. apply struct_load_iff; auto; [constructor|].
    exists d. split; [apply (R n' ctx' s' suf); auto; lia|]. split; auto. split; auto.
    apply (validated_up n); auto. lia.
Qed.

Lemma struct_as_settled n cid ctx s s1 v : comp_settles n ctx -> bytes_ok (rest s) -> nan_free v ->
  (ldo vals <- struct_from_stream E n cid ctx []; lret (VStruct cid vals)) s = (s1, Ok v) ->
  exists bs u N, used_up s s1 bs /\ settled v /\ v <> VNone
    /\ recursive_to_dicts E N v = Ok (VDict u) /\ recursive_to_dicts E N (VDict u) = Ok (VDict u)
    /\ struct_init E cid u = Ok u
    /\ (forall n' ctx', (N <= n')%nat -> struct_to_stream E n' cid u ctx' = (bs, Ok tt))
    /\ forall n' ctx' s' suf, (N <= n')%nat -> rest s' = bs ++ suf -> (rest s1 = [] -> suf = []) ->
         (ldo vals <- struct_from_stream E n' cid ctx' []; lret (VStruct cid vals)) s'
         = (advance s' (length bs), Ok v).
Proof.
  intros Hcomp Hb Hnan H. unfold lbind, lret in H.
  destruct (struct_from_stream E n cid ctx [] s) as [s2 [vals|e|]] eqn:Hs; try discriminate.
  injection H as <- <-.
  destruct (struct_resettled n cid ctx s s2 vals Hcomp Hb Hnan Hs) as (bs & u & N & U & C1 & C2 & Hini & W & R).
  exists bs, u, N. split; [assumption|]. split; [exact I|]. split; [discriminate|].
  do 3 (split; [assumption|]). split.
  - intros n' ctx' Hn'. apply W; auto.
  - intros n' ctx' s' suf Hn' Hr Hend. unfold lbind, lret. rewrite (R n' ctx' s' suf); auto.
Qed.

Lemma comp_of_load n ctx : (forall known nats f d s s1 v, settling E known nats f ->
    incl nats known -> have_nats nats d -> bytes_ok (rest s) -> nan_free v -> oget d (c_name (conf f)) = None ->
    do_load E n f ctx d s = (s1, Ok v) -> resettled known f d s s1 v) -> comp_settles n ctx.
Proof.
  intros IH known nats g d s s1 v Hg Hst Hi Hd Hb Hnan Hown Hp Hl.
  assert (Hload : forall w, do_load E n g ctx d s = (s1, Ok w) -> nan_free w -> resettled known g d s s1 w).
  { intros w Hw Hw'. exact (IH known nats g d s s1 w Hg Hi Hd Hb Hw' Hown Hw). }
  destruct Hg as [c k [Hk Hnull Hdn|Hk Hnull]|c comp cnt Hbare|c cid Hbare|c choices ld dd name pick Hbare].
  { eapply canonical_rewritten; eauto. }
  { apply (plain_rewritten n known _ ctx); auto. left. destruct Hk; exact I. }
  all: apply (plain_rewritten n known _ ctx); auto; apply Hbare.
Qed.

Lemma settling_resettled n : forall known nats f ctx d s s1 v, settling E known nats f ->
  incl nats known -> have_nats nats d -> bytes_ok (rest s) -> nan_free v -> oget d (c_name (conf f)) = None ->
  do_load E n f ctx d s = (s1, Ok v) -> resettled known f d s s1 v.
Proof.
  induction n as [|n IH]; intros known nats f ctx d s s1 v Hf Hi Hd Hb Hnan Hown H.
  { destruct Hf as [c k [Hk _ _|Hk _]| | |]; try discriminate.
    - eapply canonical_resettled; eauto.
    - eapply several_resettled; eauto. }
  assert (Hcomp : comp_settles n ctx) by (apply comp_of_load; intros; eapply IH; eauto).
  destruct Hf as [c k [Hk Hnull Hdn|Hk Hnull]|c comp cnt Hbare Hcnt Hsz Hsame Hun Hc|c cid Hbare Hsz
      |c choices ld dd name pick Hbare Hsz Hin Hld Hdd Hch].
  - eapply canonical_resettled; eauto.
  - eapply several_resettled; eauto.
  - eapply array_resettled; eauto. intros s' s1' v' Hb' Hnan' Hl.
    apply (Hcomp known nats); auto; [left; exact Hun| |apply Hun].
    cbn [conf] in Hown. destruct Hsame as [-> | ->]; auto.
  - pose proof H as H0. cbn [do_load kind] in H.
    destruct (struct_as_settled n cid ctx s s1 v Hcomp Hb Hnan H)
      as (bs & u & N & U & S1 & S2 & C1 & C2 & Hini & W & R).
    exists bs, (VDict u), (S N). do 3 (split; [assumption|]). split; [exact I|]. split; [discriminate|].
    split; [intros []|]. do 2 (split; [eapply rtd_up; [|eassumption]; lia|]). split.
    + intros n' ctx' all Hn' Hkeep.
      assert (Hdump : do_dump E n' (Field c (KNested cid)) (VDict u) ctx' all = (bs, Ok tt));
        [|split; [exact Hdump|eapply fits_of_dumps; eauto]].
      destruct n' as [|n']; [lia|]. cbn [do_dump kind]. rewrite Hini, dbind_ok.
      apply (W n' ctx'). lia.
    + intros n' ctx' s' suf Hn' Hr Hend. destruct n' as [|n']; [lia|]. cbn [do_load kind].
      apply (R n' ctx' s' suf); auto. lia.
  - pose proof H as H0. cbn [do_load kind] in H. rewrite Hld in H. unfold dget_res in H.
    destruct (dget d name) as [x|] eqn:Hx; [|discriminate]. cbn [bind] in H.
    destruct (nth_error choices (pick x)) as [[g|cid]|] eqn:Hnth; [| |discriminate].
    + destruct (Hch g) as (Hval & Hsame & Hg); [eapply nth_error_In; eauto|].
      assert (Hown' : oget d (c_name (conf g)) = None).
      { cbn [conf] in Hown. destruct Hsame as [-> | ->]; auto. }
      destruct (IH _ _ _ _ _ _ _ _ Hg Hi Hd Hb Hnan Hown' H)
        as (bs & u & N & U & S1 & S2 & S3 & S4 & _ & C1 & C2 & W & R).
      exists bs, u, (S N). do 5 (split; [assumption|]). split; [intros []|].
      do 2 (split; [eapply rtd_up; [|eassumption]; lia|]). split.
      * intros n' ctx' all Hn' Hkeep.
        assert (Hdump : do_dump E n' (Field c (KUnion choices ld dd)) u ctx' all = (bs, Ok tt));
          [|split; [exact Hdump|eapply fits_of_dumps; eauto]].
        destruct n' as [|n']; [lia|]. cbn [do_dump kind]. rewrite Hdd. unfold dget_res.
        rewrite (Hkeep name x Hin Hx). cbn [bind]. rewrite dbind_ok, Hnth.
        destruct (W n' ctx' all) as [W1 W2]; auto; [lia|].
        change (field_to_stream E n' g u ctx' all = (bs, Ok tt)). apply write_back; auto.
        unfold accepts. rewrite Hval. constructor.
      * intros n' ctx' s' suf Hn' Hr Hend. destruct n' as [|n']; [lia|]. cbn [do_load kind].
        rewrite Hld. unfold dget_res. rewrite Hx. cbn [bind]. rewrite Hnth.
        apply (R n' ctx' s' suf); auto. lia.
    + destruct (struct_as_settled n cid ctx s s1 v Hcomp Hb Hnan H)
        as (bs & u & N & U & S1 & S2 & C1 & C2 & Hini & W & R).
      exists bs, (VDict u), (S N). do 3 (split; [assumption|]). split; [exact I|]. split; [discriminate|].
      split; [intros []|]. do 2 (split; [eapply rtd_up; [|eassumption]; lia|]). split.
      * intros n' ctx' all Hn' Hkeep.
        assert (Hdump : do_dump E n' (Field c (KUnion choices ld dd)) (VDict u) ctx' all = (bs, Ok tt));
          [|split; [exact Hdump|eapply fits_of_dumps; eauto]].
        destruct n' as [|n']; [lia|]. cbn [do_dump kind]. rewrite Hdd. unfold dget_res.
        rewrite (Hkeep name x Hin Hx). cbn [bind]. rewrite dbind_ok, Hnth, Hini, dbind_ok.
        apply (W n' ctx'). lia.
      * intros n' ctx' s' suf Hn' Hr Hend. destruct n' as [|n']; [lia|]. cbn [do_load kind].
        rewrite Hld. unfold dget_res. rewrite Hx. cbn [bind]. rewrite Hnth.
        apply (R n' ctx' s' suf); auto. lia.
Qed.

Lemma settling_comp n ctx : comp_settles n ctx.
Proof. apply comp_of_load. intros. eapply settling_resettled; eauto. Qed.

(** Whatever is loaded is dumped, and its dump is loaded as the same instance, anywhere. *)
Lemma settling_struct n cid ctx s s1 vals : bytes_ok (rest s) -> nan_free (VStruct cid vals) ->
  struct_from_stream E n cid ctx [] s = (s1, Ok vals) ->
  exists bs N, (forall n' ctx', (N <= n')%nat -> struct_to_stream E n' cid vals ctx' = (bs, Ok tt))
    /\ forall n' ctx' s' suf, (N <= n')%nat -> rest s' = bs ++ suf -> (rest s1 = [] -> suf = []) ->
         struct_from_stream E n' cid ctx' [] s' = (advance s' (length bs), Ok vals).
Proof.
  intros Hb Hnan H.
  destruct (struct_resettled n cid ctx s s1 vals (settling_comp n ctx) Hb Hnan H)
    as (bs & u & N & _ & _ & _ & _ & W & R).
  exists bs, N. split; auto. intros. apply W; auto.
Qed.
End Settle.
