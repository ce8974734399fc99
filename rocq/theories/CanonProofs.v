(** Dumping what was loaded reproduces the bytes read (C63). *)
From Verif Require Import Tac PyIntProofs StreamProofs FieldProofs FieldMore StructProofs FuelProofs.
From Verif Require Import ForwardProofs ArrayProofs ToDictProofs ContainerProofs RoundProofs LocalProofs.
From Verif Require Export CanonLeaf.

Definition keeps (names : list string) (d all : dict) : Prop :=
  forall nm w, In nm names -> dget d nm = Some w -> dget all nm = Some w.

(** Data, or None. *)
Definition settled (v : value) : Prop :=
  match v with VUndefined | VDefault | VNotPresent => False | _ => True end.

Lemma keeps_incl K K' d all : incl K K' -> keeps K' d all -> keeps K d all.
Proof. intros Hi H nm w Hn. apply H. auto. Qed.

Lemma keeps_nats nats d all : keeps nats d all -> have_nats nats d -> have_nats nats all.
Proof. intros Hk H nm Hn. destruct (H nm Hn) as (z & Hz & Hp). exists z. auto. Qed.

(** ** Sizes and null values *)
Lemma size_same nats c k d all dd dd' : natural_size nats c -> have_nats nats d -> keeps nats d all ->
  get_expected_size_with dd c k d = get_expected_size_with dd' c k all.
Proof.
  intros [(n & Hs & _)|(nm & Hs & Hn)] Hd Hk; unfold get_expected_size_with; rewrite Hs; auto.
  destruct (Hd nm Hn) as (z & Hz & _). rewrite (Hk nm _ Hn Hz), Hz. auto.
Qed.

Lemma canonical_sized nats c k : canonical_leaf nats c k -> c_size c = SNone \/ natural_size nats c.
Proof.
  intros [sg e n H Hp|i k0 e Hf H|tz sg e n H Hp|Hn|cd pad Hn|cd pad H|fmt Hf H]; auto;
    right; left; eexists; split; eauto; try lia.
  destruct Hf; cbn; lia.
Qed.

Lemma canonical_dump E nats c k n n' v ctx ctx' d all : canonical_leaf nats c k ->
  have_nats nats d -> keeps nats d all ->
  do_dump E n (Field c k) v ctx d = do_dump E n' (Field c k) v ctx' all.
Proof.
  intros Hk Hd Ha. rewrite !do_dump_leaf by (eapply canonical_leaf_is; eauto).
  apply (leaf_dump_size nats); auto.
  destruct (canonical_sized _ _ _ Hk) as [Hs|Hs]; auto. right. eapply size_same; eauto.
Qed.

Lemma null_same E nats c k n n' d all : canonical_leaf nats c k -> canonical_null nats c k ->
  have_nats nats d -> keeps nats d all ->
  null_repr (do_dump E n) (Field c k) d = null_repr (do_dump E n') (Field c k) all.
Proof.
  intros Hk Hn Hd Ha. unfold null_repr, null_repr_with. cbn [conf].
  assert (Hg : c_null c = VNone \/ c_null c = VDefault ->
     ges (do_dump E n) (Field c k) d = ges (do_dump E n') (Field c k) all).
  { intros Hc. unfold ges. cbn [conf kind]. eapply size_same; eauto.
    destruct Hn as [Hn|[[_ Hn]|[[bs Hn]|[Hn _]]]]; auto; destruct Hc as [Hc|Hc]; rewrite Hc in Hn;
      try discriminate; destruct Hn. }
  destruct (c_null c); try rewrite Hg by auto; auto;
    rewrite (canonical_dump E nats c k n n' _ VNone VNone d all) by auto; auto.
Qed.

Lemma leaf_load_value c k g g0 s s1 v : is_leaf k -> leaf_load c k g g0 s = (s1, Ok v) -> leaf_value v.
Proof.
  intros Hk H. destruct k as [sg e|fmt mx|fmt e|r tz sg e| |cd pad|cd pad|fmt|comp cnt halt|cid|choices ld dmp];
    try contradiction; try (refine (proj1 (leaf_load_strict _ _ _ _ _ _ _ _ H)); exact I).
  cbn [leaf_load] in H. unfold lbind, llift, lret, lraise in H.
  destruct (read_exact_size c g0 s) as [s2 [z|ex|]]; try discriminate.
  destruct (zlen z =? ff_bytes fmt); try discriminate. injection H as _ <-. exact I.
Qed.

Lemma dump_bytes c k g b bs : leaf_dump c k g (VBytes b) = (bs, Ok tt) -> is_leaf k -> bs = b.
Proof.
  intros H Hk. destruct k as [sg e|fmt mx|fmt e|r tz sg e| |cd pad|cd pad|fmt|comp cnt halt|cid|choices ld dmp];
    try contradiction; cbn [leaf_dump] in H; try discriminate.
  - destruct (c_size c); discriminate.
  - destruct fmt; discriminate.
  - destruct g as [n| |]; try discriminate. rewrite dbind_ok in H.
    cbn [py_len] in H. destruct (negb (zlen b =? n)); try discriminate. injection H as <-. auto.
  - destruct fmt; discriminate.
Qed.

(** ** From [_do_load]/[_do_dump] to [from_stream]/[to_stream] *)
Section Redump.
Variable E : env.

(** What is shown about a successful load of a value. *)
Definition redumped (known : list string) (f : field) (d : dict) (s s1 : stream) (v : value) : Prop :=
  exists bs u N, rest s = bs ++ rest s1 /\ s1 = advance s (length bs)
    /\ settled v /\ v <> VNone /\ settled u /\ u <> VNone /\ (is_leaf (kind f) -> u = v)
    /\ recursive_to_dicts E N v = Ok u /\ recursive_to_dicts E N u = Ok u
    /\ forall n' ctx' all, (N <= n')%nat -> keeps known d all ->
         do_dump E n' f u ctx' all = (bs, Ok tt) /\ fits_size (conf f) all bs.

(** The same for a component. *)
Definition restored (known : list string) (f : field) (d : dict) (s s1 : stream) (v : value) : Prop :=
  exists bs u N, rest s = bs ++ rest s1 /\ s1 = advance s (length bs)
    /\ settled v /\ settled u /\ (is_leaf (kind f) -> u = v)
    /\ recursive_to_dicts E N v = Ok u /\ recursive_to_dicts E N u = Ok u
    /\ accepts (conf f) v /\ accepts (conf f) u
    /\ forall n' ctx' all, (N <= n')%nat -> keeps known d all ->
         field_to_stream E n' f u ctx' all = (bs, Ok tt).

Lemma data_of u : settled u -> u <> VNone -> is_data u = true.
Proof. destruct u; cbn; intros; try contradiction; auto. Qed.

Lemma write_back f u bs n ctx all : settled u -> u <> VNone -> accepts (conf f) u ->
  do_dump E n f u ctx all = (bs, Ok tt) -> fits_size (conf f) all bs ->
  field_to_stream E n f u ctx all = (bs, Ok tt).
Proof.
  intros Hs Hn Ha Hd Hf. unfold field_to_stream, field_to_stream_with.
  rewrite to_stream_data by (auto using data_of). rewrite Hd.
  apply sized_write_exact.
  - intros m Hm. unfold fits_size in Hf. rewrite Hm in Hf. auto.
  - intros nm Hm. unfold fits_size in Hf. rewrite Hm in Hf. unfold ges, get_expected_size_with.
    rewrite Hm, Hf. auto.
Qed.

Lemma leaf_redumped n known nats c k ctx d s s1 v : canonical_leaf nats c k ->
  incl nats known -> have_nats nats d -> bytes_ok (rest s) -> nan_free v ->
  do_load E n (Field c k) ctx d s = (s1, Ok v) -> redumped known (Field c k) d s s1 v.
Proof.
  intros Hk Hi Hd Hb Hnan H. pose proof (canonical_leaf_is _ _ _ Hk) as Hl.
  rewrite do_load_leaf in H by auto.
  match type of H with leaf_load _ _ ?g ?g0 _ = _ =>
    assert (Hg : natural_size nats c -> exists n, g = Ok n /\ 0 <= n) by
      (intros Hs; apply (natural_size_ok nats); auto);
    assert (Hg0 : forall m, c_size c = SInt m -> g = Ok m /\ g0 = Ok m) by
      (intros m Hm; unfold get_expected_size_with; rewrite Hm; auto)
  end.
  destruct (leaf_redump nats c k _ _ s s1 v Hk Hb Hg Hg0 H Hnan) as (bs & H1 & H2 & H3 & H4 & H5).
  - assert (Hv : recursive_to_dicts E 1 v = Ok v) by (destruct v; try destruct H4; reflexivity).
    exists bs, v, 1%nat. split; auto. split; auto.
    assert (Hset : settled v /\ v <> VNone) by
      (split; [destruct v; try destruct H4; exact I|intros Hx; rewrite Hx in H4; destruct H4]).
    destruct Hset as [Hset Hnn]. do 7 (split; [solve [auto]|]). intros n' ctx' all _ Hkp. split.
    + rewrite <- H3, do_dump_leaf by auto. symmetry. apply (leaf_dump_size nats); auto.
      destruct (canonical_sized _ _ _ Hk) as [Hs|Hs]; auto. right.
      apply (size_same nats); auto. eapply keeps_incl; eauto.
    + unfold fits_size. cbn [conf]. destruct (c_size c) as [|m|nm] eqn:Hs; auto.
      * destruct H5 as [H5|H5]; [discriminate|]. unfold get_expected_size_with in H5. rewrite Hs in H5. congruence.
      * destruct H5 as [H5|H5]; [discriminate|]. unfold get_expected_size_with in H5. rewrite Hs in H5.
        destruct (canonical_sized _ _ _ Hk) as [Hx|[(? & Hx & _)|(x & Hx & Hin)]]; try congruence.
        assert (x = nm) by congruence. subst x.
        destruct (Hd nm Hin) as (z & Hz & _). rewrite Hz in H5.
        apply Hkp; auto. congruence.
Qed.

(** What [from_stream] adds to a successful [_do_load]. *)
Definition checks (n : nat) (c : fconf) (w v : value) : Prop :=
  (allow_null c = false /\ v = w
   \/ allow_null c = true /\ exists b, py_eq E n w (c_null c) = Ok b /\ v = if b then VNone else w)
  /\ (c_const c = VUndefined \/ py_eq E n v (c_const c) = Ok true)
  /\ accepts c v.

Lemma from_stream_cases n f ctx d s s1 v :
  field_from_stream E n f ctx d s = (s1, Ok v) ->
  (run_dict d (c_present (conf f) ctx (Some s)) = Ok false /\ s1 = s /\ v = c_npv (conf f))
  \/ run_dict d (c_present (conf f) ctx (Some s)) = Ok true
     /\ ((exists nb, null_repr (do_dump E n) f d = Ok nb /\ allow_null (conf f) = true
            /\ rest s = nb ++ rest s1
            /\ s1 = advance s (length nb) /\ v = VNone /\ accepts (conf f) VNone)
         \/ exists w, do_load E n f ctx d s = (s1, Ok w) /\ checks n (conf f) w v).
Proof.
  intros H. unfold field_from_stream, field_from_stream_with, from_stream_with in H.
  set (lv := lbind _ _) in H.
  assert (Hlv : lv s = (s1, Ok v) -> exists w, do_load E n f ctx d s = (s1, Ok w) /\ checks n (conf f) w v).
  { clear H. intros H. subst lv. unfold lbind, llift, lret in H.
    destruct (do_load E n f ctx d s) as [s2 [w|e|]]; try discriminate.
    destruct (if allow_null (conf f) then _ else _) as [v'|e|] eqn:Hv; try discriminate.
    destruct (if negb (is_undefined (c_const (conf f))) then _ else _) as [[]|e|] eqn:Hc; try discriminate.
    destruct (run_validators (c_validators (conf f)) v') as [[]|e|] eqn:Hr; try discriminate.
    injection H as <- <-. exists w. split; auto. split; [|split].
    - destruct (allow_null (conf f)); [right; split; auto|left; split; congruence].
      destruct (py_eq E n w (c_null (conf f))) as [b|e|]; try discriminate. injection Hv as <-. eauto.
    - destruct (is_undefined (c_const (conf f))) eqn:Hu; cbn [negb] in Hc.
      + left. destruct (c_const (conf f)); try discriminate; auto.
      + right. destruct (py_eq E n v' (c_const (conf f))) as [[|]|e|]; try discriminate. auto.
    - apply run_accepts; auto. }
  destruct (run_dict d (c_present (conf f) ctx (Some s))) as [[|]|e|] eqn:Hp; try discriminate.
  - right. split; auto. destruct (allow_null (conf f)) eqn:Ha; auto.
    destruct (null_repr (do_dump E n) f d) as [nb|e|] eqn:Hnr; try discriminate.
    + unfold peek_bytes in H. destruct (read s (zlen nb)) as [data sx] eqn:Hrd. cbn [negb andb] in H.
      destruct (bytes_eqb data nb) eqn:Hbe; auto.
      apply bytes_eqb_iff in Hbe. subst data.
      destruct (run_validators (c_validators (conf f)) VNone) as [[]|e|] eqn:Hv; try discriminate.
      injection H as <- <-. apply read_spec in Hrd. destruct Hrd as (suf & Hr & ->).
      left. exists nb. repeat (split; auto); [|apply run_accepts; auto].
      rewrite Hr. f_equal. symmetry. apply rest_advance_app. auto.
    + destruct (is_UnserializableValueError e); [|discriminate].
      destruct (is_default (c_null (conf f))); [discriminate|]. auto.
  - left. injection H as <- <-. auto.
Qed.

(** None is written as the null representation. *)
Lemma write_none f n ctx all nb : accepts (conf f) VNone -> null_repr (do_dump E n) f all = Ok nb ->
  field_to_stream E n f VNone ctx all = (nb, Ok tt).
Proof.
  intros Ha Hn. unfold field_to_stream, field_to_stream_with, to_stream_with.
  cbn [is_default is_undefined is_none orb]. rewrite dbind_ok. rewrite (accepts_run _ _ Ha), dbind_ok, Hn.
  rewrite dbind_ok. reflexivity.
Qed.

Lemma leaf_restored n known nats c k ctx d s s1 v : canonical_leaf nats c k -> canonical_null nats c k ->
  incl nats known -> have_nats nats d -> bytes_ok (rest s) -> nan_free v ->
  run_dict d (c_present c ctx (Some s)) = Ok true ->
  field_from_stream E n (Field c k) ctx d s = (s1, Ok v) -> restored known (Field c k) d s s1 v.
Proof.
  intros Hk Hnull Hi Hd Hb Hnan Hp H. pose proof (canonical_leaf_is _ _ _ Hk) as Hl.
  assert (Hleaf : is_leaf k) by (destruct k; try discriminate; exact I).
  apply from_stream_cases in H. cbn [conf] in H.
  destruct H as [(Hx & _)|(_ & [(nb & Hnr & _ & Hr & Hs & -> & Ha)|(w & Hw & Hv & _ & Ha)])]; [congruence|..].
  - exists nb, VNone, 1%nat. repeat (split; auto). intros n' ctx' all _ Hkeep.
    apply write_none; auto. rewrite <- Hnr. symmetry. apply (null_same E nats); auto.
    eapply keeps_incl; eauto.
  - pose proof Hw as Hw0. rewrite do_load_leaf in Hw0 by auto.
    pose proof (leaf_load_value _ _ _ _ _ _ _ Hleaf Hw0) as Hlv.
    assert (Hcase : v = w \/ (v = VNone /\ py_eq E n w (c_null c) = Ok true)).
    { destruct Hv as [[_ ->]|(_ & [|] & He & ->)]; auto. }
    destruct Hcase as [->|[-> He]].
    + apply (leaf_redumped n known nats) in Hw; auto.
      destruct Hw as (bs & u & N & H1 & H2 & H3 & H4 & H5 & H6 & H7 & H8 & H9 & H10).
      assert (u = w) by auto. subst u.
      exists bs, w, N. repeat (split; auto). intros n' ctx' all Hn' Hkeep.
      destruct (H10 n' ctx' all Hn' Hkeep) as [H11 H12]. apply write_back; auto.
    + (* the value equals the null constant *)
      assert (Hwc : w = c_null c /\ nan_free w).
      { destruct n; [discriminate|].
        destruct Hnull as [Hn|[[Hn _]|[[bs Hn]|[Hn Hnf]]]].
        - exfalso. rewrite Hn in He. destruct w; try destruct Hlv; discriminate.
        - exfalso. destruct Hn as [Hn|Hn]; rewrite Hn in He; destruct w; try destruct Hlv; discriminate.
        - rewrite Hn in He |- *. destruct w; try destruct Hlv; try discriminate.
          cbn [py_eq] in He. injection He as He. apply bytes_eqb_iff in He. subst. split; auto.
          apply nan_free_scalar. exact I.
        - assert (Hst : strict_leaf k) by (destruct k; try contradiction; exact I).
          destruct (leaf_load_strict _ _ _ _ _ _ _ Hst Hw0) as [_ Hnf'].
          pose proof (py_eq_strict E _ _ _ Hlv Hnf' Hn He) as ->. split; auto.
          destruct (c_null c); try contradiction; apply nan_free_scalar; exact I. }
      destruct Hwc as [Hwc Hwn].
      apply (leaf_redumped n known nats) in Hw; auto.
      destruct Hw as (bs & u & N & H1 & H2 & H3 & H4 & H5 & H6 & H7 & H8 & H9 & H10).
      assert (u = w) by auto. subst u.
      exists bs, VNone, (S N). repeat (split; auto). intros n' ctx' all Hn' Hkeep.
      apply write_none; auto. destruct (H10 n' VNone all ltac:(lia) Hkeep) as [H11 _].
      unfold null_repr, null_repr_with. cbn [conf]. rewrite <- Hwc.
      destruct w; try destruct Hlv; try (rewrite H11; reflexivity).
      rewrite do_dump_leaf in H11 by auto. apply dump_bytes in H11; auto. congruence.
Qed.

(** Containers: not nullable, no constant, no validators. *)
Lemma bare_restored n known f ctx d s s1 v : bare (conf f) ->
  (forall v, do_load E n f ctx d s = (s1, Ok v) -> nan_free v -> redumped known f d s s1 v) ->
  nan_free v -> run_dict d (c_present (conf f) ctx (Some s)) = Ok true ->
  field_from_stream E n f ctx d s = (s1, Ok v) -> restored known f d s s1 v.
Proof.
  intros (Hnull & Hconst & Hval) Hdl Hnan Hp H. apply from_stream_cases in H.
  assert (Hno : allow_null (conf f) = false) by (unfold allow_null; rewrite Hnull; auto).
  destruct H as [(Hx & _)|(_ & [(nb & _ & Hx & _)|(w & Hw & Hv & _ & _)])]; [congruence|congruence|].
  destruct Hv as [[_ ->]|(Hx & _)]; [|congruence].
  destruct (Hdl _ Hw Hnan) as (bs & u & N & H1 & H2 & H3 & H4 & H5 & H6 & H7 & H8 & H9 & H10).
  assert (Hacc : forall x, accepts (conf f) x) by (intros x; unfold accepts; rewrite Hval; constructor).
  exists bs, u, N. do 8 (split; [solve [auto]|]). split; auto.
  intros n' ctx' all Hn' Hkeep. destruct (H10 n' ctx' all Hn' Hkeep). apply write_back; auto.
Qed.

(** ** Arrays *)
Lemma rtd_up n m v u : (n <= m)%nat -> recursive_to_dicts E n v = Ok u -> recursive_to_dicts E m v = Ok u.
Proof. intros Hn. apply rle_ok. apply recursive_mono. auto. Qed.

Lemma dict_list_up n m l us : (n <= m)%nat -> mapM (recursive_to_dicts E n) l = Ok us ->
  mapM (recursive_to_dicts E m) l = Ok us.
Proof. intros Hn. apply rle_ok. apply rle_mapM. intros. apply recursive_mono. auto. Qed.

Lemma bytes_forward s s1 : forward s s1 -> bytes_ok (rest s) -> bytes_ok (rest s1).
Proof.
  intros (Hd & Hp & _) H. unfold rest, bytes_ok in *. rewrite Hd.
  replace (s_pos s1) with (s_pos s + (s_pos s1 - s_pos s))%nat by lia.
  rewrite <- skipn_skipn. rewrite Forall_forall in H |- *. intros x Hx. apply H.
  rewrite <- (firstn_skipn (s_pos s1 - s_pos s) (skipn (s_pos s) _)). apply in_or_app. auto.
Qed.

Lemma rest_split s s1 bs : rest s = bs ++ rest s1 -> bytes_ok (rest s) -> bytes_ok (rest s1).
Proof. intros -> H. apply bytes_ok_app in H. tauto. Qed.

Lemma items_redumped n known comp ctx d cnt name : unconditional (conf comp) ->
  (forall s s1 v, bytes_ok (rest s) -> nan_free v -> field_from_stream E n comp ctx d s = (s1, Ok v) ->
     restored known comp d s s1 v) ->
  forall fuel values s s1 w, bytes_ok (rest s) ->
  array_load fuel (array_halt cnt None name ctx d) (field_from_stream E n comp ctx d) values s = (s1, Ok w) ->
  exists new, w = VList (values ++ new)
    /\ (Forall nan_free new -> exists bs us N, rest s = bs ++ rest s1 /\ s1 = advance s (length bs)
         /\ length us = length new
         /\ mapM (recursive_to_dicts E N) new = Ok us /\ mapM (recursive_to_dicts E N) us = Ok us
         /\ forall n' ctx' all, (N <= n')%nat -> keeps known d all ->
              dump_items (fun x => field_to_stream E n' comp x ctx' all) us = (bs, Ok tt))
    /\ (cnt <> CntNone -> exists m, get_final_element_count cnt d = Ok (Some (CountInt m))
         /\ (zlen values <= m -> zlen (values ++ new) = m)).
Proof.
  intros Hun Hld. induction fuel as [|fuel IH]; intros values s s1 w Hb H; [discriminate|].
  cbn [array_load] in H. unfold array_halt at 1 in H.
  destruct (should_halt cnt name s values d) as [stop|e|] eqn:Hh; try discriminate. cbn [bind] in H.
  destruct stop.
  - injection H as <- <-. exists []. rewrite app_nil_r. split; auto. split.
    + intros _. exists [], [], O. cbn [length]. rewrite advance_0. repeat (split; auto).
    + intros Hc. unfold should_halt in Hh. destruct cnt; [contradiction|..];
        destruct (get_final_element_count _ d) as [[[m|]|]|e|]; cbn [count_at_most bind] in Hh; try discriminate;
        injection Hh as Hh; exists m; (split; auto; lia).
  - destruct (field_from_stream E n comp ctx d s) as [s2 [v|e|]] eqn:Hv; try discriminate.
    assert (Hnp : is_not_present v = false).
    { destruct v; auto. exfalso.
      assert (Hs : restored known comp d s s2 VNotPresent) by (apply Hld; auto; apply nan_free_scalar; exact I).
      destruct Hs as (? & ? & ? & _ & _ & Hs & _). exact Hs. }
    assert (Hb2 : bytes_ok (rest s2)).
    { eapply bytes_forward; eauto. eapply field_load_forward; eauto. }
    rewrite Hnp in H. apply IH in H; auto. destruct H as (new & -> & H1 & H2).
    exists (v :: new). rewrite <- app_assoc. split; [reflexivity|]. split.
    + intros Hnan. inversion Hnan as [|? ? Hv1 Hnan']; subst.
      destruct (Hld _ _ _ Hb Hv1 Hv) as (bs1 & u & N1 & R1 & A1 & _ & _ & _ & C1 & C2 & _ & _ & W1).
      destruct (H1 Hnan') as (bs2 & us & N2 & R2 & A2 & L2 & M1 & M2 & W2).
      exists (bs1 ++ bs2), (u :: us), (Nat.max N1 N2).
      split; [rewrite R1, R2, app_assoc; auto|]. split; [rewrite A2, A1, advance_advance, app_length; auto|].
      split; [cbn [length]; auto|].
      assert (E1 : (N1 <= Nat.max N1 N2)%nat) by lia. assert (E2 : (N2 <= Nat.max N1 N2)%nat) by lia.
      split; [|split].
      * cbn [mapM]. rewrite (rtd_up _ _ _ _ E1 C1). cbn [bind]. rewrite (dict_list_up _ _ _ _ E2 M1). auto.
      * cbn [mapM]. rewrite (rtd_up _ _ _ _ E1 C2). cbn [bind]. rewrite (dict_list_up _ _ _ _ E2 M2). auto.
      * intros n' ctx' all Hn' Hkeep. cbn [dump_items]. rewrite W1 by (auto; lia).
        unfold dbind. rewrite W2 by (auto; lia). reflexivity.
    + intros Hc. destruct (H2 Hc) as (m & Hm & Hlen). exists m. split; auto. intros Hle.
      rewrite <- app_assoc in Hlen. cbn [app] in Hlen. apply Hlen.
      unfold should_halt in Hh. destruct cnt; [contradiction|..]; rewrite Hm in Hh; cbn [count_at_most bind] in Hh;
        injection Hh as Hh; unfold zlen in *; rewrite app_length; cbn [length]; lia.
Qed.

Lemma fits_of_holds f n ctx d s s1 v bs all : size_holds E f ->
  do_load E n f ctx d s = (s1, Ok v) -> s1 = advance s (length bs) -> fits_size (conf f) all bs.
Proof.
  intros [Hs|(m & Hs & Hm)] H Ha; unfold fits_size; rewrite Hs; auto.
  apply Hm in H. subst s1. cbn [s_pos advance] in H. unfold zlen. lia.
Qed.

Lemma array_redumped n known nats c comp cnt ctx d s s1 v : natural_count nats cnt ->
  size_holds E (Field c (KArray comp cnt None)) -> unconditional (conf comp) ->
  incl nats known -> have_nats nats d -> bytes_ok (rest s) -> nan_free v ->
  (forall s s1 v, bytes_ok (rest s) -> nan_free v -> field_from_stream E n comp ctx d s = (s1, Ok v) ->
     restored known comp d s s1 v) ->
  do_load E (S n) (Field c (KArray comp cnt None)) ctx d s = (s1, Ok v) ->
  redumped known (Field c (KArray comp cnt None)) d s s1 v.
Proof.
  intros Hcnt Hsz Hun Hi Hd Hb Hnan Hld H. pose proof H as H0. cbn [do_load kind] in H.
  change (field_from_stream_with E (do_load E n) n comp ctx d) with (field_from_stream E n comp ctx d) in H.
  apply (items_redumped n known) in H; auto. destruct H as (new & -> & H1 & H2). cbn [app] in *.
  inversion Hnan as [|? Hx|? Hf| |]; subst; [destruct Hx|].
  destruct (H1 Hf) as (bs & us & N & R & A & L & M1 & M2 & W).
  exists bs, (VList us), (S N). split; auto. split; auto.
  split; [exact I|]. split; [discriminate|]. split; [exact I|]. split; [discriminate|].
  split; [intros []|]. cbn [recursive_to_dicts]. rewrite M1, M2. do 2 (split; [reflexivity|]).
  intros n' ctx' all Hn' Hkeep. split; [|eapply fits_of_holds; eauto].
  destruct n' as [|n']; [lia|]. cbn [do_dump kind].
  change (fun x => field_to_stream_with (do_dump E n') comp x ctx' all)
    with (fun x => field_to_stream E n' comp x ctx' all).
  unfold array_dump. cbn [sized_items].
  assert (Hz : zlen us = zlen new) by (unfold zlen; congruence).
  destruct cnt as [|m|nm|]; [|destruct H2 as (m' & Hm & Hlen); [discriminate|]..].
  - cbn [get_final_element_count]. rewrite dbind_ok. apply W; auto. lia.
  - cbn [get_final_element_count] in Hm |- *. injection Hm as <-. rewrite dbind_ok.
    cbn [natural_count] in Hcnt. cbn [count_is]. rewrite Hz, Hlen, Z.eqb_refl by (unfold zlen; cbn; lia). apply W; auto; lia.
  - cbn [natural_count] in Hcnt. destruct (Hd nm Hcnt) as (z & Hz1 & Hz2).
    cbn [get_final_element_count] in Hm |- *. rewrite Hz1 in Hm. injection Hm as <-.
    rewrite (Hkeep nm (VInt z)) by auto. rewrite dbind_ok.
    cbn [count_is]. rewrite Hz, Hlen, Z.eqb_refl by (unfold zlen; cbn; lia). apply W; auto; lia.
  - destruct Hcnt.
Qed.

(** ** Structs *)

(** Whether the field is present follows from the fields named in [K]. *)
Definition presence (K : list string) (d : dict) (c : fconf) (b : bool) : Prop :=
  unconditional c /\ b = true
  \/ exists nm p w, In nm K /\ dget d nm = Some w /\ p w = b
     /\ forall mem get keys ctx so, run_q mem get keys (c_present c ctx so) = do v <- get nm; Ok (p v).

Definition gone (K : list string) (d : dict) (N : nat) (f : field) (v : value) (bs : list Z) : Prop :=
  c_discard (conf f) = true /\ unconditional (conf f) /\ plain_const v
  /\ c_default (conf f) = v /\ c_factory (conf f) = None /\ accepts (conf f) v
  /\ forall n' ctx' all, (N <= n')%nat -> keeps K d all ->
       field_to_stream E n' f v ctx' all = (bs, Ok tt).

Definition absent (K : list string) (d : dict) (f : field) (v : value) (bs : list Z) : Prop :=
  c_discard (conf f) = false /\ bs = [] /\ c_validators (conf f) = [] /\ is_undefined v = false
  /\ presence K d (conf f) false.

Definition here (K : list string) (d : dict) (N : nat) (f : field) (v u : value) (bs : list Z) : Prop :=
  c_discard (conf f) = false /\ settled v /\ settled u /\ (is_leaf (kind f) -> u = v)
  /\ recursive_to_dicts E N v = Ok u /\ recursive_to_dicts E N u = Ok u
  /\ accepts (conf f) v /\ accepts (conf f) u /\ presence K d (conf f) true
  /\ forall n' ctx' all, (N <= n')%nat -> keeps K d all ->
       field_to_stream E n' f u ctx' all = (bs, Ok tt).

Definition entry (K : list string) (d : dict) (N : nat) (nf : string * field) (bs : list Z) : Prop :=
  exists v, dget d (fst nf) = Some v
    /\ (gone K d N (snd nf) v bs \/ absent K d (snd nf) v bs \/ exists u, here K d N (snd nf) v u bs).

Lemma presence_up K K' d d' c b : incl K K' -> keeps K d d' -> presence K d c b -> presence K' d' c b.
Proof.
  intros Hi Hk [H|(nm & p & w & H1 & H2 & H3 & H4)]; [left; auto|right].
  exists nm, p, w. repeat (split; auto).
Qed.

Lemma entry_up K K' d d' N N' nf bs : incl K K' -> (N <= N')%nat ->
  (forall nm w, dget d nm = Some w -> dget d' nm = Some w) ->
  entry K d N nf bs -> entry K' d' N' nf bs.
Proof.
  intros Hi Hn Hd (v & Hv & H).
  assert (Hk : forall all, keeps K' d' all -> keeps K d all).
  { intros all Ha nm w Hin Hw. apply Ha; auto. }
  assert (Hkd : keeps K d d') by (intros nm w _; auto).
  exists v. split; auto. destruct H as [H|[H|(u & H)]].
  - left. destruct H as (H1 & H2 & H3 & H4 & H5 & H6 & H7). do 6 (split; [assumption|]).
    intros n' ctx' all Hn' Ha. apply H7; auto. lia.
  - right; left. destruct H as (H1 & H2 & H3 & H4 & H5). do 4 (split; [assumption|]).
    eapply presence_up; eauto.
  - right; right. exists u. destruct H as (H1 & H2 & H3 & H4 & H5 & H6 & H7 & H8 & H9 & H10).
    do 4 (split; [assumption|]). do 2 (split; [eapply rtd_up; eauto|]). do 2 (split; [assumption|]).
    split; [eapply presence_up; eauto|]. intros n' ctx' all Hn' Ha. apply H10; auto. lia.
Qed.

Lemma presence_run K d c ctx so b : presence K d c b -> run_dict d (c_present c ctx so) = Ok b.
Proof.
  intros [[H ->]|(nm & p & w & H1 & H2 & H3 & H4)]; [apply H|].
  unfold run_dict. rewrite H4. unfold dget_res. rewrite H2. cbn [bind]. congruence.
Qed.

Lemma steady_presence known d c ctx s b : steady known c ->
  run_dict d (c_present c ctx (Some s)) = Ok b -> presence known d c b.
Proof.
  intros [Hu|(_ & _ & nm & p & Hin & Hq)] H.
  - left. split; auto. unfold run_dict in H. rewrite Hu in H. congruence.
  - right. unfold run_dict in H. rewrite Hq in H. unfold dget_res in H.
    destruct (dget d nm) as [w|] eqn:Hw; [|discriminate]. injection H as H. exists nm, p, w. auto.
Qed.

(** A discarded field loads as its constant. *)
Lemma discard_value n f ctx d s s1 v : discard_ok f -> c_discard (conf f) = true ->
  field_from_stream E n f ctx d s = (s1, Ok v) -> v = c_const (conf f).
Proof.
  intros Hok Hdis H. destruct (Hok Hdis) as (Hst & Hun & Hnull & Hpc & _).
  apply from_stream_cases in H.
  assert (Hno : allow_null (conf f) = false) by (unfold allow_null; rewrite Hnull; auto).
  destruct H as [(Hx & _)|(_ & [(nb & _ & Hx & _)|(w & Hw & Hv & Hc & _)])];
    [unfold run_dict in Hx; rewrite Hun in Hx; discriminate|congruence|].
  destruct Hv as [[_ ->]|(Hx & _)]; [|congruence].
  destruct Hc as [Hc|Hc]; [rewrite Hc in Hpc; destruct Hpc|].
  destruct f as [c k]. cbn [conf kind] in *.
  rewrite do_load_leaf in Hw by (destruct k; try contradiction; auto).
  destruct (leaf_load_strict _ _ _ _ _ _ _ Hst Hw) as [H1 H2].
  eapply py_eq_strict; eauto.
Qed.

Definition comp_ok (n : nat) (ctx : value) : Prop := forall known nats f d s s1 v,
  canonical E known nats f -> incl nats known -> have_nats nats d -> bytes_ok (rest s) -> nan_free v ->
  run_dict d (c_present (conf f) ctx (Some s)) = Ok true ->
  field_from_stream E n f ctx d s = (s1, Ok v) -> restored known f d s s1 v.

Lemma field_redumped n ctx known nats name f d s s1 v : comp_ok n ctx -> canonical E known nats f ->
  steady known (conf f) -> discard_ok f -> incl nats known -> have_nats nats d -> bytes_ok (rest s) ->
  dget d name = None -> (c_discard (conf f) = false -> nan_free v) ->
  field_from_stream E n f ctx d s = (s1, Ok v) ->
  exists bs N, rest s = bs ++ rest s1 /\ s1 = advance s (length bs)
    /\ entry known (d ++ [(name, v)]) N (name, f) bs.
Proof.
  intros Hcomp Hf Hst Hdis Hi Hd Hb Hnone Hnan H.
  assert (Hv : dget (d ++ [(name, v)]) name = Some v).
  { rewrite dget_app, Hnone. cbn. rewrite String.eqb_refl. auto. }
  assert (Hext : forall nm w, dget d nm = Some w -> dget (d ++ [(name, v)]) nm = Some w).
  { intros nm w Hw. rewrite dget_app, Hw. auto. }
  assert (Hk : forall all, keeps known (d ++ [(name, v)]) all -> keeps known d all).
  { intros all Ha nm w Hin Hw. apply Ha; auto. }
  assert (Hkd : keeps known d (d ++ [(name, v)])) by (intros nm w _; auto).
  assert (Hd1 : c_discard (conf f) = true -> v = c_const (conf f)) by (intros; eapply discard_value; eauto).
  pose proof H as H0. apply from_stream_cases in H0.
  destruct H0 as [(Hp & -> & Hnp)|(Hp & _)].
  - exists [], O. cbn [length]. rewrite advance_0. split; auto. split; auto.
    assert (Hcd : c_discard (conf f) = false).
    { destruct (c_discard (conf f)) eqn:Hc; auto. destruct (Hdis Hc) as (_ & Hu & _).
      unfold run_dict in Hp. rewrite Hu in Hp. discriminate. }
    exists v. split; auto. right; left. pose proof (steady_presence _ _ _ _ _ _ Hst Hp) as Hpr.
    destruct Hst as [Hu|(Hval & Hund & _)].
    { unfold run_dict in Hp. rewrite Hu in Hp. discriminate. }
    split; [assumption|]. split; [reflexivity|]. split; [assumption|]. split; [subst v; assumption|].
    exact (presence_up _ _ _ _ _ _ (incl_refl _) Hkd Hpr).
  - assert (Hnf : nan_free v).
    { destruct (c_discard (conf f)) eqn:Hc; auto. rewrite (Hd1 eq_refl).
      destruct (Hdis Hc) as (_ & _ & _ & Hpc & _).
      destruct (c_const (conf f)); try contradiction; apply nan_free_scalar; exact I. }
    destruct (Hcomp _ _ _ _ _ _ _ Hf Hi Hd Hb Hnf Hp H)
      as (bs & u & N & R & A & S1 & S2 & L & C1 & C2 & A1 & A2 & W).
    exists bs, N. split; auto. split; auto. exists v. split; auto.
    destruct (c_discard (conf f)) eqn:Hc.
    + left. destruct (Hdis Hc) as (Hsl & Hun & _ & Hpc & Hdef & Hfac).
      assert (u = v). { apply L. cbn [snd] in *. destruct f as [c k]. cbn [kind] in *. destruct k; try contradiction; exact I. }
      subst u. rewrite <- (Hd1 eq_refl) in Hpc, Hdef. repeat (split; [assumption|]).
      intros n' ctx' all Hn' Ha. apply W; auto.
    + right; right. exists u. repeat (split; [assumption|]).
      split; [eapply presence_up; [apply incl_refl|exact Hkd|eapply steady_presence; eauto]|].
      intros n' ctx' all Hn' Ha. apply W; auto.
Qed.

Lemma referable_steady known f : referable f -> steady known (conf f) /\ discard_ok f.
Proof. intros (_ & Hu & Hd). split; [left; auto|]. intros Hx. congruence. Qed.

Lemma fields_redumped n ctx fs known nats : comp_ok n ctx ->
  canonical_fields E known nats fs -> forall d s d' s', loads E n ctx fs d s d' s' ->
  incl nats known -> have_nats nats d -> bytes_ok (rest s) -> NoDup (map fst fs) ->
  (forall name, In name (map fst fs) -> dget d name = None) ->
  (forall name f v, In (name, f) fs -> c_discard (conf f) = false -> dget d' name = Some v -> nan_free v) ->
  exists bss N K, incl known K
    /\ (forall nm, In nm K -> In nm known \/ exists f, In (nm, f) fs /\ referable f)
    /\ rest s = concat bss ++ rest s' /\ s' = advance s (length (concat bss))
    /\ Forall2 (entry K d' N) fs bss.
Proof.
  intros Hcomp Hfs. induction Hfs as [known nats|known nats name f fs Hf Href Hnat Hfs IH
    |known nats name f fs Hf Href Hfs IH|known nats name f fs Hf Hst Hdis Hfs IH];
    intros d s d' s' Hl Hi Hd Hb Hnd Hnone Hnan.
  { inversion Hl; subst. exists [], O, known. cbn [concat length]. rewrite advance_0.
    split; [apply incl_refl|]. split; auto. }
  all: inversion Hl as [|? ? ? ? ? v s1 ? ? Hv Hl']; subst.
  all: assert (Hown : dget d name = None) by (apply Hnone; left; auto).
  all: unfold dmem in Hl'; rewrite Hown in Hl'.
  all: assert (Hown' : dget d' name = Some v) by
    (destruct (loads_keys _ _ _ _ _ _ _ _ Hl') as (new & -> & _); rewrite !dget_app, Hown; cbn;
     rewrite String.eqb_refl; auto).
  all: assert (Hvn : c_discard (conf f) = false -> nan_free v) by
    (intros; eapply Hnan; eauto; left; auto).
  all: assert (Hnone' : forall nm, In nm (map fst fs) -> dget (d ++ [(name, v)]) nm = None) by
    (intros nm Hnm; rewrite dget_app, Hnone by (right; auto); cbn;
     destruct (String.eqb_spec name nm) as [->|]; auto; inversion Hnd; contradiction).
  all: assert (Hb1 : bytes_ok (rest s1)) by
    (eapply bytes_forward; eauto; eapply field_load_forward; eauto).
  all: assert (Hnd' : NoDup (map fst fs)) by (inversion Hnd; auto).
  all: assert (Hnan' : forall name f v, In (name, f) fs -> c_discard (conf f) = false ->
    dget d' name = Some v -> nan_free v) by (intros; eapply Hnan; eauto; right; eauto).
  all: assert (Hdd : forall nm w, dget (d ++ [(name, v)]) nm = Some w -> dget d' nm = Some w) by
    (destruct (loads_keys _ _ _ _ _ _ _ _ Hl') as (new & -> & _); intros nm w Hw; rewrite dget_app, Hw; auto).
  all: assert (Hstep : steady known (conf f) /\ discard_ok f) by (auto using referable_steady).
  all: destruct Hstep as [Hst' Hdis'].
  all: destruct (field_redumped n ctx known nats name f d s s1 v Hcomp Hf Hst' Hdis' Hi Hd Hb Hown Hvn Hv)
    as (bs & N & R & A & He).
  all: match type of IH with (forall _ _ _ _, _ -> incl ?ns ?kn -> _) =>
    assert (Hrec : exists bss N' K, incl kn K
      /\ (forall nm, In nm K -> In nm kn \/ exists f, In (nm, f) fs /\ referable f)
      /\ rest s1 = concat bss ++ rest s' /\ s' = advance s1 (length (concat bss))
      /\ Forall2 (entry K d' N') fs bss) end.
  2, 4, 6: destruct Hrec as (bss & N' & K & HK1 & HK2 & R' & A' & Hall);
    exists (bs :: bss), (Nat.max N N'), K;
    (split; [intros x Hx; apply HK1; auto; right; auto|]);
    (split; [intros nm Hnm; destruct (HK2 nm Hnm) as [Hx|(g & Hg & Hr)];
             [try (destruct Hx as [<-|Hx]; [right; exists f; split; [left; auto|auto]|]); left; exact Hx
             |right; exists g; split; [right; auto|auto]]|]);
    cbn [concat]; (split; [rewrite R, R', app_assoc; auto|]);
    (split; [rewrite A', A, advance_advance, app_length; auto|]);
    constructor;
      [eapply entry_up; [| |exact Hdd|exact He]; [intros x Hx; apply HK1; auto; right; auto|lia]
      |eapply forall2_impl; [|exact Hall]; intros nf b; apply entry_up; auto; [apply incl_refl|lia]].
  - eapply IH; eauto.
    + intros x [<-|Hx]; [left; auto|right; auto].
    + intros x [<-|Hx].
      * destruct (natural_loads E _ _ _ _ _ _ _ Hnat Hb Hv) as (z & -> & Hz).
        exists z. rewrite dget_app, Hown. cbn. rewrite String.eqb_refl. auto.
      * apply (have_nats_app nats d [(name, v)]); auto.
  - eapply IH; eauto.
    + intros x Hx. right; auto.
    + apply have_nats_app; auto.
  - eapply IH; eauto. apply have_nats_app; auto.
Qed.

(** ** Instances that dump to the bytes read *)
Lemma forall2_in {A B} (R : A -> B -> Prop) l m x : Forall2 R l m -> In x l -> exists y, R x y.
Proof. induction 1; intros []; subst; eauto. Qed.

Lemma forall2_impl_in {A B} (R S : A -> B -> Prop) l m : (forall x y, In x l -> R x y -> S x y) ->
  Forall2 R l m -> Forall2 S l m.
Proof.
  intros Hi H. induction H as [|x y l m Hxy _ IH]; constructor.
  - apply Hi; [left; auto|auto].
  - apply IH. intros. apply Hi; [right; auto|auto].
Qed.

(** [X] holds the loaded values, or their dictionary forms. *)
Definition shape (K : list string) (d : dict) (N : nat) (X : dict) (nf : string * field) (bs : list Z) : Prop :=
  exists v, dget d (fst nf) = Some v
    /\ (gone K d N (snd nf) v bs /\ dget X (fst nf) = None
        \/ absent K d (snd nf) v bs /\ (exists x, dget X (fst nf) = Some x /\ is_undefined x = false)
        \/ exists u, here K d N (snd nf) v u bs
             /\ (dget X (fst nf) = Some v \/ dget X (fst nf) = Some u)).

(** [X] is the dictionary form. *)
Definition final (K : list string) (d : dict) (N : nat) (X : dict) (nf : string * field) (bs : list Z) : Prop :=
  exists v, dget d (fst nf) = Some v
    /\ (gone K d N (snd nf) v bs /\ dget X (fst nf) = None
        \/ absent K d (snd nf) v bs /\ dget X (fst nf) = Some VNotPresent
        \/ exists u, here K d N (snd nf) v u bs /\ dget X (fst nf) = Some u).

Lemma final_shape K d N X nf bs : final K d N X nf bs -> shape K d N X nf bs.
Proof.
  intros (v & Hv & [H|[(Ha & H)|(u & Hu & H)]]); exists v; split; auto.
  - right; left. split; auto. exists VNotPresent. auto.
  - right; right. exists u. auto.
Qed.

Section Class.
Variables (cid : nat) (K : list string) (d : dict) (N : nat) (bss : list (list Z)).
Hypothesis Hwf : well_formed (cls E cid).
Hypothesis Hmeth : forall name methods, In (name, methods) (k_fvals (cls E cid)) -> methods = [].
Hypothesis Hsv : k_svals (cls E cid) = [].
Hypothesis HK : forall nm, In nm K -> exists f, In (nm, f) (k_comps (cls E cid)) /\ referable f.
Hypothesis HN : (1 <= N)%nat.

Definition shaped (X : dict) : Prop := instance_of E cid X
  /\ Forall2 (shape K d N X) (k_comps (cls E cid)) bss.

Lemma shaped_keeps X : shaped X -> keeps K d X.
Proof.
  intros [_ HX] nm w Hin Hw. destruct (HK nm Hin) as (f & Hf & Hleaf & Hun & Hdis).
  destruct (forall2_in _ _ _ _ HX Hf) as (bs & v & Hv & H). cbn [fst snd] in *.
  rewrite Hw in Hv. injection Hv as <-.
  destruct H as [((Hg & _) & _)|[((_ & _ & _ & _ & Hp) & _)|(u & (_ & _ & _ & Hu & _) & H)]].
  - congruence.
  - exfalso. destruct Hp as [[_ Hx]|(x & p & y & _ & Hy & Hp & Hq)]; [discriminate|].
    specialize (Hq (fun _ => true) (fun _ => Ok y) [] VNone None). rewrite Hun in Hq.
    cbn [bind] in Hq. congruence.
  - rewrite (Hu Hleaf) in H. destruct H; auto.
Qed.

Lemma shaped_get X n nm f x : shaped X -> In (nm, f) (k_comps (cls E cid)) -> dget X nm = Some x ->
  struct_get E n cid X nm = Ok x.
Proof.
  intros _ Hf Hx. destruct (bound_assoc _ _ _ (well_formed_bound _ Hwf) Hf) as [Ha Hn].
  eapply struct_get_stored; eauto.
Qed.

Lemma shaped_mem X nm x : shaped X -> dget X nm = Some x -> is_undefined x = false ->
  struct_mem X nm = true.
Proof.
  intros [(_ & Hnd & _) _] Hx Hu. apply struct_mem_in. apply struct_keys_in; auto.
  exists x. split; auto. intros ->. discriminate.
Qed.

Lemma shaped_no_mem X nm : shaped X -> dget X nm = None -> struct_mem X nm = false.
Proof.
  intros [(_ & Hnd & _) _] Hx. destruct (struct_mem X nm) eqn:Hm; auto.
  apply struct_mem_in in Hm. apply struct_keys_in in Hm; auto. destruct Hm as (x & Hy & _). congruence.
Qed.

Lemma shaped_presence X n c b ctx so : shaped X -> presence K d c b ->
  run_struct E n cid X (c_present c ctx so) = Ok b /\ run_dict X (c_present c ctx so) = Ok b.
Proof.
  intros HX [[H ->]|(nm & p & w & H1 & H2 & H3 & H4)]; [split; apply H|].
  pose proof (shaped_keeps X HX nm w H1 H2) as Hw.
  destruct (HK nm H1) as (f & Hf & _). unfold run_struct, run_dict. rewrite !H4.
  rewrite (shaped_get X n nm f w HX Hf Hw). unfold dget_res. rewrite Hw. cbn [bind]. subst b. auto.
Qed.

(** The value that will be dumped for a field. *)
Definition picked (X : dict) (nf : string * field) (bs : list Z) (r : value) : Prop :=
  exists v, dget d (fst nf) = Some v
    /\ (gone K d N (snd nf) v bs /\ r = v
        \/ absent K d (snd nf) v bs /\ r = VNotPresent
        \/ exists u, here K d N (snd nf) v u bs /\ (r = v \/ r = u)
             /\ dget X (fst nf) = Some r).

Lemma settled_ok x : settled x -> is_undefined x = false /\ is_not_present x = false.
Proof. destruct x; cbn; tauto. Qed.

Lemma shaped_pick X n name f bs ctx : shaped X -> In (name, f) (k_comps (cls E cid)) ->
  shape K d N X (name, f) bs -> exists r, picked X (name, f) bs r
    /\ run_struct E n cid X (compute_value_for_dump (conf f) ctx) = Ok r
    /\ run_dict X (compute_value_for_dump (conf f) ctx) = Ok r.
Proof.
  intros HX Hf (v & Hv & H). cbn [fst snd] in *.
  destruct (bound_assoc _ _ _ (well_formed_bound _ Hwf) Hf) as [Ha Hn].
  unfold run_struct, run_dict. rewrite !run_compute.
  assert (Hso : forall mem get keys, run_q mem get keys (stored_or_fallback (conf f))
    = if mem name then get name else run_q mem get keys (fallback_value (conf f))).
  { intros. unfold stored_or_fallback. rewrite Hn. cbn [run_q]. destruct (mem name); auto.
    cbn [run_q]. destruct (get name); auto. }
  rewrite !Hso.
  destruct H as [(Hg & Hx)|[(Hab & x & Hx & Hu)|(u & Hh & Hx)]].
  - pose proof Hg as (_ & Hun & Hpc & Hdef & Hfac & _). exists v. split; [exists v; auto|].
    rewrite (shaped_no_mem X name HX Hx). unfold dmem. rewrite Hx.
    assert (Hfb : forall mem get keys, run_q mem get keys (fallback_value (conf f)) = Ok v).
    { intros. unfold fallback_value, default_query. rewrite Hdef, Hfac.
      destruct v; try contradiction; reflexivity. }
    rewrite !Hfb, !Hun. destruct v; try contradiction; auto.
  - exists VNotPresent. split; [exists v; auto|].
    pose proof Hab as (_ & _ & _ & _ & Hp).
    rewrite (shaped_mem X name x HX Hx Hu), (shaped_get X n name f x HX Hf Hx).
    unfold dmem, dget_res. rewrite Hx.
    destruct (shaped_presence X n (conf f) false ctx None HX Hp) as [P1 P2].
    unfold run_struct in P1. unfold run_dict, dmem, dget_res in P2. rewrite P1, P2.
    destruct (is_not_present x); auto.
  - pose proof Hh as (_ & S1 & S2 & _ & _ & _ & _ & _ & Hp & _).
    assert (Hr : exists r, (r = v \/ r = u) /\ dget X name = Some r) by (destruct Hx; eauto).
    destruct Hr as (r & Hr & Hxr). exists r.
    split; [exists v; split; auto; right; right; exists u; auto|].
    assert (Hset : settled r) by (destruct Hr; subst; auto). apply settled_ok in Hset. destruct Hset as [Q1 Q2].
    rewrite (shaped_mem X name r HX Hxr Q1), (shaped_get X n name f r HX Hf Hxr).
    unfold dmem, dget_res. rewrite Hxr.
    destruct (shaped_presence X n (conf f) true ctx None HX Hp) as [P1 P2].
    unfold run_struct in P1. unfold run_dict, dmem, dget_res in P2. rewrite P1, P2, Q1, Q2. auto.
Qed.

Lemma dicts_total n l : (forall kv, In kv l -> exists w, recursive_to_dicts E n (snd kv) = Ok w) ->
  exists l', dicts_of E n l = Ok l'.
Proof.
  unfold dicts_of. induction l as [|kv l IH]; intros H; [exists []; auto|].
  destruct (H kv) as [w Hw]; [left; auto|]. destruct IH as [l' Hl'].
  { intros. apply H. right; auto. }
  exists ((fst kv, w) :: l'). cbn [mapM]. rewrite Hw. cbn [bind]. rewrite Hl'. auto.
Qed.

Lemma whatever_total n X : instance_of E cid X ->
  (forall name f, In (name, f) (comps E cid) ->
     exists v, run_struct E n cid X (compute_value_for_dump (conf f) VNone) = Ok v) ->
  exists w, to_dict_whatever_possible E n cid X = Ok w.
Proof.
  intros (_ & Hnd & Hincl) Hval. unfold to_dict_whatever_possible.
  pose proof (well_formed_bound _ Hwf) as Hb.
  assert (Hpv : forall fs dct0, (forall name f, In (name, f) fs ->
     exists v, run_struct E n cid X (compute_value_for_dump (conf f) VNone) = Ok v) ->
     exists dct, possible_values E n cid X fs dct0 = Ok dct).
  { induction fs as [|[nm f] fs IH]; intros dct0 Hv; [exists dct0; auto|].
    cbn [possible_values]. destruct (Hv nm f) as (v & Hr); [left; auto|]. rewrite Hr.
    apply IH. intros ? ? Hi. eapply Hv. right; eauto. }
  destruct (Hpv _ [] Hval) as [dct Hdct]. rewrite Hdct. cbn [bind].
  match goal with |- exists w, (do first <- mapM ?g ?l; _) = _ => assert (Hm : exists ys, mapM g l = Ok ys) end.
  { assert (Hk : forall k, In k (struct_keys X) -> In k (map fst (k_comps (cls E cid)))).
    { intros k Hk. apply struct_keys_in in Hk; auto. destruct Hk as (v & Hv & _).
      apply Hincl. apply dget_in. eauto. }
    destruct (possible_values_spec _ _ _ _ _ _ _ Hb Hdct) as (_ & _ & Hin).
    revert Hk. generalize (struct_keys X) as ks. induction ks as [|k ks IH]; intros Hk; [exists []; auto|].
    destruct IH as [ys Hys]. { intros. apply Hk. right; auto. }
    assert (Hkk : In k (map fst (k_comps (cls E cid)))) by (apply Hk; left; auto).
    apply in_map_iff in Hkk. destruct Hkk as ([k' f] & Hkk & Hf). cbn [fst] in Hkk. subst k'.
    specialize (Hin k f Hf). destruct (Hval k f Hf) as (v & Hv). rewrite Hv in Hin.
    exists ((k, v) :: ys). cbn [mapM]. rewrite Hin. cbn [bind]. rewrite Hys. auto. }
  destruct Hm as [ys Hys]. rewrite Hys. cbn [bind]. eauto.
Qed.

Lemma drop_total fs D : bound fs -> NoDup (dkeys D) -> (forall nm, In nm (map fst fs) -> In nm (dkeys D)) ->
  exists D', drop_discard fs D = Ok D'.
Proof.
  revert D. induction fs as [|[nm f] fs IH]; intros D Hb Hnd Hin; [exists D; auto|].
  cbn [drop_discard]. rewrite (bound_cname _ nm f Hb) by (left; auto).
  pose proof (bound_head _ _ _ Hb) as Hni. apply bound_tail in Hb.
  destruct (c_discard (conf f)).
  - assert (Hm : dmem D nm = true) by (apply dmem_in, Hin; left; auto). rewrite Hm.
    rewrite ddel_filter by auto. apply IH; auto; [apply nodup_filter_keys; auto|].
    intros x Hx. apply dget_in. rewrite (dget_filter_key (fun k => negb (String.eqb k nm))).
    destruct (String.eqb_spec x nm) as [->|]; [contradiction|]. cbn [negb]. apply dget_in, Hin. right; auto.
  - apply IH; auto. intros x Hx. apply Hin. right; auto.
Qed.

Lemma picked_converts X name f bs r n : (N <= n)%nat -> c_discard (conf f) = false ->
  picked X (name, f) bs r ->
  exists u, recursive_to_dicts E n r = Ok u /\ forall Y, dget Y name = Some u -> final K d N Y (name, f) bs.
Proof.
  intros Hn Hdis (v & Hv & H). cbn [fst snd] in *.
  destruct H as [((Hg & _) & _)|[(Hab & ->)|(u & Hh & Hr & _)]]; [congruence|..].
  - exists VNotPresent. split; [destruct n; [lia|reflexivity]|]. intros Y HY. exists v. auto.
  - exists u. pose proof Hh as (_ & _ & _ & _ & C1 & C2 & _). split.
    + eapply rtd_up; [exact Hn|]. destruct Hr; subst; auto.
    + intros Y HY. exists v. split; auto. right; right. exists u. auto.
Qed.

Lemma shaped_to_dict X n : (N <= n)%nat -> shaped X ->
  exists all, to_dict E n cid X false = Ok all /\ instance_of E cid all
    /\ Forall2 (final K d N all) (k_comps (cls E cid)) bss.
Proof.
  intros Hn HX. pose proof HX as [Hinst Hsh]. pose proof (well_formed_bound _ Hwf) as Hb.
  assert (Hpick : forall name f, In (name, f) (comps E cid) -> exists bs r, shape K d N X (name, f) bs
     /\ picked X (name, f) bs r /\ run_struct E n cid X (compute_value_for_dump (conf f) VNone) = Ok r).
  { intros name f Hf. destruct (forall2_in _ _ _ _ Hsh Hf) as (bs & Hs).
    destruct (shaped_pick X n name f bs VNone HX Hf Hs) as (r & Hp & Hr & _). eauto. }
  destruct (whatever_total n X Hinst) as [w Hw].
  { intros name f Hf. destruct (Hpick name f Hf) as (bs & r & _ & _ & Hr). eauto. }
  destruct (whatever_spec _ _ _ _ _ Hinst Hw) as (Hnd & Hincl & Hget).
  assert (Hwall : forall name, In name (map fst (comps E cid)) -> In name (dkeys w)).
  { intros name Hi. apply in_map_iff in Hi. destruct Hi as ([nm f] & Hx & Hf). cbn [fst] in Hx. subst nm.
    specialize (Hget name f Hf). destruct (Hpick name f Hf) as (bs & r & _ & _ & Hr). rewrite Hr in Hget.
    apply dget_in. eauto. }
  assert (Hmiss : missing_values (comps E cid) w = Ok []).
  { unfold missing_values. replace (filter _ (comps E cid)) with (@nil (string * field)); auto.
    assert (H : forall nf, In nf (comps E cid) -> dmem w (cname (snd nf)) = true).
    { intros [nm f] Hi. cbn [snd]. rewrite (bound_cname _ _ _ Hb Hi). apply dmem_in, Hwall.
      apply in_map_iff. exists (nm, f). auto. }
    revert H. generalize (comps E cid) as fs. clear. intros fs.
    induction fs as [|nf fs IH]; intros H; auto. cbn [filter].
    rewrite (H nf) by (left; auto). cbn [negb]. apply IH. intros ? ?. apply H. right; auto. }
  destruct (drop_total (comps E cid) w Hb Hnd Hwall) as [D HD].
  pose proof (drop_discard_filter _ _ _ Hb Hnd HD) as HDf.
  assert (Hdg : forall name, dget D name = if negb (discarded (comps E cid) name) then dget w name else None).
  { intros name. rewrite HDf. apply (dget_filter_key (fun k => negb (discarded (comps E cid) k))). }
  assert (HndD : NoDup (dkeys D)) by (rewrite HDf; apply nodup_filter_keys; auto).
  assert (HinD : forall name r, dget D name = Some r -> exists f bs, In (name, f) (comps E cid)
     /\ c_discard (conf f) = false /\ picked X (name, f) bs r).
  { intros name r Hr. rewrite Hdg in Hr. destruct (discarded (comps E cid) name) eqn:Hdis; cbn [negb] in Hr; [discriminate|].
    assert (Hi : In name (map fst (comps E cid))) by (apply Hincl, dget_in; eauto).
    apply in_map_iff in Hi. destruct Hi as ([nm f] & Hx & Hf). cbn [fst] in Hx. subst nm.
    unfold comps in Hdis. rewrite (discarded_iff _ _ _ Hb Hf) in Hdis.
    specialize (Hget name f Hf). destruct (Hpick name f Hf) as (bs & r' & _ & Hp & Hr'). rewrite Hr' in Hget.
    exists f, bs. rewrite Hr in Hget. injection Hget as <-. auto. }
  destruct (dicts_total n D) as [all Hall].
  { intros [name r] Hi. cbn [snd]. apply in_dget in Hi; auto.
    destruct (HinD _ _ Hi) as (f & bs & Hf & Hdis & Hp).
    destruct (picked_converts X name f bs r n Hn Hdis Hp) as (u & Hu & _). eauto. }
  exists all. split; [|split].
  - unfold to_dict. rewrite Hw. cbn [bind]. rewrite Hmiss. cbn [bind]. unfold dupdate. cbn [fold_left].
    rewrite HD. cbn [bind]. exact Hall.
  - split; auto. rewrite (dicts_of_keys _ _ _ _ Hall). split; auto.
    intros name Hi. apply dget_in in Hi. destruct Hi as [r Hr]. rewrite Hdg in Hr.
    destruct (negb _); [|discriminate]. apply Hincl, dget_in. eauto.
  - eapply forall2_impl_in; [|exact Hsh]. intros [name f] bs Hf Hs.
    destruct (c_discard (conf f)) eqn:Hdis.
    + pose proof (dicts_of_get _ _ _ _ Hall name) as Hg. rewrite Hdg in Hg. unfold comps in Hg.
      rewrite (discarded_iff _ _ _ Hb Hf), Hdis in Hg. cbn [negb] in Hg.
      destruct Hs as (v & Hv & [(H & _)|[((H & _) & _)|(u & (H & _) & _)]]); cbn [fst snd] in *; try congruence.
      exists v. cbn [fst snd]. auto.
    + destruct (shaped_pick X n name f bs VNone HX Hf Hs) as (r & Hp & Hr & _).
      destruct (picked_converts X name f bs r n Hn Hdis Hp) as (u & Hu & Hfin). apply Hfin.
      pose proof (dicts_of_get _ _ _ _ Hall name) as Hg. rewrite Hdg in Hg. unfold comps in Hg.
      rewrite (discarded_iff _ _ _ Hb Hf), Hdis in Hg. cbn [negb] in Hg.
      specialize (Hget name f Hf). rewrite Hr in Hget. rewrite Hget in Hg.
      destruct Hg as (u' & Hu' & Hg). congruence.
Qed.

Lemma final_shaped X : instance_of E cid X -> Forall2 (final K d N X) (k_comps (cls E cid)) bss -> shaped X.
Proof. intros Hi HX. split; auto. eapply forall2_impl; [|exact HX]. intros nf bs. apply final_shape. Qed.

Lemma shaped_valid X n : (N <= n)%nat -> shaped X -> validated E n cid X.
Proof.
  intros Hn HX. pose proof HX as [_ Hsh]. split; [|rewrite Hsv; constructor].
  intros name methods Hi. rewrite (Hmeth name methods Hi). destruct Hwf as (_ & _ & Hfv).
  assert (Hin : In name (map fst (k_comps (cls E cid)))) by (apply Hfv; apply in_map_iff; exists (name, methods); auto).
  apply in_map_iff in Hin. destruct Hin as ([nm f] & Hx & Hf). cbn [fst] in Hx. subst nm.
  destruct (bound_assoc _ _ _ (well_formed_bound _ Hwf) Hf) as [Ha Hnm].
  destruct (forall2_in _ _ _ _ Hsh Hf) as (bs & Hs). exists f.
  pose proof Hs as (v & Hv & H). cbn [fst snd] in *.
  destruct H as [(Hg & Hx)|[(Hab & x & Hx & Hu)|(u & Hh & Hx)]].
  - pose proof Hg as (_ & _ & _ & _ & _ & Hacc & _). exists v. split; auto. split; [|split; auto].
    destruct n as [|n]; [lia|]. cbn [struct_get]. unfold comps. rewrite Ha. unfold name_of. rewrite Hnm.
    cbn [oget]. rewrite Hx.
    destruct (shaped_pick X n name f bs VNone HX Hf Hs) as (r & (v' & Hv' & Hp) & Hr & _). cbn [fst snd] in *.
    unfold run_struct in Hr. rewrite Hr. f_equal.
    rewrite Hv in Hv'. injection Hv' as <-.
    destruct Hp as [(_ & ->)|[((Hd & _) & _)|(u & (Hd & _) & _)]]; auto; destruct Hg as (Hd' & _); congruence.
  - exists x. split; auto. split; [eapply shaped_get; eauto|]. split; auto.
    destruct Hab as (_ & _ & Hval & _). unfold accepts. rewrite Hval. constructor.
  - pose proof Hh as (_ & _ & _ & _ & _ & _ & A1 & A2 & _).
    destruct Hx as [Hx|Hx]; eexists; (split; [exact Ha|]); (split; [eapply shaped_get; eauto|]); auto.
Qed.

Lemma final_parts X n ctx : (N <= n)%nat -> instance_of E cid X ->
  Forall2 (final K d N X) (k_comps (cls E cid)) bss ->
  Forall2 (field_part E n ctx X) (k_comps (cls E cid)) bss.
Proof.
  intros Hn Hi HX. pose proof (final_shaped X Hi HX) as Hsh. pose proof (shaped_keeps X Hsh) as Hkeep.
  eapply forall2_impl_in; [|exact HX]. intros [name f] bs Hf Hfin.
  destruct (shaped_pick X n name f bs ctx Hsh Hf (final_shape _ _ _ _ _ _ Hfin)) as (r & (v & Hv & Hp) & _ & Hr).
  exists r. cbn [fst snd] in *. split; auto.
  destruct Hfin as (v' & Hv' & Hfin). cbn [fst snd] in *. rewrite Hv in Hv'. injection Hv' as <-.
  destruct Hp as [(Hg & ->)|[(Hab & ->)|(u & Hh & Hru & Hxr)]].
  - right. pose proof Hg as (_ & _ & Hpc & _ & _ & _ & W). split; [intros ->; destruct Hpc|]. apply W; auto.
  - left. destruct Hab as (_ & -> & _). auto.
  - right. pose proof Hh as (Hd & S1 & S2 & _ & C1 & _).
    assert (Hset : settled r) by (destruct Hru; subst; auto).
    split; [intros ->; destruct Hset|].
    destruct Hfin as [((Hd' & _) & _)|[(Hab & Hx)|(u' & Hh' & Hx)]]; [congruence|..].
    + rewrite Hx in Hxr. injection Hxr as <-. destruct Hset.
    + rewrite Hx in Hxr. injection Hxr as <-.
      destruct Hh' as (_ & _ & _ & _ & _ & _ & _ & _ & _ & W). apply W; auto.
Qed.

Lemma shaped_dumps X n ctx : (N <= n)%nat -> shaped X ->
  struct_to_stream E n cid X ctx = (concat bss, Ok tt).
Proof.
  intros Hn HX. destruct (shaped_to_dict X n Hn HX) as (all & Hall & Hi & Hfin).
  apply struct_dump_iff. exists all, bss. split; [apply shaped_valid; auto|]. split; auto.
  split; auto. apply final_parts; auto.
Qed.

Lemma final_idem X n : (N <= n)%nat -> instance_of E cid X ->
  Forall2 (final K d N X) (k_comps (cls E cid)) bss -> dicts_of E n X = Ok X.
Proof.
  intros Hn (_ & Hnd & Hincl) HX. apply dicts_of_iff.
  assert (H : forall kv, In kv X -> recursive_to_dicts E n (snd kv) = Ok (snd kv)).
  { intros [name x] Hi. cbn [snd]. apply in_dget in Hi; auto.
    assert (Hin : In name (map fst (k_comps (cls E cid)))) by (apply Hincl, dget_in; eauto).
    apply in_map_iff in Hin. destruct Hin as ([nm f] & Hx & Hf). cbn [fst] in Hx. subst nm.
    destruct (forall2_in _ _ _ _ HX Hf) as (bs & v & Hv & Hc). cbn [fst snd] in *.
    destruct Hc as [(_ & Hx)|[(_ & Hx)|(u & Hh & Hx)]]; rewrite Hi in Hx; try discriminate; injection Hx as ->.
    - destruct n; [lia|reflexivity].
    - destruct Hh as (_ & _ & _ & _ & _ & C2 & _). eapply rtd_up; eauto. }
  clear - H. induction X as [|kv X IH]; constructor.
  - split; auto. apply H. left; auto.
  - apply IH. intros. apply H. right; auto.
Qed.
End Class.

(** ** Everything together *)
Hypothesis Hschema : canonical_schema E.

Lemma struct_redumped n cid ctx s s1 vals : comp_ok n ctx -> bytes_ok (rest s) ->
  nan_free (VStruct cid vals) -> struct_from_stream E n cid ctx [] s = (s1, Ok vals) ->
  exists bs u N, rest s = bs ++ rest s1 /\ s1 = advance s (length bs)
    /\ recursive_to_dicts E N (VStruct cid vals) = Ok (VDict u)
    /\ recursive_to_dicts E N (VDict u) = Ok (VDict u)
    /\ struct_init E cid u = Ok u
    /\ forall n' ctx', (N <= n')%nat -> struct_to_stream E n' cid vals ctx' = (bs, Ok tt)
         /\ struct_to_stream E n' cid u ctx' = (bs, Ok tt).
Proof.
  intros Hcomp Hb Hnan H. destruct (Hschema cid) as (Hwf & Hfs & Hmeth & Hsv).
  pose proof (well_formed_bound _ Hwf) as Hbd. pose proof Hbd as [Hnd0 _].
  apply struct_load_iff in H; auto; [|constructor]. destruct H as (d & Hl & _ & _ & Hvals).
  destruct (loads_keys _ _ _ _ _ _ _ _ Hl) as (new & Hd & _ & Hkeys & Hnd).
  cbn [app] in Hd. subst new. specialize (Hnd ltac:(constructor)).
  assert (Hvg : forall name, dget vals name
    = if negb (discarded (k_comps (cls E cid)) name) then dget d name else None).
  { intros name. rewrite Hvals. apply (dget_filter_key (fun k => negb (discarded (k_comps (cls E cid)) k))). }
  destruct (fields_redumped n ctx _ [] [] Hcomp Hfs _ _ _ _ Hl) as (bss & N & K & _ & HK & R & A & Hent); auto.
  { apply incl_refl. }
  { intros nm []. }
  { intros name f v Hf Hdis Hv. inversion Hnan as [|? Hx| | |? ? Hall]; subst; [destruct Hx|].
    rewrite Forall_forall in Hall. apply (Hall (name, v)).
    apply assoc_in. rewrite <- dget_assoc, Hvg, (discarded_iff _ _ _ Hbd Hf), Hdis. auto. }
  assert (HK' : forall nm, In nm K -> exists f, In (nm, f) (k_comps (cls E cid)) /\ referable f).
  { intros nm Hin. destruct (HK nm Hin) as [[]|Hx]; auto. }
  assert (HN : (1 <= S N)%nat) by lia.
  assert (Hsh : shaped cid K d (S N) bss vals).
  { split.
    - split; auto. split; [rewrite Hvals; apply nodup_filter_keys; auto|].
      intros name Hi. apply dget_in in Hi. destruct Hi as [v Hv]. rewrite Hvg in Hv.
      destruct (negb _); [|discriminate].
      destruct (proj1 (Hkeys name)) as [[]|Hx]; auto. apply dget_in. eauto.
    - eapply forall2_impl_in; [|exact Hent]. intros [name f] bs Hf He.
      apply (entry_up K K d d N (S N)) in He; auto; [|apply incl_refl].
      destruct He as (v & Hv & He). cbn [fst snd] in *. exists v. split; auto. cbn [fst snd].
      specialize (Hvg name). rewrite (discarded_iff _ _ _ Hbd Hf) in Hvg.
      destruct He as [He|[He|(u & He)]].
      + left. split; auto. destruct He as (Hdis & _). rewrite Hdis in Hvg. auto.
      + right; left. split; auto. destruct He as (Hdis & _ & _ & Hu & _). rewrite Hdis in Hvg.
        exists v. rewrite Hvg. auto.
      + right; right. exists u. split; auto. destruct He as (Hdis & _). rewrite Hdis in Hvg.
        left. rewrite Hvg. auto. }
  destruct (shaped_to_dict cid K d (S N) bss Hwf Hmeth HK' HN vals (S N) ltac:(lia) Hsh) as (u & Hu & Hi & Hfin).
  pose proof (final_shaped cid K d (S N) bss u Hi Hfin) as Hshu.
  exists (concat bss), u, (S (S N)). split; auto. split; auto.
  split; [|split; [|split]].
  - change (recursive_to_dicts E (S (S N)) (VStruct cid vals))
      with (do d <- to_dict E (S N) cid vals false; Ok (VDict d)). rewrite Hu. auto.
  - change (recursive_to_dicts E (S (S N)) (VDict u)) with (do d <- dicts_of E (S N) u; Ok (VDict d)).
    erewrite (final_idem cid K d (S N) bss); eauto.
  - apply init_ok_iff. split; auto. apply Hi.
  - intros n' ctx' Hn'. split; apply (shaped_dumps cid K d (S N)); auto; lia.
Qed.

Lemma struct_as_value n known cid ctx d s s1 v : comp_ok n ctx -> bytes_ok (rest s) -> nan_free v ->
  (ldo vals <- struct_from_stream E n cid ctx []; lret (VStruct cid vals)) s = (s1, Ok v) ->
  exists bs u N, rest s = bs ++ rest s1 /\ s1 = advance s (length bs)
    /\ settled v /\ v <> VNone
    /\ recursive_to_dicts E N v = Ok (VDict u) /\ recursive_to_dicts E N (VDict u) = Ok (VDict u)
    /\ struct_init E cid u = Ok u
    /\ forall n' ctx' all, (N <= n')%nat -> keeps known d all ->
         struct_to_stream E n' cid u ctx' = (bs, Ok tt).
Proof.
  intros Hcomp Hb Hnan H. unfold lbind, lret in H.
  destruct (struct_from_stream E n cid ctx [] s) as [s2 [vals|e|]] eqn:Hs; try discriminate.
  injection H as <- <-.
  destruct (struct_redumped n cid ctx s s2 vals Hcomp Hb Hnan Hs) as (bs & u & N & R & A & C1 & C2 & Hini & W).
  exists bs, u, N. do 2 (split; [assumption|]). split; [exact I|]. split; [discriminate|].
  do 3 (split; [assumption|]). intros n' ctx' all Hn' _. apply W; auto.
Qed.

Lemma canonical_redumped n : forall known nats f ctx d s s1 v, canonical E known nats f ->
  incl nats known -> have_nats nats d -> bytes_ok (rest s) -> nan_free v ->
  do_load E n f ctx d s = (s1, Ok v) -> redumped known f d s s1 v.
Proof.
  induction n as [|n IH]; intros known nats f ctx d s s1 v Hf Hi Hd Hb Hnan H.
  { destruct Hf as [c k Hk _| | |]; try discriminate. eapply leaf_redumped; eauto. }
  assert (Hcomp : comp_ok n ctx).
  { intros known' nats' g d' s0 s0' v' Hg Hi' Hd' Hb' Hnan' Hp Hl.
    pose proof Hg as Hg0.
    destruct Hg as [c k Hk Hnull|c comp cnt Hbare|c cid Hbare|c choices ld dd name pick Hbare].
    { eapply leaf_restored; eauto. }
    all: eapply bare_restored; eauto; intros w Hw Hnw; eapply IH; eauto. }
  destruct Hf as [c k Hk Hnull|c comp cnt Hbare Hcnt Hsz Hun Hc|c cid Hbare Hsz
      |c choices ld dd name pick Hbare Hsz Hin Hld Hdd Hch].
  - eapply leaf_redumped; eauto.
  - eapply array_redumped; eauto.
  - pose proof H as H0. cbn [do_load kind] in H.
    destruct (struct_as_value n known cid ctx d s s1 v Hcomp Hb Hnan H)
      as (bs & u & N & R & A & S1 & S2 & C1 & C2 & Hini & W).
    exists bs, (VDict u), (S N). do 4 (split; [assumption|]). split; [exact I|]. split; [discriminate|].
    split; [intros []|]. do 2 (split; [eapply rtd_up; [|eassumption]; lia|]).
    intros n' ctx' all Hn' Hkeep. split; [|eapply fits_of_holds; eauto].
    destruct n' as [|n']; [lia|]. cbn [do_dump kind]. rewrite Hini, dbind_ok.
    apply (W n' ctx' all); auto. lia.
  - pose proof H as H0. cbn [do_load kind] in H. rewrite Hld in H. unfold dget_res in H.
    destruct (dget d name) as [x|] eqn:Hx; [|discriminate]. cbn [bind] in H.
    destruct (nth_error choices (pick x)) as [[g|cid]|] eqn:Hnth; [| |discriminate].
    + destruct (Hch g) as [Hval Hg]; [eapply nth_error_In; eauto|].
      destruct (IH _ _ _ _ _ _ _ _ Hg Hi Hd Hb Hnan H)
        as (bs & u & N & R & A & S1 & S2 & S3 & S4 & _ & C1 & C2 & W).
      exists bs, u, (S N). do 6 (split; [assumption|]). split; [intros []|].
      do 2 (split; [eapply rtd_up; [|eassumption]; lia|]).
      intros n' ctx' all Hn' Hkeep. split; [|eapply fits_of_holds; eauto].
      destruct n' as [|n']; [lia|]. cbn [do_dump kind]. rewrite Hdd. unfold dget_res.
      rewrite (Hkeep name x Hin Hx). cbn [bind]. rewrite dbind_ok, Hnth.
      destruct (W n' ctx' all) as [W1 W2]; auto; [lia|].
      change (field_to_stream E n' g u ctx' all = (bs, Ok tt)). apply write_back; auto.
      unfold accepts. rewrite Hval. constructor.
    + destruct (struct_as_value n known cid ctx d s s1 v Hcomp Hb Hnan H)
        as (bs & u & N & R & A & S1 & S2 & C1 & C2 & Hini & W).
      exists bs, (VDict u), (S N). do 4 (split; [assumption|]). split; [exact I|]. split; [discriminate|].
      split; [intros []|]. do 2 (split; [eapply rtd_up; [|eassumption]; lia|]).
      intros n' ctx' all Hn' Hkeep. split; [|eapply fits_of_holds; eauto].
      destruct n' as [|n']; [lia|]. cbn [do_dump kind]. rewrite Hdd. unfold dget_res.
      rewrite (Hkeep name x Hin Hx). cbn [bind]. rewrite dbind_ok, Hnth, Hini, dbind_ok.
      apply (W n' ctx' all); auto. lia.
Qed.

Lemma canonical_comp_ok n ctx : comp_ok n ctx.
Proof.
  intros known nats g d s s1 v Hg Hi Hd Hb Hnan Hp Hl.
  pose proof Hg as Hg0.
  destruct Hg as [c k Hk Hnull|c comp cnt Hbare|c cid Hbare|c choices ld dd name pick Hbare].
  { eapply leaf_restored; eauto. }
  all: eapply bare_restored; eauto; intros w Hw Hnw; eapply canonical_redumped; eauto.
Qed.

Lemma canonical_struct n cid ctx s s1 vals : bytes_ok (rest s) -> nan_free (VStruct cid vals) ->
  struct_from_stream E n cid ctx [] s = (s1, Ok vals) ->
  exists bs, rest s = bs ++ rest s1 /\ s1 = advance s (length bs)
    /\ exists N, forall n' ctx', (N <= n')%nat -> struct_to_stream E n' cid vals ctx' = (bs, Ok tt).
Proof.
  intros Hb Hnan H.
  destruct (struct_redumped n cid ctx s s1 vals (canonical_comp_ok n ctx) Hb Hnan H)
    as (bs & u & N & R & A & _ & _ & _ & W).
  exists bs. split; auto. split; auto. exists N. intros. apply W; auto.
Qed.
End Redump.
