(** Field.to_stream / from_stream / from_bytes for every kind of field. *)
From Verif Require Import Tac PyIntProofs StreamProofs VarintsProofs VarintsMore.
From Verif Require Export CodecsProofs LeafMore SpecField.

(** ** to_stream *)

Lemma dbind_dlift_inv {A} (r : res A) (k : A -> dumped unit) out x :
  dbind (dlift r) k = (out, Ok x) -> exists a, r = Ok a /\ k a = (out, Ok x).
Proof.
  destruct r as [a|e|]; [rewrite dbind_ok; eauto|discriminate|discriminate].
Qed.

Lemma add_padding_length c k bs size out : zlen bs <= size ->
  add_padding c k bs size = Ok out -> zlen out = size.
Proof.
  intros Hle H.
  assert (Hp : forall b, zlen (bs ++ repeat b (Z.to_nat (size - zlen bs))) = size).
  { intros b. unfold zlen in *. rewrite app_length, repeat_length. lia. }
  destruct k as [| | | | |cd [b|]|cd [b|]| | | |]; try discriminate H; injection H as <-; apply Hp.
Qed.

Lemma sized_write_inv g c k bs out x : sized_write g c k bs = (out, Ok x) ->
  match c_size c with
  | SInt n => zlen out = n
  | SNone => out = bs
  | SRef _ => exists n, g = Ok n /\ zlen out = n
  end.
Proof.
  unfold sized_write. intros H. apply dbind_dlift_inv in H. destruct H as (n & Hg & H).
  cbv zeta in H.
  assert (Hz : zlen out = n /\ (c_size c = SNone -> out = bs)).
  { destruct (0 <? zlen bs - n) eqn:H1; [discriminate|].
    destruct (zlen bs - n <? 0) eqn:H2.
    - apply dbind_dlift_inv in H. destruct H as (p & Hp & H).
      unfold dwrite in H. injection H as <- _. split.
      + eapply add_padding_length; eauto. lia.
      + intros Hs. rewrite Hs in Hg. injection Hg as <-. lia.
    - unfold dwrite in H. injection H as <- _. split; [lia|auto]. }
  destruct (c_size c) as [|m|nm].
  - apply Hz; auto.
  - injection Hg as ->. apply Hz.
  - exists n. split; [auto|apply Hz].
Qed.

Lemma to_stream_ok_inv nr dd g c k v out x :
  to_stream_with nr dd g c k v = (out, Ok x) ->
  exists w, resolved c v w /\ w <> VUndefined /\ w <> VDefault /\ accepts c w
    /\ ((w = VNone /\ nr = Ok out)
        \/ (w <> VNone /\ exists bs, dd w = (bs, Ok tt) /\ sized_write g c k bs = (out, Ok x))).
Proof.
  unfold to_stream_with. intros H. apply dbind_dlift_inv in H. destruct H as (w & Hw & H).
  exists w. split.
  { unfold resolved. destruct v; cbn [is_default] in Hw; try (left; split; [discriminate|congruence]).
    right; auto. }
  destruct (is_undefined w || is_default w) eqn:Hu; [discriminate|].
  apply orb_false_iff in Hu. destruct Hu as [Hu Hd].
  split; [intros ->; discriminate|]. split; [intros ->; discriminate|].
  apply dbind_dlift_inv in H. destruct H as ([] & Hv & H).
  split; [apply run_accepts; auto|].
  destruct (is_none w) eqn:Hn.
  - left. split; [destruct w; try discriminate; auto|].
    apply dbind_dlift_inv in H. destruct H as (bs & Hnr & H). unfold dwrite in H. congruence.
  - right. split; [intros ->; discriminate|].
    destruct (dd w) as [bs r]. apply dbind_dlift_inv in H. destruct H as ([] & -> & H).
    exists bs. split; auto.
Qed.

Lemma to_stream_fail nr dd g c k v out r :
  to_stream_with nr dd g c k v = (out, r) -> is_ok r = false -> out = [].
Proof.
  unfold to_stream_with. intros H Hr.
  repeat match type of H with
  | dbind (dlift ?m) ?k = _ =>
    destruct m; [rewrite dbind_ok in H|cbn in H; congruence|cbn in H; congruence]
  | (if ?b then _ else _) = _ => destruct b
  | (let '(_, _) := ?p in _) = _ => destruct p
  | dwrite _ = _ => unfold dwrite in H; injection H as _ <-; discriminate Hr
  | draise _ = _ => unfold draise in H; congruence
  end.
Qed.

(** C18 *)
Lemma field_dump_atomic E n f v ctx d out r :
  field_to_stream E n f v ctx d = (out, r) -> is_ok r = false -> out = [].
Proof. apply to_stream_fail. Qed.

(** C17 *)
Lemma field_dump_size E n f v ctx d out size :
  field_to_stream E n f v ctx d = (out, Ok tt) ->
  declared_size (conf f) d size ->
  v <> VNone -> (v = VDefault -> default_of (conf f) <> Ok VNone) ->
  zlen out = size.
Proof.
  intros H Hs Hn Hd. apply to_stream_ok_inv in H.
  destruct H as (w & Hres & _ & _ & _ & [(Hw & _)|(Hw & bs & _ & Hsz)]).
  - subst w. destruct Hres as [(_ & Hw)|(Hv & Hw)]; [congruence|]. apply Hd in Hv. contradiction.
  - apply sized_write_inv in Hsz. destruct Hs as [Hs|(nm & Hs & Hget)]; rewrite Hs in Hsz; auto.
    destruct Hsz as (m & Hg & Hz). unfold ges, get_expected_size_with in Hg.
    rewrite Hs, Hget in Hg. congruence.
Qed.

(** ** None *)

Lemma null_form_repr E n f d nb : null_form E n f d nb ->
  null_repr (do_dump E n) f d = Ok nb.
Proof.
  unfold null_form, null_repr, null_repr_with.
  assert (Hdd : forall v, do_dump E n f v VNone d = (nb, Ok tt) ->
     match do_dump E n f v VNone d with
     | (out, Ok _) => Ok out | (_, Raise e) => Raise e | (_, OOF) => OOF end = Ok nb)
    by (intros v ->; reflexivity).
  destruct (c_null (conf f)); intros H; try contradiction; auto.
  - destruct H as (size & Hs & ->). unfold ges. rewrite (ges_declared _ _ _ _ _ Hs). auto.
  - destruct H as (size & Hs & ->). unfold ges. rewrite (ges_declared _ _ _ _ _ Hs). auto.
  - congruence.
Qed.

Lemma none_dump E n f ctx d nb : null_form E n f d nb -> accepts (conf f) VNone ->
  field_to_stream E n f VNone ctx d = (nb, Ok tt).
Proof.
  intros Hn Ha. unfold field_to_stream, field_to_stream_with, to_stream_with.
  cbn [is_default]. rewrite dbind_ok. cbn [is_undefined is_default is_none orb].
  rewrite (accepts_run _ _ Ha), dbind_ok, (null_form_repr _ _ _ _ _ Hn), dbind_ok. reflexivity.
Qed.

Lemma null_form_allow E n f d nb : null_form E n f d nb -> allow_null (conf f) = true.
Proof. unfold null_form, allow_null. destruct (c_null (conf f)); auto. Qed.

Lemma none_load E n f ctx d nb suf s :
  null_form E n f d nb -> always_present (conf f) -> accepts (conf f) VNone ->
  rest s = nb ++ suf ->
  field_from_stream E n f ctx d s = (advance s (length nb), Ok VNone).
Proof.
  intros Hn Hp Ha Hr. unfold field_from_stream, field_from_stream_with, from_stream_with.
  rewrite Hp, (null_form_allow _ _ _ _ _ Hn), (null_form_repr _ _ _ _ _ Hn).
  unfold peek_bytes. rewrite (read_app s nb suf Hr). cbn [negb andb].
  rewrite bytes_eqb_refl, (accepts_run _ _ Ha). reflexivity.
Qed.

Lemma none_load_at E n f ctx d nb pre suf :
  null_form E n f d nb -> always_present (conf f) -> accepts (conf f) VNone ->
  field_from_stream E n f ctx d (at_data pre nb suf) = (after_data pre nb suf, Ok VNone).
Proof.
  intros Hn Hp Ha. rewrite (none_load E n f ctx d nb suf) by (auto; apply rest_at).
  rewrite advance_at. reflexivity.
Qed.

Lemma none_refused E n f ctx d : c_null (conf f) = VUndefined -> accepts (conf f) VNone ->
  field_to_stream E n f VNone ctx d = ([], Raise (EUnserializable (c_name (conf f)))).
Proof.
  intros Hn Ha. unfold field_to_stream, field_to_stream_with, to_stream_with.
  cbn [is_default]. rewrite dbind_ok. cbn [is_undefined is_default is_none orb].
  rewrite (accepts_run _ _ Ha), dbind_ok. unfold null_repr, null_repr_with. rewrite Hn. reflexivity.
Qed.

(** A leaf whose [null_value] is an ordinary value writes None as it writes that value. *)
Lemma none_as_value E n c k nv ctx d bs :
  leaf_kind k = true -> (forall cd pad, k <> KStringZ cd pad) ->
  c_null c = nv ->
  is_data nv = true -> (forall b, nv <> VBytes b) -> accepts c nv -> accepts c VNone ->
  field_to_stream E n (Field c k) nv ctx d = (bs, Ok tt) ->
  field_to_stream E n (Field c k) VNone ctx d = (bs, Ok tt).
Proof.
  intros Hk Hz Hc Hd Hb Ha Han H. apply none_dump; auto.
  rewrite field_to_stream_leaf in H by auto.
  unfold null_form. cbn [conf]. 
  assert (Hdd : do_dump E n (Field c k) nv VNone d = (bs, Ok tt)).
  { rewrite do_dump_leaf by auto.
    destruct (leaf_dump c k (get_expected_size_with (fun _ => draise ETypeErr) c k d) nv)
      as [b [[]|e|]] eqn:Hl; try discriminate.
    f_equal. unfold sized_write in H. apply dbind_dlift_inv in H. destruct H as (m & Hm & H).
    cbv zeta in H. destruct (0 <? zlen b - m) eqn:H1; [discriminate|].
    destruct (zlen b - m <? 0) eqn:H2; [|unfold dwrite in H; congruence].
    apply dbind_dlift_inv in H. destruct H as (p & Hp & H).
    destruct k as [| | | | |cd [q|]|cd [q|]| | | |]; try discriminate Hp; [|destruct (Hz cd (Some q)); auto].
    (* String pads itself, so it is never too short here *)
    exfalso. cbn [leaf_dump] in Hl. destruct nv; try discriminate Hl.
    apply dbind_dlift_inv in Hl. destruct Hl as (o & Ho & Hl). unfold dwrite in Hl.
    injection Hl as ->. destruct (get_expected_size_with _ c _ d) as [z|e|] eqn:Hg.
    - destruct (encode_and_resize_ok _ _ _ _ _ _ Ho) as (t & kk & _ & Hzl & _).
      unfold get_expected_size_with in Hg. unfold get_expected_size, ges, get_expected_size_with in Hm.
      cbn [conf kind] in Hm. destruct (c_size c) as [|q'|nm].
      + injection Hm as <-. lia.
      + injection Hm as <-. injection Hg as <-. lia.
      + destruct (dget d nm) as [[]|]; try discriminate. injection Hm as <-. injection Hg as <-. lia.
    - unfold encode_and_resize in Ho. destruct (encode cd cps); discriminate.
    - unfold encode_and_resize in Ho. destruct (encode cd cps); discriminate. }
  subst nv. destruct (c_null c) eqn:Hcn; try discriminate Hd; auto. edestruct Hb; eauto.
Qed.

(** ** Values through a nullable field *)
Lemma load_not_null E n f ctx d nb s s' v :
  null_form E n f d nb -> always_present (conf f) ->
  (forall suf, rest s <> nb ++ suf) ->
  do_load E n f ctx d s = (s', Ok v) ->
  py_eq E n v (c_null (conf f)) = Ok false ->
  c_const (conf f) = VUndefined -> accepts (conf f) v ->
  field_from_stream E n f ctx d s = (s', Ok v).
Proof.
  intros Hn Hp Hne Hl Heq Hc Ha. unfold field_from_stream, field_from_stream_with, from_stream_with.
  rewrite Hp, (null_form_allow _ _ _ _ _ Hn), (null_form_repr _ _ _ _ _ Hn).
  unfold peek_bytes. destruct (read s (zlen nb)) as [data s1] eqn:Hread. cbn [negb andb].
  destruct (bytes_eqb data nb) eqn:Hb.
  - apply bytes_eqb_eq in Hb. subst data. apply read_spec in Hread. destruct Hread as (suf & Hr & _).
    destruct (Hne suf Hr).
  - unfold lbind, llift, lret. rewrite Hl, Heq. cbn [bind]. rewrite Hc. cbn [is_undefined negb].
    rewrite (accepts_run _ _ Ha). reflexivity.
Qed.

Lemma load_equals_null E n f ctx d nb s s' v :
  null_form E n f d nb -> always_present (conf f) ->
  (forall suf, rest s <> nb ++ suf) ->
  do_load E n f ctx d s = (s', Ok v) ->
  py_eq E n v (c_null (conf f)) = Ok true ->
  c_const (conf f) = VUndefined -> accepts (conf f) VNone ->
  field_from_stream E n f ctx d s = (s', Ok VNone).
Proof.
  intros Hn Hp Hne Hl Heq Hc Ha. unfold field_from_stream, field_from_stream_with, from_stream_with.
  rewrite Hp, (null_form_allow _ _ _ _ _ Hn), (null_form_repr _ _ _ _ _ Hn).
  unfold peek_bytes. destruct (read s (zlen nb)) as [data s1] eqn:Hread. cbn [negb andb].
  destruct (bytes_eqb data nb) eqn:Hb.
  - apply bytes_eqb_eq in Hb. subst data. apply read_spec in Hread. destruct Hread as (suf & Hr & _).
    destruct (Hne suf Hr).
  - unfold lbind, llift, lret. rewrite Hl, Heq. cbn [bind]. rewrite Hc. cbn [is_undefined negb].
    rewrite (accepts_run _ _ Ha). reflexivity.
Qed.

(** ** const (C21) *)
Lemma const_load_ok E n f ctx d s s' v :
  always_present (conf f) -> c_null (conf f) = VUndefined -> c_const (conf f) <> VUndefined ->
  field_from_stream E n f ctx d s = (s', Ok v) ->
  py_eq E n v (c_const (conf f)) = Ok true.
Proof.
  intros Hp Hn Hc H. unfold field_from_stream, field_from_stream_with in H.
  rewrite from_stream_present in H by (cbn; auto). unfold checked in H.
  destruct (do_load E n f ctx d s) as [s1 [w|e|]]; try discriminate.
  destruct (is_undefined (c_const (conf f))) eqn:Hu.
  { destruct (c_const (conf f)); try discriminate. congruence. }
  cbn [negb] in H. injection H as _ H.
  destruct (py_eq E n w (c_const (conf f))) as [[|]|e|] eqn:Heq; cbn [bind] in H; try discriminate.
  destruct (run_validators _ w); try discriminate. cbn [bind] in H. congruence.
Qed.

Lemma const_load_mismatch E n f ctx d s s' v :
  always_present (conf f) -> c_null (conf f) = VUndefined -> c_const (conf f) <> VUndefined ->
  do_load E n f ctx d s = (s', Ok v) -> py_eq E n v (c_const (conf f)) = Ok false ->
  field_from_stream E n f ctx d s = (s', Raise (EValidation (c_name (conf f)))).
Proof.
  intros Hp Hn Hc Hl Heq. unfold field_from_stream, field_from_stream_with.
  rewrite from_stream_present by (cbn; auto). unfold checked. rewrite Hl.
  destruct (is_undefined (c_const (conf f))) eqn:Hu.
  { destruct (c_const (conf f)); try discriminate. congruence. }
  cbn [negb]. rewrite Heq. reflexivity.
Qed.

(** ** Validators (C24) *)
Lemma load_validated E n f ctx d s s' v :
  field_from_stream E n f ctx d s = (s', Ok v) ->
  run_dict d (c_present (conf f) ctx (Some s)) = Ok true ->
  accepts (conf f) v.
Proof.
  intros H Hp. unfold field_from_stream, field_from_stream_with, from_stream_with in H.
  rewrite Hp in H. apply run_accepts.
  assert (Hload : forall s0, (ldo v0 <- fun s1 => match do_load E n f ctx d s1 with
                            | (s2, Raise e) => (s2, Raise (set_field (c_name (conf f)) e))
                            | x => x end;
     ldo v1 <- llift (if allow_null (conf f) then
                        do b <- py_eq E n v0 (c_null (conf f)); Ok (if b then VNone else v0)
                      else Ok v0);
     ldo _ <- llift (if negb (is_undefined (c_const (conf f))) then
                       do b <- py_eq E n v1 (c_const (conf f));
                       if b then Ok tt else Raise (EValidation (c_name (conf f)))
                     else Ok tt);
     ldo _ <- llift (run_validators (c_validators (conf f)) v1); lret v1) s0 = (s', Ok v) ->
     run_validators (c_validators (conf f)) v = Ok tt).
  { clear H. intros s0 H0. unfold lbind, llift, lret in H0.
    destruct (do_load E n f ctx d s0) as [s1 [v0|e|]]; try discriminate.
    destruct (if allow_null (conf f) then _ else _) as [v1|e|]; try discriminate.
    destruct (if negb (is_undefined (c_const (conf f))) then _ else _) as [[]|e|]; try discriminate.
    destruct (run_validators (c_validators (conf f)) v1) as [[]|e|] eqn:Hv; try discriminate.
    injection H0 as _ ->. auto. }
  destruct (allow_null (conf f)) eqn:Hal; [|apply (Hload s); exact H].
  destruct (null_repr (do_dump E n) f d) as [nb|e|]; [| |discriminate].
  - destruct (peek_bytes (zlen nb) true s) as [s1 [p|e|]]; try discriminate.
    destruct (bytes_eqb p nb); [|apply (Hload s1); exact H].
    destruct (run_validators (c_validators (conf f)) VNone) as [[]|e|] eqn:Hv; try discriminate.
    injection H as _ <-. auto.
  - destruct (is_UnserializableValueError e); [|discriminate].
    destruct (is_default (c_null (conf f))); [discriminate|]. apply (Hload s); exact H.
Qed.

Lemma dump_validated E n f v ctx d out :
  field_to_stream E n f v ctx d = (out, Ok tt) ->
  exists w, resolved (conf f) v w /\ accepts (conf f) w.
Proof.
  intros H. apply to_stream_ok_inv in H. destruct H as (w & Hr & _ & _ & Ha & _). eauto.
Qed.

Lemma dump_rejected E n f v w ctx d pre check post e :
  resolved (conf f) v w -> w <> VUndefined -> w <> VDefault ->
  c_validators (conf f) = pre ++ check :: post ->
  Forall (fun g => g w = Ok tt) pre -> check w = Raise e ->
  field_to_stream E n f v ctx d = ([], Raise e).
Proof.
  intros Hres Hu Hd Hv Hpre Hc.
  unfold field_to_stream, field_to_stream_with, to_stream_with.
  assert (Hw : (if is_default v then default_of (conf f) else Ok v) = Ok w).
  { destruct Hres as [(Hne & ->)|(-> & Hdef)]; [|exact Hdef]. destruct v; try reflexivity. congruence. }
  rewrite Hw, dbind_ok.
  replace (is_undefined w || is_default w) with false by (destruct w; auto; congruence).
  assert (Hrun : run_validators (c_validators (conf f)) w = Raise e).
  { rewrite Hv. clear Hv. induction pre as [|g pre IH]; cbn [app run_validators].
    - rewrite Hc. reflexivity.
    - inversion Hpre as [|? ? Hg Hrest]; subst. rewrite Hg. cbn [bind]. auto. }
  rewrite Hrun. reflexivity.
Qed.

Lemma load_rejected E n f ctx d s s' v pre check post e :
  always_present (conf f) -> c_null (conf f) = VUndefined -> c_const (conf f) = VUndefined ->
  do_load E n f ctx d s = (s', Ok v) ->
  c_validators (conf f) = pre ++ check :: post ->
  Forall (fun g => g v = Ok tt) pre -> check v = Raise e ->
  field_from_stream E n f ctx d s = (s', Raise e).
Proof.
  intros Hp Hn Hc Hl Hv Hpre He. unfold field_from_stream, field_from_stream_with.
  rewrite from_stream_present by (cbn; auto). unfold checked. rewrite Hl, Hc.
  cbn [is_undefined negb bind].
  assert (Hrun : run_validators (c_validators (conf f)) v = Raise e).
  { rewrite Hv. clear Hv. induction pre as [|g pre IH]; cbn [app run_validators].
    - rewrite He. reflexivity.
    - inversion Hpre as [|? ? Hg Hrest]; subst. rewrite Hg. cbn [bind]. auto. }
  rewrite Hrun. reflexivity.
Qed.

(** ** Absent fields (C25) *)
Lemma absent_load E n f ctx d s :
  run_dict d (c_present (conf f) ctx (Some s)) = Ok false ->
  field_from_stream E n f ctx d s = (s, Ok (c_npv (conf f))).
Proof.
  intros Hp. unfold field_from_stream, field_from_stream_with, from_stream_with. rewrite Hp. reflexivity.
Qed.

(** ** compute_value_for_dump (C26) *)
Lemma run_qbind {A B} mem get keys (q : query A) (k : A -> query B) :
  run_q mem get keys (qbind q k)
  = match run_q mem get keys q with
    | Ok a => run_q mem get keys (k a) | Raise e => Raise e | OOF => OOF
    end.
Proof.
  induction q as [a|e|nm f IH|nm f IH|f IH]; cbn [qbind run_q]; auto.
  destruct (get nm); auto.
Qed.

(** The value a field contributes, before presence is considered. *)
Lemma stored_explicit c d nm v : c_name c = Some nm -> dget d nm = Some v ->
  run_dict d (stored_or_fallback c) = Ok v.
Proof.
  intros Hn Hd. unfold stored_or_fallback, run_dict. rewrite Hn. cbn [run_q].
  unfold dmem, dget_res. rewrite Hd. cbn [run_q]. rewrite Hd. reflexivity.
Qed.

Lemma stored_missing c d : oget d (c_name c) = None ->
  run_dict d (stored_or_fallback c) = run_dict d (fallback_value c).
Proof.
  intros Ho. unfold stored_or_fallback, run_dict. destruct (c_name c) as [nm|]; [|reflexivity].
  cbn [run_q oget] in *. unfold dmem. rewrite Ho. reflexivity.
Qed.

Lemma compute_run c ctx d :
  run_dict d (compute_value_for_dump c ctx)
  = match run_dict d (stored_or_fallback c) with
    | Ok v =>
      if is_not_present v then Ok VNotPresent
      else match run_dict d (c_present c ctx None) with
           | Ok true => if is_undefined v then Raise (EMissingRequired (c_name c)) else Ok v
           | Ok false => Ok VNotPresent
           | Raise e => Raise e
           | OOF => OOF
           end
    | Raise e => Raise e
    | OOF => OOF
    end.
Proof.
  unfold compute_value_for_dump, run_dict. rewrite run_qbind.
  destruct (run_q _ _ _ (stored_or_fallback c)) as [v|e|]; auto.
  destruct (is_not_present v); [reflexivity|]. rewrite run_qbind.
  destruct (run_q _ _ _ (c_present c ctx None)) as [[|]|e|]; cbn [negb]; auto.
  destruct (is_undefined v); reflexivity.
Qed.

Lemma value_explicit c ctx d nm v : c_name c = Some nm -> dget d nm = Some v ->
  v <> VUndefined -> v <> VNotPresent -> run_dict d (c_present c ctx None) = Ok true ->
  run_dict d (compute_value_for_dump c ctx) = Ok v.
Proof.
  intros Hn Hd Hu Hnp Hp. rewrite compute_run, (stored_explicit _ _ _ _ Hn Hd), Hp.
  destruct v; try reflexivity; congruence.
Qed.

Lemma value_default c ctx d v : oget d (c_name c) = None -> c_default c <> VUndefined ->
  default_of c = Ok v -> v <> VUndefined -> v <> VNotPresent ->
  run_dict d (c_present c ctx None) = Ok true ->
  run_dict d (compute_value_for_dump c ctx) = Ok v.
Proof.
  intros Ho Hd Hdef Hu Hnp Hp. rewrite compute_run, (stored_missing _ _ Ho).
  unfold fallback_value. replace (negb (is_undefined (c_default c))) with true
    by (destruct (c_default c); auto; congruence).
  assert (Hq : run_dict d (default_query c) = Ok v).
  { unfold default_of in Hdef. unfold default_query. destruct (c_factory c) as [[w|e]|]; cbn; congruence. }
  rewrite Hq, Hp. destruct v; try reflexivity; congruence.
Qed.

Lemma value_computed c ctx d q v : oget d (c_name c) = None -> c_default c = VUndefined ->
  c_compute c = Some q -> run_dict d q = Ok v -> v <> VUndefined -> v <> VNotPresent ->
  run_dict d (c_present c ctx None) = Ok true ->
  run_dict d (compute_value_for_dump c ctx) = Ok v.
Proof.
  intros Ho Hd Hc Hq Hu Hnp Hp. rewrite compute_run, (stored_missing _ _ Ho).
  unfold fallback_value. rewrite Hd, Hc. cbn [is_undefined negb]. rewrite Hq, Hp.
  destruct v; try reflexivity; congruence.
Qed.

Lemma value_missing c ctx d : oget d (c_name c) = None -> c_default c = VUndefined ->
  c_compute c = None -> run_dict d (c_present c ctx None) = Ok true ->
  run_dict d (compute_value_for_dump c ctx) = Raise (EMissingRequired (c_name c)).
Proof.
  intros Ho Hd Hc Hp. rewrite compute_run, (stored_missing _ _ Ho).
  unfold fallback_value. rewrite Hd, Hc. cbn [is_undefined negb].
  unfold run_dict at 1. cbn [run_q is_not_present is_undefined]. rewrite Hp. reflexivity.
Qed.

Lemma value_absent c ctx d v : run_dict d (stored_or_fallback c) = Ok v ->
  v = VNotPresent \/ run_dict d (c_present c ctx None) = Ok false ->
  run_dict d (compute_value_for_dump c ctx) = Ok VNotPresent.
Proof.
  intros Hs Hor. rewrite compute_run, Hs. destruct Hor as [->|Hp]; [reflexivity|].
  rewrite Hp. destruct (is_not_present v); reflexivity.
Qed.

(** ** from_bytes (C22) *)
Lemma from_bytes_spec E n f data ctx exact d s' r :
  field_from_stream E n f ctx d (mkStream data 0) = (s', r) ->
  field_from_bytes E n f data ctx exact d
  = match r with
    | Ok v => if exact && (tell s' <? zlen data) then Raise (EExtraneous None) else Ok v
    | Raise e => Raise e
    | OOF => OOF
    end.
Proof.
  intros H. unfold field_from_bytes. rewrite H. destruct r as [v|e|]; auto.
  replace (0 <? zlen data - tell s') with (tell s' <? zlen data) by lia. reflexivity.
Qed.

(** C23 *)
Lemma struct_from_bytes_spec E n cid data ctx exact kw s' r :
  struct_from_stream E n cid ctx kw (mkStream data 0) = (s', r) ->
  struct_from_bytes E n cid data ctx exact kw
  = match r with
    | Ok v => if exact && (tell s' + 1 <? zlen data) then Raise (EExtraneous None) else Ok v
    | Raise e => Raise e
    | OOF => OOF
    end.
Proof.
  intros H. unfold struct_from_bytes. rewrite H. destruct r as [v|e|]; auto.
  cbv zeta. replace (tell s' <? zlen data - 1) with (tell s' + 1 <? zlen data) by lia. reflexivity.
Qed.

(** ** Round trips through a nullable field (C20) *)
Lemma null_roundtrip_iff E n f ctx d nb s s' v :
  null_form E n f d nb -> always_present (conf f) -> c_const (conf f) = VUndefined ->
  accepts (conf f) v -> do_load E n f ctx d s = (s', Ok v) -> v <> VNone ->
  py_eq E n v (c_null (conf f)) = Ok false ->
  (field_from_stream E n f ctx d s = (s', Ok v) <-> forall suf, rest s <> nb ++ suf).
Proof.
  intros Hn Hp Hc Ha Hl Hv Heq. split; [|intros; eapply load_not_null; eauto].
  intros H suf Hr. unfold field_from_stream, field_from_stream_with, from_stream_with in H.
  rewrite Hp, (null_form_allow _ _ _ _ _ Hn), (null_form_repr _ _ _ _ _ Hn) in H.
  unfold peek_bytes in H. rewrite (read_app s nb suf Hr) in H. cbn [negb andb] in H.
  rewrite bytes_eqb_refl in H.
  destruct (run_validators (c_validators (conf f)) VNone); congruence.
Qed.

Lemma null_integer_iff E n c sg e size nb v ctx ctx' d d' bs pre suf :
  c_size c = SInt size -> c_null c = VBytes nb -> always_present c ->
  c_const c = VUndefined -> accepts c (VInt v) ->
  field_to_stream E (S n) (Field c (KInt sg e)) (VInt v) ctx d = (bs, Ok tt) ->
  (field_from_stream E (S n) (Field c (KInt sg e)) ctx' d' (at_data pre bs suf)
   = (after_data pre bs suf, Ok (VInt v))
   <-> forall suf', bs ++ suf <> nb ++ suf').
Proof.
  intros Hs Hn Hp Hc Ha Hd. rewrite (int_to_stream _ _ _ _ _ size) in Hd by auto.
  destruct (py_to_bytes v size e sg) as [b| |] eqn:Hb; try discriminate. injection Hd as ->.
  pose proof (py_to_bytes_ok _ _ _ _ _ Hb) as (_ & _ & Hl & _). subst size.
  rewrite (null_roundtrip_iff E (S n) (Field c (KInt sg e)) ctx' d' nb); auto.
  - rewrite rest_at. reflexivity.
  - unfold null_form. cbn [conf]. rewrite Hn. reflexivity.
  - rewrite do_load_leaf by auto. rewrite (int_load_eq c sg e _ _ bs suf) by (auto; apply rest_at).
    rewrite advance_at, (py_from_to_bytes _ _ _ _ _ Hb). reflexivity.
  - discriminate.
  - cbn [conf]. rewrite Hn. reflexivity.
Qed.

(** With an integer as [null_value], every other representable integer round-trips. *)
Lemma null_integer_value E n c sg e size nv v ctx ctx' d d' bs pre suf :
  c_size c = SInt size -> c_null c = VInt nv -> always_present c ->
  c_const c = VUndefined -> accepts c (VInt v) -> int_range sg size nv -> v <> nv ->
  field_to_stream E (S n) (Field c (KInt sg e)) (VInt v) ctx d = (bs, Ok tt) ->
  field_from_stream E (S n) (Field c (KInt sg e)) ctx' d' (at_data pre bs suf)
  = (after_data pre bs suf, Ok (VInt v)).
Proof.
  intros Hs Hn Hp Hc Ha Hr Hne Hd. rewrite (int_to_stream _ _ _ _ _ size) in Hd by auto.
  destruct (py_to_bytes v size e sg) as [b| |] eqn:Hb; try discriminate. injection Hd as ->.
  pose proof (py_to_bytes_ok _ _ _ _ _ Hb) as (H0 & _ & Hl & _).
  assert (Hnv : exists nb, py_to_bytes nv size e sg = Ok nb).
  { unfold py_to_bytes. replace (size <? 0) with false by lia. apply fits_range in Hr. rewrite Hr. eauto. }
  destruct Hnv as [nb Hnb]. pose proof (py_to_bytes_ok _ _ _ _ _ Hnb) as (_ & _ & Hnl & _).
  apply (load_not_null _ _ _ _ _ nb); auto.
  - unfold null_form. cbn [conf]. rewrite Hn, do_dump_leaf by auto.
    rewrite (int_dump_eq _ _ _ _ size), Hnb by auto. reflexivity.
  - intros suf'. rewrite rest_at. intros Heq.
    assert (Hbs : bs = nb).
    { apply (f_equal (firstn (length bs))) in Heq.
      assert (length nb = length bs) by (unfold zlen in *; lia).
      rewrite <- H in Heq at 2. rewrite !firstn_app, !Nat.sub_diag, !firstn_all in Heq.
      cbn [firstn] in Heq. rewrite !app_nil_r in Heq. auto. }
    subst nb. rewrite <- (py_from_to_bytes _ _ _ _ _ Hb), <- (py_from_to_bytes _ _ _ _ _ Hnb) in Hne.
    congruence.
  - subst size. rewrite do_load_leaf by auto. rewrite (int_load_eq c sg e _ _ bs suf) by (auto; apply rest_at).
    rewrite advance_at, (py_from_to_bytes _ _ _ _ _ Hb). reflexivity.
  - cbn [conf]. rewrite Hn. cbn [py_eq]. f_equal. lia.
Qed.

(** ** Immutable fields (C21) *)
Lemma const_set_fails c vals v : c_const c <> VUndefined ->
  field_set c vals v = Raise (EImmutable (c_name c)).
Proof.
  intros H. unfold field_set.
  replace (is_undefined (c_const c)) with false by (destruct (c_const c); auto; congruence).
  cbn [negb]. rewrite orb_true_r. reflexivity.
Qed.

(** ** exact *)
Lemma from_bytes_exact_iff E n f data ctx d v :
  field_from_bytes E n f data ctx true d = Ok v
  <-> exists s', field_from_stream E n f ctx d (mkStream data 0) = (s', Ok v)
        /\ zlen data <= tell s'.
Proof.
  destruct (field_from_stream E n f ctx d (mkStream data 0)) as [s' r] eqn:H.
  rewrite (from_bytes_spec _ _ _ _ _ _ _ _ _ H). destruct r as [w|e|].
  - cbn [andb]. destruct (tell s' <? zlen data) eqn:Ht.
    + split; [discriminate|]. intros (s1 & Hs & Hle). injection Hs as <- <-. lia.
    + split.
      * intros [= <-]. exists s'. split; auto. lia.
      * intros (s1 & Hs & _). congruence.
  - split; [discriminate|]. intros (s1 & Hs & _). congruence.
  - split; [discriminate|]. intros (s1 & Hs & _). congruence.
Qed.

Lemma from_bytes_extraneous E n f data ctx d s' v :
  field_from_stream E n f ctx d (mkStream data 0) = (s', Ok v) -> tell s' < zlen data ->
  field_from_bytes E n f data ctx true d = Raise (EExtraneous None)
  /\ field_from_bytes E n f data ctx false d = Ok v.
Proof.
  intros H Hlt. rewrite !(from_bytes_spec _ _ _ _ _ _ _ _ _ H). cbn [andb].
  replace (tell s' <? zlen data) with true by lia. auto.
Qed.

Lemma struct_from_bytes_exact_iff E n cid data ctx kw vals :
  struct_from_bytes E n cid data ctx true kw = Ok vals
  <-> exists s', struct_from_stream E n cid ctx kw (mkStream data 0) = (s', Ok vals)
        /\ zlen data <= tell s' + 1.
Proof.
  destruct (struct_from_stream E n cid ctx kw (mkStream data 0)) as [s' r] eqn:H.
  rewrite (struct_from_bytes_spec _ _ _ _ _ _ _ _ _ H). destruct r as [w|e|].
  - cbn [andb]. destruct (tell s' + 1 <? zlen data) eqn:Ht.
    + split; [discriminate|]. intros (s1 & Hs & Hle). injection Hs as <- <-. lia.
    + split.
      * intros [= <-]. exists s'. split; auto. lia.
      * intros (s1 & Hs & _). congruence.
  - split; [discriminate|]. intros (s1 & Hs & _). congruence.
  - split; [discriminate|]. intros (s1 & Hs & _). congruence.
Qed.

(** What exactly happens with [k] left-over bytes. *)
Lemma struct_from_bytes_leftover E n cid data ctx kw s' vals :
  struct_from_stream E n cid ctx kw (mkStream data 0) = (s', Ok vals) ->
  (zlen data - tell s' <= 1 -> struct_from_bytes E n cid data ctx true kw = Ok vals)
  /\ (2 <= zlen data - tell s' ->
      struct_from_bytes E n cid data ctx true kw = Raise (EExtraneous None))
  /\ struct_from_bytes E n cid data ctx false kw = Ok vals.
Proof.
  intros H. rewrite !(struct_from_bytes_spec _ _ _ _ _ _ _ _ _ H). cbn [andb].
  split; [|split; auto]; intros Hk.
  - replace (tell s' + 1 <? zlen data) with false by lia. auto.
  - replace (tell s' + 1 <? zlen data) with true by lia. auto.
Qed.
