(** Reading and writing one component after another, for the formats of the project's examples. *)
From Verif Require Export SpecFormat WireProofs LeafMore RoundProofs FuelProofs InjProofs StreamProofs PyIntProofs LeafProofs FieldProofs StructProofs WireLeaf.
From Coq Require Import String ZArith List Lia.
Import ListNotations.
Open Scope list_scope.
Open Scope Z_scope.

(** The field has no constant, or it is this one. *)
Definition const_ok (c : fconf) (v : value) : Prop := c_const c = VUndefined \/ c_const c = v.

(** A field without conditions, null value or validators. *)
Definition simple (c : fconf) : Prop := always_present c /\ c_null c = VUndefined /\ c_validators c = [].

Definition int_or_bytes (v : value) : Prop := match v with VInt _ | VBytes _ => True | _ => False end.

Lemma eq_simple E n v w : int_or_bytes v -> int_or_bytes w -> py_eq E (S n) v w = Ok true <-> v = w.
Proof.
  intros Hv Hw. destruct v as [| | | |z| |b| | | | | | |]; try contradiction;
  destruct w as [| | | |z'| |b'| | | | | | |]; try contradiction; cbn [py_eq]; try (split; discriminate).
  - split; intros H; injection H as H; [f_equal; lia|]. subst. rewrite Z.eqb_refl. auto.
  - split; intros H; injection H as H; [apply bytes_eqb_eq in H; congruence|]. subst. rewrite bytes_eqb_refl. auto.
Qed.

Lemma reads_iff E n c k ctx d s s' v : simple c -> int_or_bytes (c_const c) \/ c_const c = VUndefined ->
  (forall s1 w, do_load E (S n) (Field c k) ctx d s = (s1, Ok w) -> int_or_bytes w) ->
  field_from_stream E (S n) (Field c k) ctx d s = (s', Ok v)
  <-> do_load E (S n) (Field c k) ctx d s = (s', Ok v) /\ const_ok c v.
Proof.
  intros (Hp & Hn & Hv) Hc Hl. unfold field_from_stream, field_from_stream_with.
  rewrite from_stream_present by (cbn; auto). unfold checked. cbn [conf]. rewrite Hv. cbn [run_validators bind].
  destruct (do_load E (S n) (Field c k) ctx d s) as [s1 [w|e|]] eqn:Hd.
  2, 3: split; [discriminate|intros [H _]; discriminate].
  specialize (Hl _ _ eq_refl). unfold const_ok.
  destruct Hc as [Hc|Hc].
  - replace (is_undefined (c_const c)) with false by (destruct (c_const c); auto; contradiction).
    cbn [negb]. pose proof (eq_simple E n w (c_const c) Hl Hc) as He.
    destruct (py_eq E (S n) w (c_const c)) as [[|]|e|]; cbn [bind].
    + split; [|intros [H _]; auto]. intros H. injection H as <- <-. split; auto. right. symmetry. apply He. auto.
    + split; [discriminate|]. intros [H [H'|H']]; [rewrite H' in Hc; contradiction|]. injection H as <- <-.
      assert (Ok false = Ok true) by (apply He; auto). discriminate.
    + split; [discriminate|]. intros [H [H'|H']]; [rewrite H' in Hc; contradiction|]. injection H as <- <-.
      assert (@Raise bool e = Ok true) by (apply He; auto). discriminate.
    + split; [discriminate|]. intros [H [H'|H']]; [rewrite H' in Hc; contradiction|]. injection H as <- <-.
      assert (@OOF bool = Ok true) by (apply He; auto). discriminate.
  - rewrite Hc. cbn [is_undefined negb bind]. split; [|intros [H _]; auto]. intros H. split; auto.
Qed.

Lemma next_iff s bs s' : next_bytes s bs s' <-> rest s = bs ++ rest s' /\ s' = advance s (length bs).
Proof.
  unfold next_bytes, advance. destruct s' as [dt p]. cbn [s_data s_pos]. split.
  - intros (H & -> & ->). auto.
  - intros [H E]. injection E as -> ->. auto.
Qed.

Lemma next_ex s k : 0 <= k <= zlen (rest s) -> exists bs s', zlen bs = k /\ next_bytes s bs s'.
Proof.
  intros Hk. setoid_rewrite next_iff. exists (firstn (Z.to_nat k) (rest s)), (advance s (Z.to_nat k)).
  assert (length (firstn (Z.to_nat k) (rest s)) = Z.to_nat k) as Hl.
  { apply firstn_length_le. unfold zlen in Hk. lia. }
  split; [unfold zlen; lia|]. split; [|rewrite Hl; auto]. rewrite rest_advance. symmetry. apply firstn_skipn.
Qed.

Lemma next_fun s bs s1 bs' s2 : next_bytes s bs s1 -> next_bytes s bs' s2 -> zlen bs = zlen bs' -> bs = bs' /\ s1 = s2.
Proof.
  rewrite !next_iff. intros [H1 E1] [H2 E2] Hz. unfold zlen in Hz. rewrite H1 in H2.
  apply app_same_length in H2; [|lia]. subst bs'. split; congruence.
Qed.

Lemma next_ok s bs s' : next_bytes s bs s' -> bytes_ok (rest s) -> bytes_ok bs /\ bytes_ok (rest s').
Proof. intros (-> & _) H. apply Forall_app in H. auto. Qed.

Lemma next_long s bs s' : next_bytes s bs s' -> zlen bs <= zlen (rest s).
Proof. intros (-> & _). rewrite zlen_app. pose proof (zlen_nonneg (rest s')). lia. Qed.

Lemma int_reads E n c sg e k ctx d s s' v : simple c -> int_or_bytes (c_const c) \/ c_const c = VUndefined ->
  c_size c = SInt k -> 0 <= k -> bytes_ok (rest s) ->
  field_from_stream E (S n) (Field c (KInt sg e)) ctx d s = (s', Ok v)
  <-> exists bs z, zlen bs = k /\ int_form sg e z bs /\ v = VInt z /\ const_ok c v /\ next_bytes s bs s'.
Proof.
  intros Hs Hc Hk H0 Hb.
  destruct (Z_lt_le_dec (zlen (rest s)) k) as [Hlt|Hle].
  - rewrite (short_input E (S n) c (KInt sg e) k ctx d s) by (cbn; auto; apply Hs).
    split; [discriminate|]. intros (bs & z & Hz & _ & _ & _ & Hr). apply next_long in Hr. lia.
  - destruct (next_ex s k) as (bs & s1 & Hz & Hnx); [lia|]. destruct (next_ok _ _ _ Hnx Hb) as [Hbs _].
    assert (Hl : do_load E (S n) (Field c (KInt sg e)) ctx d s = (s1, Ok (VInt (py_from_bytes bs e sg)))).
    { rewrite do_load_leaf by auto. apply next_iff in Hnx. destruct Hnx as [Hr ->].
      apply (int_load_eq c sg e _ _ bs (rest (advance s (length bs)))); auto. rewrite Hk, Hz. auto. }
    rewrite reads_iff; auto; [|intros s2 w Hw; rewrite Hl in Hw; injection Hw as _ <-; exact I].
    rewrite Hl. split.
    + intros [H Hco]. injection H as <- <-. exists bs, (py_from_bytes bs e sg).
      pose proof (py_to_from_bytes bs e sg Hbs) as Hi. apply int_form_iff in Hi. tauto.
    + intros (bs' & z & Hz' & Hi & -> & Hco & Hnx'). split; auto.
      destruct (next_fun _ _ _ _ _ Hnx Hnx') as [<- <-]; [congruence|].
      assert (Hw : py_to_bytes z k e sg = Ok bs) by (apply int_form_iff; auto).
      apply py_from_to_bytes in Hw. congruence.
Qed.

Lemma bytes_reads E n c k ctx d s s' v : simple c -> int_or_bytes (c_const c) \/ c_const c = VUndefined ->
  declared_size c d k -> 0 <= k ->
  field_from_stream E (S n) (Field c KBytes) ctx d s = (s', Ok v)
  <-> exists bs, zlen bs = k /\ v = VBytes bs /\ const_ok c v /\ next_bytes s bs s'.
Proof.
  intros Hs Hc Hk H0.
  destruct (Z_lt_le_dec (zlen (rest s)) k) as [Hlt|Hle].
  - rewrite (short_input_ref E (S n) c KBytes k ctx d s) by (cbn; auto; apply Hs).
    split; [discriminate|]. intros (bs & Hz & _ & _ & Hr). apply next_long in Hr. lia.
  - destruct (next_ex s k) as (bs & s1 & Hz & Hnx); [lia|].
    assert (Hl : do_load E (S n) (Field c KBytes) ctx d s = (s1, Ok (VBytes bs))).
    { rewrite do_load_leaf by auto. rewrite (ges_declared _ _ _ _ _ Hk), <- Hz. apply next_iff in Hnx. destruct Hnx as [Hr ->].
      apply (bytes_load_eq c _ bs _ _ Hr). }
    rewrite reads_iff; auto; [|intros s2 w Hw; rewrite Hl in Hw; injection Hw as _ <-; exact I].
    rewrite Hl. split.
    + intros [H Hco]. injection H as <- <-. eauto.
    + intros (bs' & Hz' & -> & Hco & Hnx'). split; auto.
      destruct (next_fun _ _ _ _ _ Hnx Hnx') as [<- <-]; [congruence|]. auto.
Qed.

Lemma int_writes E n c sg e k z bs ctx d : c_validators c = [] -> c_size c = SInt k ->
  zlen bs = k /\ int_form sg e z bs -> field_to_stream E n (Field c (KInt sg e)) (VInt z) ctx d = (bs, Ok tt).
Proof.
  intros Hv Hk [Hz Hi]. rewrite (int_to_stream _ _ _ _ _ k) by (auto; unfold accepts; rewrite Hv; auto).
  rewrite (proj2 (int_form_iff sg e z k bs)); auto.
Qed.

Lemma bytes_writes E n c bs ctx d : c_validators c = [] -> declared_size c d (zlen bs) ->
  field_to_stream E n (Field c KBytes) (VBytes bs) ctx d = (bs, Ok tt).
Proof.
  intros Hv Hk. rewrite (bytes_to_stream _ _ _ _ _ _ _ Hk) by (unfold accepts; rewrite Hv; auto).
  rewrite Z.eqb_refl. auto.
Qed.

(** ** Components one after another *)
Lemma next_app s a b s' : next_bytes s (a ++ b) s' <-> exists s1, next_bytes s a s1 /\ next_bytes s1 b s'.
Proof.
  split.
  - rewrite next_iff. intros [Hr ->]. exists (advance s (length a)). rewrite <- app_assoc in Hr.
    rewrite !next_iff. rewrite (rest_advance_app _ _ _ Hr), advance_advance, app_length in *. auto.
  - intros (s1 & H1 & H2). rewrite next_iff in *. destruct H1 as [R1 ->], H2 as [R2 ->].
    rewrite advance_advance, app_length in *. rewrite R1, R2, <- app_assoc. auto.
Qed.

Lemma next_nil s s' : next_bytes s [] s' <-> s' = s.
Proof.
  rewrite next_iff. unfold advance. cbn [length]. rewrite Nat.add_0_r. split; [intros [_ ->]; destruct s; auto|].
  intros ->. destruct s; auto.
Qed.

Lemma pieces_iff p ps bs : pieces (p :: ps) bs <-> exists b r, piece_form p b /\ pieces ps r /\ bs = b ++ r.
Proof.
  split.
  - intros H. inversion H; subst. eauto 6.
  - intros (b & r & Hb & Hr & ->). constructor; auto.
Qed.

Lemma next_pieces_cons p ps s s' : (exists bs, pieces (p :: ps) bs /\ next_bytes s bs s')
  <-> exists b s1, piece_form p b /\ next_bytes s b s1 /\ exists bs, pieces ps bs /\ next_bytes s1 bs s'.
Proof.
  split.
  - intros (bs & Hp & Hn). apply pieces_iff in Hp. destruct Hp as (b & r & Hb & Hr & ->).
    apply next_app in Hn. destruct Hn as (s1 & H1 & H2). eauto 8.
  - intros (b & s1 & Hb & H1 & bs & Hp & H2). exists (b ++ bs). split; [constructor; auto|]. apply next_app. eauto.
Qed.

Lemma next_pieces_nil s s' : (exists bs, pieces [] bs /\ next_bytes s bs s') <-> s' = s.
Proof.
  split.
  - intros (bs & Hp & Hn). inversion Hp; subst. apply next_nil. auto.
  - intros ->. exists []. split; [constructor|]. apply next_nil. auto.
Qed.

Lemma loads_iff E n ctx name f fs d s d' s' : loads E n ctx ((name, f) :: fs) d s d' s'
  <-> exists v s1, field_from_stream E n f ctx d s = (s1, Ok v)
      /\ loads E n ctx fs (if dmem d name then d else d ++ [(name, v)]) s1 d' s'.
Proof.
  split.
  - intros H. inversion H; subst. eauto.
  - intros (v & s1 & H & H'). econstructor; eauto.
Qed.

Lemma loads_end E n ctx d s d' s' : loads E n ctx [] d s d' s' <-> d' = d /\ s' = s.
Proof. split; [intros H; inversion H; auto|]. intros [-> ->]. constructor. Qed.

Lemma loads_int E n ctx name c sg e k fs d s d' s' : simple c -> int_or_bytes (c_const c) \/ c_const c = VUndefined ->
  c_size c = SInt k -> 0 <= k -> bytes_ok (rest s) -> dmem d name = false ->
  loads E (S n) ctx ((name, Field c (KInt sg e)) :: fs) d s d' s'
  <-> exists z b s1, (zlen b = k /\ int_form sg e z b) /\ const_ok c (VInt z) /\ next_bytes s b s1 /\ bytes_ok (rest s1)
      /\ loads E (S n) ctx fs (d ++ [(name, VInt z)]) s1 d' s'.
Proof.
  intros Hs Hc Hk H0 Hb Hd. rewrite loads_iff, Hd. split.
  - intros (v & s1 & Hf & Hl). apply (int_reads E n c sg e k) in Hf; auto.
    destruct Hf as (bs & z & Hz & Hi & -> & Hco & Hn). exists z, bs, s1.
    pose proof (next_ok _ _ _ Hn Hb). tauto.
  - intros (z & bs & s1 & [Hz Hi] & Hco & Hn & _ & Hl). exists (VInt z), s1. split; auto.
    apply (int_reads E n c sg e k); auto. eauto 10.
Qed.

Lemma loads_bytes E n ctx name c k fs d s d' s' : simple c -> int_or_bytes (c_const c) \/ c_const c = VUndefined ->
  declared_size c d k -> 0 <= k -> bytes_ok (rest s) -> dmem d name = false ->
  loads E (S n) ctx ((name, Field c KBytes) :: fs) d s d' s'
  <-> exists b s1, zlen b = k /\ const_ok c (VBytes b) /\ next_bytes s b s1 /\ bytes_ok (rest s1)
      /\ loads E (S n) ctx fs (d ++ [(name, VBytes b)]) s1 d' s'.
Proof.
  intros Hs Hc Hk H0 Hb Hd. rewrite loads_iff, Hd. split.
  - intros (v & s1 & Hf & Hl). apply (bytes_reads E n c k) in Hf; auto.
    destruct Hf as (bs & Hz & -> & Hco & Hn). exists bs, s1.
    pose proof (next_ok _ _ _ Hn Hb). tauto.
  - intros (bs & s1 & Hz & Hco & Hn & _ & Hl). exists (VBytes bs), s1. split; auto.
    apply (bytes_reads E n c k); auto. eauto 10.
Qed.

(** Writing. *)
Lemma range_form sg k z : 0 <= k -> int_range sg k z -> exists bs, zlen bs = k /\ int_form sg Little z bs.
Proof.
  intros H0 H. destruct (py_to_bytes z k Little sg) as [bs| |] eqn:Hb.
  - exists bs. apply int_form_iff. auto.
  - unfold py_to_bytes in Hb. destruct (Z.ltb_spec k 0); [lia|]. rewrite (proj2 (fits_range sg k z) H) in Hb. discriminate.
  - unfold py_to_bytes in Hb. destruct (Z.ltb_spec k 0); [lia|]. rewrite (proj2 (fits_range sg k z) H) in Hb. discriminate.
Qed.

Lemma pieces_ex ps : Forall sizes_ok ps -> Forall in_range ps -> exists bs, pieces ps bs.
Proof.
  induction ps as [|p ps IH]; intros Hs Hr; [exists []; constructor|].
  inversion Hs as [|? ? Hs1 Hs2]; inversion Hr as [|? ? Hr1 Hr2]; subst.
  destruct (IH Hs2 Hr2) as [bs Hb].
  assert (exists b, piece_form p b) as [b Hb'].
  { destruct p as [k z|k z|raw]; cbn [piece_form in_range sizes_ok] in *.
    - apply range_form; auto.
    - apply range_form; auto.
    - eauto. }
  exists (b ++ bs). constructor; auto.
Qed.
