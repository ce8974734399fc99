(** Proofs about varints.py. *)
From Verif Require Import Tac PyIntProofs StreamProofs Varints VarintSpec.

(** ** Bit operations on bytes, as arithmetic *)

Lemma land_ones_mod v k : 0 <= k -> Z.land v (2 ^ k - 1) = v mod 2 ^ k.
Proof. intros H. rewrite <- Z.land_ones by lia. rewrite Z.ones_equiv. reflexivity. Qed.

Lemma land_127 v : Z.land v 127 = v mod 128.
Proof. exact (land_ones_mod v 7 ltac:(lia)). Qed.

Lemma land_63 v : Z.land v 63 = v mod 64.
Proof. exact (land_ones_mod v 6 ltac:(lia)). Qed.

Lemma shiftr_7 v : Z.shiftr v 7 = v / 128.
Proof. rewrite Z.shiftr_div_pow2 by lia. reflexivity. Qed.

Lemma lor_disjoint_add a b : Z.land a b = 0 -> Z.lor a b = a + b.
Proof.
  intros H. rewrite Z.add_nocarry_lxor by auto.
  symmetry. apply Z.bits_inj'. intros n Hn.
  rewrite Z.lxor_spec, Z.lor_spec.
  pose proof (f_equal (fun z => Z.testbit z n) H) as Hb. cbn in Hb.
  rewrite Z.land_spec, Z.bits_0 in Hb.
  destruct (Z.testbit a n), (Z.testbit b n); auto; discriminate.
Qed.

(** [a * 2^k] and a number below [2^k] don't overlap. *)
Lemma lor_shift_add a b k : 0 <= k -> 0 <= b < 2 ^ k -> Z.lor (a * 2 ^ k) b = a * 2 ^ k + b.
Proof.
  intros Hk Hb. apply lor_disjoint_add. apply Z.bits_inj'. intros n Hn.
  rewrite Z.land_spec, Z.bits_0.
  destruct (Z.ltb_spec n k) as [Hlt|Hge].
  - rewrite Z.mul_pow2_bits_low by lia. reflexivity.
  - rewrite <- (Z.mod_small b (2 ^ k)) by lia.
    rewrite Z.mod_pow2_bits_high by lia. apply andb_false_r.
Qed.

Lemma lor_128 d : 0 <= d < 128 -> Z.lor 128 d = 128 + d.
Proof. intros H. exact (lor_shift_add 1 d 7 ltac:(lia) H). Qed.

Lemma land_128_zero b : 0 <= b < 256 -> (Z.land b 128 =? 0) = (b <? 128).
Proof.
  intros H. apply eqb_prop.
  exact (sweep (fun b => eqb (Z.land b 128 =? 0) (b <? 128)) 256 eq_refl b H).
Qed.

Lemma land_64_zero b : 0 <= b < 256 -> (Z.land b 64 =? 0) = (b mod 128 <? 64).
Proof.
  intros H. apply eqb_prop.
  exact (sweep (fun b => eqb (Z.land b 64 =? 0) (b mod 128 <? 64)) 256 eq_refl b H).
Qed.

Lemma shiftl_lor_add v d : 0 <= d < 128 -> Z.lor (Z.shiftl v 7) d = v * 128 + d.
Proof. intros H. rewrite Z.shiftl_mul_pow2 by lia. exact (lor_shift_add v d 7 ltac:(lia) H). Qed.

Lemma lor_shiftl_add v d k : 0 <= k -> 0 <= v < 2 ^ k -> Z.lor v (Z.shiftl d k) = v + d * 2 ^ k.
Proof.
  intros Hk H. rewrite Z.shiftl_mul_pow2 by lia. rewrite Z.lor_comm, lor_shift_add by lia. lia.
Qed.

Lemma ceil_div7_spec a : 7 * (ceil_div7 a - 1) < a <= 7 * ceil_div7 a.
Proof. unfold ceil_div7. dmlia. Qed.

Lemma pow128_S n : 128 ^ Z.of_nat (S n) = 128 * 128 ^ Z.of_nat n.
Proof. rewrite Nat2Z.inj_succ, Z.pow_succ_r; lia. Qed.

Lemma pow128_pos n : 0 < 128 ^ Z.of_nat n.
Proof. apply Z.pow_pos_nonneg; lia. Qed.

Lemma pow2_7 n : 2 ^ (7 * Z.of_nat n) = 128 ^ Z.of_nat n.
Proof. rewrite Z.pow_mul_r by lia. reflexivity. Qed.

(** ** Decoders *)

Lemma terminated_bytes_ok bs : terminated bs -> bytes_ok bs.
Proof.
  intros (init & last & -> & Hi & Hl). apply Forall_app. split.
  - eapply Forall_impl; [|exact Hi]. unfold byte_ok. cbn. intros; lia.
  - repeat constructor; lia.
Qed.

Lemma read_uint8_cons s b r :
  rest s = b :: r -> read_uint8 s = (advance s 1, Ok b).
Proof.
  intros H. unfold read_uint8. change 1 with (zlen [b]).
  rewrite (read_int_ok s [b] r) by exact H. cbn [length].
  unfold py_from_bytes, order. cbn [le_value andb]. do 2 f_equal. lia.
Qed.

Lemma read_uint8_nil s :
  rest s = [] -> read_uint8 s = (s, Raise (EUnexpectedEOF None 1 (tell s))).
Proof.
  intros H. unfold read_uint8. rewrite read_int_short by (rewrite H; cbn; lia).
  rewrite H. cbn [length]. now rewrite advance_0.
Qed.

(** A generic decoder loop: [step acc b] is the new accumulator. *)
Fixpoint dec_loop {A} (step : A -> Z -> A) (fuel : nat) (acc : A) : loader A :=
  match fuel with
  | O => fun s => (s, OOF)
  | S fuel' =>
    ldo b <- read_uint8;
    if b <? 128 then lret (step acc b) else dec_loop step fuel' (step acc b)
  end.

Lemma dec_loop_terminated {A} (step : A -> Z -> A) init last : forall fuel acc s suf,
  rest s = (init ++ [last]) ++ suf ->
  Forall (fun b => 128 <= b < 256) init -> 0 <= last < 128 ->
  (length init < fuel)%nat ->
  dec_loop step fuel acc s
  = (advance s (length (init ++ [last])), Ok (fold_left step (init ++ [last]) acc)).
Proof.
  induction init as [|b init IH]; intros fuel acc s suf Hr Hi Hl Hf.
  - destruct fuel as [|fuel]; [cbn in Hf; lia|]. cbn [dec_loop]. unfold lbind.
    cbn [app] in *. rewrite (read_uint8_cons s last suf Hr).
    destruct (Z.ltb_spec last 128); [|lia]. reflexivity.
  - destruct fuel as [|fuel]; [cbn in Hf; lia|]. cbn [dec_loop]. unfold lbind at 1.
    cbn [app] in *. rewrite (read_uint8_cons s b _ Hr).
    apply Forall_cons_iff in Hi as [Hb Hi].
    destruct (Z.ltb_spec b 128); [lia|].
    rewrite (IH fuel _ _ suf); auto.
    + rewrite advance_advance. reflexivity.
    + rewrite rest_advance, Hr. reflexivity.
    + cbn [length] in Hf; lia.
Qed.

Lemma dec_loop_eof {A} (step : A -> Z -> A) : forall r fuel acc s,
  rest s = r -> Forall (fun b => 128 <= b < 256) r -> (length r < fuel)%nat ->
  dec_loop step fuel acc s
  = (advance s (length r),
     Raise (EUnexpectedEOF None 1 (tell s + Z.of_nat (length r)))).
Proof.
  induction r as [|b r IH]; intros fuel acc s Hr Hi Hf;
    (destruct fuel as [|fuel]; [cbn in Hf; lia|]); cbn [dec_loop]; unfold lbind at 1.
  - rewrite read_uint8_nil by auto. cbn [length]. rewrite advance_0, Z.add_0_r. reflexivity.
  - rewrite (read_uint8_cons s b r Hr). apply Forall_cons_iff in Hi as [Hb Hi].
    destruct (Z.ltb_spec b 128); [lia|].
    rewrite IH; auto.
    + rewrite advance_advance, tell_advance. do 3 f_equal. cbn [length]. lia.
    + rewrite rest_advance, Hr. reflexivity.
    + cbn [length] in Hf; lia.
Qed.

(** Any byte list either has a terminated prefix or no terminator at all. *)
Lemma find_terminator r :
  bytes_ok r ->
  (exists bs suf, r = bs ++ suf /\ terminated bs) \/ Forall (fun b => 128 <= b < 256) r.
Proof.
  intros H; induction H as [|b r Hb Hr IH]; [right; constructor|].
  unfold byte_ok in Hb. destruct (Z.ltb_spec b 128) as [Hlt|Hge].
  - left. exists [b], r. split; auto. exists [], b. repeat split; auto; lia.
  - destruct IH as [(bs & suf & -> & (init & last & -> & Hi & Hl))|IH].
    + left. exists ((b :: init) ++ [last]), suf. split; auto.
      exists (b :: init), last. repeat split; auto; try lia. constructor; auto. lia.
    + right. constructor; auto. lia.
Qed.

(** What the decoders may be given: bytes, or anything after a terminated group. *)
Definition decodable (l : list Z) : Prop :=
  bytes_ok l \/ exists bs suf, l = bs ++ suf /\ terminated bs.

Lemma decodable_cons b r : decodable (b :: r) ->
  0 <= b < 256 /\ ((b <? 128) = false -> decodable r).
Proof.
  intros [H|(bs & suf & H & (init & last & -> & Hi & Hl))].
  - apply Forall_cons_iff in H as [Hb H]. split; [exact Hb|]. left. exact H.
  - destruct init as [|x init]; cbn in H; injection H as -> ->.
    + split; [lia|]. intro. lia.
    + apply Forall_cons_iff in Hi as [Hx Hi]. split; [lia|]. intros _. right.
      exists (init ++ [last]), suf. split; [reflexivity|]. exists init, last. auto.
Qed.

(** Two loops that behave alike on bytes. *)
Ltac loop_eq :=
  let fuel := fresh "fuel" in let IH := fresh "IH" in
  intros fuel; induction fuel as [|fuel IH]; intros; [reflexivity|].

Definition step_vlq (acc b : Z) : Z := acc * 128 + b mod 128.

Lemma vlq_loop_eq : forall fuel acc s, decodable (rest s) ->
  decode_vlq_loop fuel acc s = dec_loop step_vlq fuel acc s.
Proof.
  induction fuel as [|fuel IH]; intros acc s Hs; [reflexivity|].
  cbn [decode_vlq_loop dec_loop]. unfold lbind.
  destruct (rest s) as [|b r] eqn:Hr.
  - rewrite read_uint8_nil by auto. reflexivity.
  - rewrite (read_uint8_cons s b r Hr). apply decodable_cons in Hs as [Hb Hs].
    rewrite land_128_zero by lia. rewrite land_127.
    rewrite shiftl_lor_add by (apply Z.mod_pos_bound; lia).
    destruct (b <? 128); [reflexivity|]. apply IH.
    rewrite rest_advance, Hr. apply Hs. reflexivity.
Qed.

(** compact: accumulator is (sign, value) *)
Definition step_compact (acc : option Z * Z) (b : Z) : option Z * Z :=
  match fst acc with
  | None => (Some (if b mod 128 <? 64 then 1 else -1), b mod 64)
  | Some sg => (Some sg, snd acc * 128 + b mod 128)
  end.

Definition fin_compact (acc : option Z * Z) : Z :=
  match fst acc with None => 0 | Some sg => snd acc * sg end.

Definition lmap {A B} (f : A -> B) (x : stream * res A) : stream * res B :=
  match x with
  | (s, Ok a) => (s, Ok (f a)) | (s, Raise e) => (s, Raise e) | (s, OOF) => (s, OOF)
  end.

Lemma compact_loop_eq : forall fuel sg v s, decodable (rest s) ->
  decode_compact_loop fuel sg v s = lmap fin_compact (dec_loop step_compact fuel (sg, v) s).
Proof.
  induction fuel as [|fuel IH]; intros sg v s Hs; [reflexivity|].
  cbn [decode_compact_loop dec_loop]. unfold lbind.
  destruct (rest s) as [|b r] eqn:Hr.
  - rewrite read_uint8_nil by auto. reflexivity.
  - rewrite (read_uint8_cons s b r Hr). apply decodable_cons in Hs as [Hb Hs].
    rewrite land_128_zero, land_64_zero by lia.
    rewrite land_127, land_63.
    rewrite shiftl_lor_add by (apply Z.mod_pos_bound; lia).
    assert (Hs' : (b <? 128) = false -> decodable (rest (advance s 1))).
    { rewrite rest_advance, Hr. exact Hs. }
    destruct sg as [sg|]; cbn [step_compact fst snd].
    + destruct (b <? 128); [reflexivity|]. apply IH; auto.
    + destruct (b <? 128); [reflexivity|]. apply IH; auto.
Qed.

(** uleb: accumulator is (value, bits) *)
Definition step_uleb (acc : Z * Z) (b : Z) : Z * Z :=
  (fst acc + (b mod 128) * 2 ^ snd acc, snd acc + 7).

Lemma uleb_loop_eq : forall fuel v k s, decodable (rest s) ->
  0 <= k -> 0 <= v < 2 ^ k ->
  decode_uleb_loop fuel v k s = lmap fst (dec_loop step_uleb fuel (v, k) s).
Proof.
  induction fuel as [|fuel IH]; intros v k s Hs Hk Hv; [reflexivity|].
  cbn [decode_uleb_loop dec_loop]. unfold lbind.
  destruct (rest s) as [|b r] eqn:Hr.
  - rewrite read_uint8_nil by auto. reflexivity.
  - rewrite (read_uint8_cons s b r Hr). apply decodable_cons in Hs as [Hb Hs].
    rewrite land_128_zero by lia. rewrite land_127.
    rewrite lor_shiftl_add by lia.
    assert (Hs' : (b <? 128) = false -> decodable (rest (advance s 1))).
    { rewrite rest_advance, Hr. exact Hs. }
    unfold step_uleb at 1 2; cbn [fst snd].
    destruct (b <? 128); [reflexivity|]. apply IH; auto; [lia|].
    rewrite Z.pow_add_r by lia. change (2 ^ 7) with 128.
    pose proof (Z.mod_pos_bound b 128). nia.
Qed.

Lemma fold_step_uleb bs : forall v k, 0 <= k ->
  fst (fold_left step_uleb bs (v, k)) = v + le7 bs * 2 ^ k.
Proof.
  induction bs as [|b bs IH]; intros v k Hk; cbn [fold_left le7 fold_right].
  - cbn. lia.
  - unfold step_uleb at 2; cbn [fst snd]. rewrite IH by lia.
    rewrite Z.pow_add_r by lia. change (2 ^ 7) with 128.
    change (fold_right _ 0 bs) with (le7 bs). lia.
Qed.

Lemma fold_step_compact bs : forall sg v,
  fold_left step_compact bs (Some sg, v) = (Some sg, be7_from v bs).
Proof.
  induction bs as [|b bs IH]; intros sg v; [reflexivity|].
  cbn [fold_left]. unfold step_compact at 2; cbn [fst snd]. rewrite IH. reflexivity.
Qed.

Lemma terminated_inv bs : terminated bs -> bs <> [].
Proof. intros (i & l & -> & _). destruct i; discriminate. Qed.

Lemma le7_bound bs : 0 <= le7 bs < 128 ^ Z.of_nat (length bs).
Proof.
  induction bs as [|b bs IH]; cbn [le7 fold_right length].
  - change (128 ^ Z.of_nat 0) with 1. lia.
  - change (fold_right _ 0 bs) with (le7 bs). rewrite pow128_S.
    pose proof (Z.mod_pos_bound b 128). lia.
Qed.

Lemma be7_from_bound bs : forall acc, 0 <= acc ->
  acc * 128 ^ Z.of_nat (length bs) <= be7_from acc bs
    < (acc + 1) * 128 ^ Z.of_nat (length bs).
Proof.
  induction bs as [|b bs IH]; intros acc Ha; cbn [be7_from fold_left length].
  - change (128 ^ Z.of_nat 0) with 1. lia.
  - change (fold_left _ bs ?x) with (be7_from x bs). rewrite pow128_S.
    pose proof (Z.mod_pos_bound b 128). pose proof (pow128_pos (length bs)).
    specialize (IH (acc * 128 + b mod 128) ltac:(lia)). nia.
Qed.

Theorem decode_terminated fmt s bs suf :
  rest s = bs ++ suf -> terminated bs ->
  vli_decode fmt s = (advance s (length bs), Ok (spec_value fmt bs)).
Proof.
  intros Hr Ht. pose proof Ht as (init & last & Hb & Hi & Hl).
  assert (Hs : decodable (rest s)) by (right; eauto).
  assert (Hfuel : (length init < S (length (rest s)))%nat).
  { rewrite Hr, Hb, !app_length. lia. }
  assert (Hr' : rest s = (init ++ [last]) ++ suf) by now rewrite <- Hb.
  assert (Huleb : decode_integer_uleb128 s = (advance s (length bs), Ok (le7 bs))).
  { unfold decode_integer_uleb128. rewrite uleb_loop_eq by (auto; cbn; lia).
    rewrite (dec_loop_terminated step_uleb init last _ _ s suf); auto.
    rewrite <- Hb. cbn [lmap]. rewrite fold_step_uleb by lia.
    change (2 ^ 0) with 1. do 2 f_equal. lia. }
  destruct fmt; cbn [vli_decode].
  - unfold decode_integer_compact. rewrite compact_loop_eq by auto.
    rewrite (dec_loop_terminated step_compact init last _ _ s suf); auto.
    rewrite <- Hb. cbn [lmap]. f_equal. f_equal.
    destruct bs as [|b bs]; [now apply terminated_inv in Ht|].
    cbn [fold_left spec_value]. unfold step_compact at 2; cbn [fst].
    rewrite fold_step_compact. unfold fin_compact; cbn [fst snd]. lia.
  - unfold decode_integer_leb128. rewrite Huleb. cbn [spec_value].
    pose proof (le7_bound bs) as Hle. set (n := length bs) in *.
    rewrite <- pow2_7 in Hle.
    assert (Hn : (0 < n)%nat).
    { unfold n. pose proof (terminated_inv _ Ht). destruct bs; [congruence|cbn; lia]. }
    rewrite tell_advance.
    replace ((tell s + Z.of_nat n - tell s) * 7) with (7 * Z.of_nat n) by lia.
    destruct (Z.eqb_spec (le7 bs) 0) as [He|Hne].
    + rewrite He. assert (0 < 2 ^ (7 * Z.of_nat n - 1)) by (apply Z.pow_pos_nonneg; lia).
      destruct (Z.ltb_spec 0 (2 ^ (7 * Z.of_nat n - 1))); [reflexivity|lia].
    + pose proof (bit_length_lt (le7 bs) (7 * Z.of_nat n - 1) ltac:(lia) ltac:(lia)) as Hb'.
      rewrite Z.shiftl_mul_pow2 by lia. rewrite Z.mul_1_l.
      destruct (Z.ltb_spec (bit_length (le7 bs)) (7 * Z.of_nat n));
        destruct (Z.ltb_spec (le7 bs) (2 ^ (7 * Z.of_nat n - 1))); try reflexivity.
      * exfalso. lia.
      * exfalso. lia.
      * do 2 f_equal. lia.
  - exact Huleb.
  - unfold decode_integer_vlq. rewrite vlq_loop_eq by auto.
    rewrite (dec_loop_terminated step_vlq init last _ _ s suf); auto.
    rewrite <- Hb. reflexivity.
Qed.

Theorem decode_unterminated fmt s :
  Forall (fun b => 128 <= b < 256) (rest s) ->
  vli_decode fmt s
  = (advance s (length (rest s)),
     Raise (EUnexpectedEOF None 1 (tell s + zlen (rest s)))).
Proof.
  intros H. assert (Hs : bytes_ok (rest s)).
  { eapply Forall_impl; [|exact H]. unfold byte_ok; cbn; intros; lia. }
  assert (Hd : decodable (rest s)) by (left; exact Hs).
  unfold zlen.
  assert (Huleb : decode_integer_uleb128 s
    = (advance s (length (rest s)),
       Raise (EUnexpectedEOF None 1 (tell s + Z.of_nat (length (rest s)))))).
  { unfold decode_integer_uleb128. rewrite uleb_loop_eq by (auto; cbn; lia).
    rewrite (dec_loop_eof step_uleb (rest s)); auto. }
  destruct fmt; cbn [vli_decode].
  - unfold decode_integer_compact. rewrite compact_loop_eq by auto.
    rewrite (dec_loop_eof step_compact (rest s)); auto.
  - unfold decode_integer_leb128. rewrite Huleb. reflexivity.
  - exact Huleb.
  - unfold decode_integer_vlq. rewrite vlq_loop_eq by auto.
    rewrite (dec_loop_eof step_vlq (rest s)); auto.
Qed.

(** ** Encoders *)

(** [n] base-128 digits of [v], most significant first, each with the continuation bit. *)
Fixpoint be_groups (n : nat) (v : Z) : list Z :=
  match n with
  | O => []
  | S n' => be_groups n' (v / 128) ++ [128 + v mod 128]
  end.

Lemma fill_back_eq n : forall v acc,
  fill_back n v acc = (be_groups n v ++ acc, v / 128 ^ Z.of_nat n).
Proof.
  induction n as [|n IH]; intros v acc; cbn [fill_back be_groups].
  - change (128 ^ Z.of_nat 0) with 1. now rewrite Z.div_1_r.
  - rewrite IH, shiftr_7, land_127, lor_128 by (apply Z.mod_pos_bound; lia).
    rewrite pow128_S, Z.div_div by (pose proof (pow128_pos n); lia).
    rewrite <- app_assoc. reflexivity.
Qed.

Lemma be_groups_length n : forall v, length (be_groups n v) = n.
Proof.
  induction n as [|n IH]; intros v; cbn [be_groups]; auto.
  rewrite app_length, IH. cbn [length]. lia.
Qed.

Lemma be_groups_range n : forall v, Forall (fun b => 128 <= b < 256) (be_groups n v).
Proof.
  induction n as [|n IH]; intros v; cbn [be_groups]; [constructor|].
  apply Forall_app. split; [apply IH|]. repeat constructor; pose proof (Z.mod_pos_bound v 128); lia.
Qed.

Lemma be7_from_app acc bs bs' : be7_from acc (bs ++ bs') = be7_from (be7_from acc bs) bs'.
Proof. apply fold_left_app. Qed.

Lemma be7_groups n : forall acc v,
  be7_from acc (be_groups n v) = acc * 128 ^ Z.of_nat n + v mod 128 ^ Z.of_nat n.
Proof.
  induction n as [|n IH]; intros acc v; cbn [be_groups].
  - change (128 ^ Z.of_nat 0) with 1. cbn [be7_from fold_left]. rewrite Z.mod_1_r. lia.
  - rewrite be7_from_app, IH. cbn [be7_from fold_left].
    rewrite pow128_S. pose proof (pow128_pos n).
    rewrite Z.rem_mul_r by lia.
    rewrite (Z.add_mod 128), Z.mod_same, Z.add_0_l, !Z.mod_mod by lia. lia.
Qed.

Lemma clear_last_app l b : 128 <= b < 256 -> clear_last (l ++ [b]) = l ++ [b - 128].
Proof.
  intros Hb. induction l as [|x l IH].
  - cbn [app clear_last]. f_equal. rewrite land_127.
    symmetry. apply Z.mod_unique with (q := 1); lia.
  - destruct l as [|y l]; cbn [app clear_last] in *; f_equal; exact IH.
Qed.

Lemma clear_last_terminated l :
  l <> [] -> Forall (fun b => 128 <= b < 256) l ->
  terminated (clear_last l) /\ length (clear_last l) = length l
  /\ (forall acc, be7_from acc (clear_last l) = be7_from acc l)
  /\ le7 (clear_last l) = le7 l.
Proof.
  intros Hne H. destruct (exists_last Hne) as (init & b & ->).
  apply Forall_app in H as [Hi Hb]. apply Forall_cons_iff in Hb as [Hb _].
  rewrite clear_last_app by lia.
  assert (Hm : (b - 128) mod 128 = b mod 128).
  { rewrite <- (Z.mod_add b (-1) 128) by lia. f_equal; lia. }
  repeat split.
  - exists init, (b - 128). repeat split; auto; lia.
  - rewrite !app_length. reflexivity.
  - intros acc. rewrite !be7_from_app. cbn [be7_from fold_left]. rewrite Hm. reflexivity.
  - induction init as [|x init IH]; cbn [app le7 fold_right].
    + now rewrite Hm.
    + apply Forall_cons_iff in Hi as [_ Hi]. unfold le7 in IH. rewrite IH; auto.
      intros Hx. now destruct init.
Qed.

Lemma be7_fold l acc : fold_left (fun a b => a * 128 + b mod 128) l acc = be7_from acc l.
Proof. reflexivity. Qed.

(** Length spec: [n] groups are exactly what an unsigned [v] needs. *)
Lemma vlq_size v : 0 < v ->
  let n := Z.to_nat (ceil_div7 (bit_length v)) in
  (0 < n)%nat /\ 128 ^ (Z.of_nat n - 1) <= v < 128 ^ Z.of_nat n.
Proof.
  intros Hv n. pose proof (ceil_div7_spec (bit_length v)) as Hc.
  pose proof (bit_length_pos v Hv) as Hb.
  assert (Hbl : 0 < bit_length v).
  { unfold bit_length. destruct (Z.eqb_spec v 0); [lia|]. pose proof (Z.log2_nonneg (Z.abs v)). lia. }
  assert (Hn : Z.of_nat n = ceil_div7 (bit_length v)) by (unfold n; lia).
  rewrite Hn. split; [lia|].
  set (c := ceil_div7 (bit_length v)) in *.
  assert (H128 : forall k, 0 <= k -> 128 ^ k = 2 ^ (7 * k)).
  { intros k Hk. rewrite Z.pow_mul_r by lia. reflexivity. }
  rewrite !H128 by lia. split.
  - eapply Z.le_trans; [|apply Hb]. apply Z.pow_le_mono_r; lia.
  - eapply Z.lt_le_trans; [apply Hb|]. apply Z.pow_le_mono_r; lia.
Qed.

Lemma encode_vlq_spec v : 0 <= v ->
  exists bs, encode_integer_vlq v = Ok bs /\ terminated bs /\ be7_from 0 bs = v
    /\ (0 < v -> 128 ^ (zlen bs - 1) <= v) /\ (v = 0 -> bs = [0]).
Proof.
  intros Hv. unfold encode_integer_vlq.
  destruct (Z.ltb_spec v 0); [lia|]. destruct (Z.eqb_spec v 0) as [->|Hne].
  - exists [0]. repeat split; auto; try lia.
    exists [], 0. repeat split; auto; lia.
  - pose proof (vlq_size v ltac:(lia)) as (Hn & Hv'). cbn zeta in *.
    set (n := Z.to_nat (ceil_div7 (bit_length v))) in *.
    rewrite fill_back_eq. cbn [fst]. rewrite app_nil_r.
    destruct (clear_last_terminated (be_groups n v)) as (Ht & Hl & Hbe & _).
    { intros He. apply (f_equal (@length Z)) in He. rewrite be_groups_length in He. cbn in He. lia. }
    { apply be_groups_range. }
    eexists; split; [reflexivity|]. repeat split; auto.
    + rewrite Hbe, be7_groups. rewrite Z.mod_small by lia. lia.
    + intros _. unfold zlen. rewrite Hl, be_groups_length. lia.
    + lia.
Qed.

(** least significant first *)
Fixpoint le_groups (n : nat) (v : Z) : list Z :=
  match n with
  | O => []
  | S n' => 128 + v mod 128 :: le_groups n' (v / 128)
  end.

Lemma fill_fwd_eq n : forall v, fill_fwd n v = le_groups n v.
Proof.
  induction n as [|n IH]; intros v; cbn [fill_fwd le_groups]; auto.
  rewrite IH, shiftr_7, land_127, lor_128 by (apply Z.mod_pos_bound; lia). reflexivity.
Qed.

Lemma le_groups_length n : forall v, length (le_groups n v) = n.
Proof. induction n as [|n IH]; intros v; cbn [le_groups length]; auto. Qed.

Lemma le_groups_range n : forall v, Forall (fun b => 128 <= b < 256) (le_groups n v).
Proof.
  induction n as [|n IH]; intros v; cbn [le_groups]; constructor; auto.
  pose proof (Z.mod_pos_bound v 128); lia.
Qed.

Lemma le7_groups n : forall v, le7 (le_groups n v) = v mod 128 ^ Z.of_nat n.
Proof.
  induction n as [|n IH]; intros v; cbn [le_groups le7 fold_right].
  - change (128 ^ Z.of_nat 0) with 1. now rewrite Z.mod_1_r.
  - change (fold_right _ 0 ?x) with (le7 x). rewrite IH, pow128_S.
    pose proof (pow128_pos n). rewrite Z.rem_mul_r by lia.
    rewrite (Z.add_mod 128), Z.mod_same, Z.add_0_l, !Z.mod_mod by lia. lia.
Qed.

Lemma uleb_loop_spec : forall fuel v, 0 < v < 2 ^ Z.of_nat fuel ->
  exists bs, uleb_loop fuel v = Some bs /\ terminated bs /\ le7 bs = v
    /\ 128 ^ (zlen bs - 1) <= v.
Proof.
  induction fuel as [|fuel IH]; intros v Hv; [cbn in Hv; lia|].
  cbn [uleb_loop]. destruct (Z.ltb_spec 0 v); [|lia].
  rewrite shiftr_7, land_127.
  destruct (Z.ltb_spec 127 v) as [Hbig|Hsmall].
  - rewrite Nat2Z.inj_succ, Z.pow_succ_r in Hv by lia.
    destruct (IH (v / 128)) as (bs & -> & Ht & Hle & Hlen); [dmlia|].
    eexists; split; [reflexivity|].
    rewrite lor_128 by (apply Z.mod_pos_bound; lia).
    repeat split.
    + destruct Ht as (init & last & -> & Hi & Hl).
      exists (128 + v mod 128 :: init), last. repeat split; auto; try lia.
      constructor; auto. pose proof (Z.mod_pos_bound v 128); lia.
    + cbn [le7 fold_right]. change (fold_right _ 0 bs) with (le7 bs). rewrite Hle.
      rewrite (Z.add_mod 128), Z.mod_same, Z.add_0_l, !Z.mod_mod by lia. dmlia.
    + unfold zlen in *. cbn [length]. rewrite Nat2Z.inj_succ.
      assert (0 < length bs)%nat by (pose proof (terminated_inv _ Ht); destruct bs; [congruence|cbn; lia]).
      replace (Z.succ (Z.of_nat (length bs)) - 1) with (Z.succ (Z.of_nat (length bs) - 1)) by lia.
      rewrite Z.pow_succ_r by lia.
      set (q := 128 ^ (Z.of_nat (length bs) - 1)) in *. clearbody q. dmlia.
  - rewrite Z.div_small by lia. rewrite Z.mod_small by lia.
    exists [v]. split.
    + destruct fuel; reflexivity.
    + repeat split.
      * exists [], v. repeat split; auto; lia.
      * cbn. rewrite Z.mod_small; lia.
      * unfold zlen; cbn. lia.
Qed.

Lemma encode_uleb_spec v : 0 <= v ->
  exists bs, encode_integer_uleb128 v = Ok bs /\ terminated bs /\ le7 bs = v
    /\ (0 < v -> 128 ^ (zlen bs - 1) <= v) /\ (v = 0 -> bs = [0]).
Proof.
  intros Hv. unfold encode_integer_uleb128.
  destruct (Z.ltb_spec v 0); [lia|]. destruct (Z.eqb_spec v 0) as [->|Hne].
  - exists [0]. repeat split; auto; try lia.
    exists [], 0. repeat split; auto; lia.
  - pose proof (bit_length_nonneg v). pose proof (bit_length_pos v ltac:(lia)).
    destruct (uleb_loop_spec (Z.to_nat (bit_length v)) v) as (bs & -> & Ht & Hle & Hlen).
    { rewrite Z2Nat.id by lia. lia. }
    exists bs. repeat split; auto; lia.
Qed.

(** signed LEB128: number of groups *)
Definition leb_groups (v : Z) : Z :=
  let b := bit_length v + 1 in
  (if b mod 7 =? 0 then b else b + (7 - b mod 7)) / 7.

Lemma leb_groups_spec v : v <> 0 ->
  0 < leb_groups v /\ 2 ^ (7 * (leb_groups v - 1)) <= 2 * Z.abs v < 2 ^ (7 * leb_groups v).
Proof.
  intros Hv.
  assert (Hg : 7 * (leb_groups v - 1) < bit_length v + 1 <= 7 * leb_groups v).
  { unfold leb_groups. cbn zeta. destruct (Z.eqb_spec ((bit_length v + 1) mod 7) 0); dmlia. }
  assert (Hbl : 0 < bit_length v).
  { unfold bit_length. destruct (Z.eqb_spec v 0); [lia|]. pose proof (Z.log2_nonneg (Z.abs v)). lia. }
  pose proof (bit_length_pos (Z.abs v) ltac:(lia)) as Hb. rewrite bit_length_abs in Hb.
  split; [lia|].
  assert (Hs : 2 * 2 ^ (bit_length v - 1) = 2 ^ bit_length v).
  { rewrite <- Z.pow_succ_r by lia. f_equal; lia. }
  assert (Hs' : 2 * 2 ^ bit_length v = 2 ^ (bit_length v + 1)).
  { rewrite <- Z.pow_succ_r by lia. f_equal; lia. }
  split.
  - assert (2 ^ (7 * (leb_groups v - 1)) <= 2 ^ bit_length v) by (apply Z.pow_le_mono_r; lia). lia.
  - assert (2 ^ (bit_length v + 1) <= 2 ^ (7 * leb_groups v)) by (apply Z.pow_le_mono_r; lia). lia.
Qed.

Lemma encode_leb_spec v :
  exists bs, encode_integer_leb128 v = Ok bs /\ terminated bs /\ spec_value LEB128 bs = v
    /\ (v <> 0 -> 2 ^ (7 * (zlen bs - 1)) <= 2 * Z.abs v < 2 ^ (7 * zlen bs))
    /\ (v = 0 -> bs = [0]).
Proof.
  unfold encode_integer_leb128. destruct (Z.eqb_spec v 0) as [->|Hne].
  - exists [0]. repeat split; auto; try lia.
    exists [], 0. repeat split; auto; lia.
  - pose proof (leb_groups_spec v Hne) as (Hg & Hb). cbn zeta.
    fold (leb_groups v).
    assert (Hnb : (if (bit_length v + 1) mod 7 =? 0 then bit_length v + 1
                   else bit_length v + 1 + (7 - (bit_length v + 1) mod 7)) = 7 * leb_groups v).
    { unfold leb_groups. cbn zeta. destruct (Z.eqb_spec ((bit_length v + 1) mod 7) 0); dmlia. }
    rewrite Hnb. rewrite Z.shiftl_mul_pow2, Z.mul_1_l by lia.
    rewrite land_ones_mod by lia. rewrite fill_fwd_eq.
    set (g := leb_groups v) in *. set (n := Z.to_nat g).
    assert (Hgn : 7 * g / 7 = g) by (rewrite Z.mul_comm; apply Z.div_mul; lia).
    assert (Hn : Z.of_nat n = g) by lia.
    destruct (clear_last_terminated (le_groups n (v mod 2 ^ (7 * g)))) as (Ht & Hl & _ & Hle).
    { intros He. apply (f_equal (@length Z)) in He. rewrite le_groups_length in He. cbn in He. lia. }
    { apply le_groups_range. }
    try rewrite Hgn. fold n.
    eexists; split; [reflexivity|]. split; [exact Ht|].
    rewrite le_groups_length in Hl. unfold zlen. rewrite Hl.
    split; [|split; [intros _; rewrite Hn; exact Hb|lia]].
    cbn [spec_value]. rewrite Hl, Hle, le7_groups.
    rewrite <- pow2_7, Hn.
    assert (Hp : 2 ^ (7 * g) = 2 * 2 ^ (7 * g - 1)).
    { rewrite <- Z.pow_succ_r by lia. f_equal; lia. }
    assert (Hpos : 0 < 2 ^ (7 * g - 1)) by (apply Z.pow_pos_nonneg; lia).
    rewrite Z.mod_mod by lia.
    set (h := 2 ^ (7 * g - 1)) in *. rewrite Hp in *. clearbody h.
    destruct (Z.ltb_spec v 0) as [Hv|Hv].
    + assert (Hm : v mod (2 * h) = v + 2 * h).
      { symmetry. apply Z.mod_unique with (q := -1); [left|]; lia. }
      rewrite Hm. destruct (Z.ltb_spec (v + 2 * h) h); lia.
    + rewrite Z.mod_small by lia. destruct (Z.ltb_spec v h); lia.
Qed.

(** compact: [1 + k] bytes where 64*128^k is the first bound above |v|. *)
Lemma compact_size v : 0 < v ->
  let k := Z.to_nat (1 + ceil_div7 (bit_length v - 6) - 1) in
  v < 64 * 128 ^ Z.of_nat k /\ (k <> O -> 64 * 128 ^ (Z.of_nat k - 1) <= v).
Proof.
  intros Hv k. pose proof (ceil_div7_spec (bit_length v - 6)) as Hc.
  pose proof (bit_length_pos v Hv) as Hb.
  assert (Hbl : 0 < bit_length v).
  { unfold bit_length. destruct (Z.eqb_spec v 0); [lia|]. pose proof (Z.log2_nonneg (Z.abs v)). lia. }
  assert (Hk : Z.of_nat k = Z.max 0 (ceil_div7 (bit_length v - 6))) by (unfold k; lia).
  assert (Hp : forall j, 0 <= j -> 64 * 128 ^ j = 2 ^ (6 + 7 * j)).
  { intros j Hj. rewrite Z.pow_add_r, Z.pow_mul_r by lia. reflexivity. }
  split.
  - rewrite Hp by lia. eapply Z.lt_le_trans; [apply Hb|]. apply Z.pow_le_mono_r; lia.
  - intros Hk0. rewrite Hp by lia. eapply Z.le_trans; [|apply Hb]. apply Z.pow_le_mono_r; lia.
Qed.

Lemma encode_compact_spec v :
  exists bs, encode_integer_compact v = Ok bs /\ terminated bs
    /\ spec_value COMPACT_INDICES bs = v
    /\ (1 < zlen bs -> 64 * 128 ^ (zlen bs - 2) <= Z.abs v)
    /\ (v = 0 -> bs = [0]).
Proof.
  unfold encode_integer_compact. destruct (Z.eqb_spec v 0) as [->|Hne].
  - exists [0]. repeat split; auto; try (unfold zlen; cbn; lia).
    exists [], 0. repeat split; auto; lia.
  - cbn zeta. set (a := if v <? 0 then - v else v).
    assert (Ha : a = Z.abs v) by (unfold a; destruct (Z.ltb_spec v 0); lia).
    pose proof (compact_size a ltac:(lia)) as (Hlt & Hge). cbn zeta in *.
    set (k := Z.to_nat (1 + ceil_div7 (bit_length a - 6) - 1)) in *.
    rewrite fill_back_eq, app_nil_r, land_63.
    set (sb := if v <? 0 then 64 else 0).
    assert (Hq : 0 <= a / 128 ^ Z.of_nat k < 64).
    { pose proof (pow128_pos k). split; [apply Z.div_pos; lia|]. apply Z.div_lt_upper_bound; lia. }
    rewrite (Z.mod_small (a / _) 64) by lia.
    assert (Hb0 : Z.lor (Z.lor 128 sb) (a / 128 ^ Z.of_nat k)
                  = 128 + sb + a / 128 ^ Z.of_nat k).
    { unfold sb. destruct (v <? 0).
      - change (Z.lor 128 64) with (3 * 2 ^ 6). rewrite lor_shift_add by lia. lia.
      - change (Z.lor 128 0) with (2 * 2 ^ 6). rewrite lor_shift_add by lia. lia. }
    rewrite Hb0. set (b0 := 128 + sb + a / 128 ^ Z.of_nat k) in *.
    assert (Hsb : sb = 64 /\ v < 0 \/ sb = 0 /\ 0 < v).
    { unfold sb. destruct (Z.ltb_spec v 0); lia. }
    assert (Hr : 128 <= b0 < 256) by (unfold b0; lia).
    destruct (clear_last_terminated (b0 :: be_groups k a)) as (Ht & Hl & _ & _).
    { discriminate. }
    { constructor; [lia|apply be_groups_range]. }
    eexists; split; [reflexivity|]. split; [exact Ht|].
    assert (Hz : zlen (clear_last (b0 :: be_groups k a)) = Z.of_nat k + 1).
    { unfold zlen. rewrite Hl. cbn [length]. rewrite be_groups_length. lia. }
    split; [|split].
    + (* value *)
      assert (Hb0m : b0 mod 128 = sb + a / 128 ^ Z.of_nat k).
      { symmetry. apply Z.mod_unique with (q := 1); unfold b0; lia. }
      assert (Hb064 : b0 mod 64 = a / 128 ^ Z.of_nat k).
      { symmetry. destruct Hsb as [[-> _]|[-> _]].
        - apply Z.mod_unique with (q := 3); unfold b0; lia.
        - apply Z.mod_unique with (q := 2); unfold b0; lia. }
      assert (Hmag : a / 128 ^ Z.of_nat k * 128 ^ Z.of_nat k + a mod 128 ^ Z.of_nat k = a).
      { pose proof (pow128_pos k). pose proof (Z.div_mod a (128 ^ Z.of_nat k) ltac:(lia)). lia. }
      assert (Hsign : (if sb + a / 128 ^ Z.of_nat k <? 64 then 1 else -1) * a = v).
      { destruct (Z.ltb_spec (sb + a / 128 ^ Z.of_nat k) 64); lia. }
      destruct k as [|k].
      * cbn [be_groups clear_last spec_value be7_from fold_left]. rewrite land_127.
        rewrite Z.mod_mod by lia.
        assert (Hm64 : (b0 mod 128) mod 64 = b0 mod 64) by dmlia.
        rewrite Hm64, Hb0m, Hb064.
        change (128 ^ Z.of_nat 0) with 1 in *. rewrite Z.div_1_r in *. exact Hsign.
      * destruct (be_groups (S k) a) as [|x l] eqn:He.
        { apply (f_equal (@length Z)) in He. rewrite be_groups_length in He. discriminate. }
        change (clear_last (b0 :: x :: l)) with (b0 :: clear_last (x :: l)).
        cbn [spec_value]. rewrite Hb0m, Hb064.
        destruct (clear_last_terminated (x :: l)) as (_ & _ & Hbe & _); [discriminate| |].
        { rewrite <- He. apply be_groups_range. }
        rewrite Hbe, <- He, be7_groups, Hmag. exact Hsign.
    + rewrite Hz. intros Hk. rewrite <- Ha.
      replace (Z.of_nat k + 1 - 2) with (Z.of_nat k - 1) by lia. apply Hge. lia.
    + lia.
Qed.

Theorem encode_spec fmt v : encodable fmt v ->
  exists bs, vli_encode fmt v = Ok bs /\ terminated bs /\ spec_value fmt bs = v.
Proof.
  intros He. destruct fmt; cbn [vli_encode encodable] in *.
  - destruct (encode_compact_spec v) as (bs & ? & ? & ? & _). eauto.
  - destruct (encode_leb_spec v) as (bs & ? & ? & ? & _). eauto.
  - destruct (encode_uleb_spec v He) as (bs & ? & ? & ? & _). eauto.
  - destruct (encode_vlq_spec v He) as (bs & ? & ? & ? & _). eauto.
Qed.

Theorem encode_rejects fmt v : ~ encodable fmt v -> vli_encode fmt v = Raise EValueErr.
Proof.
  destruct fmt; cbn [vli_encode encodable]; intros H; try tauto.
  - unfold encode_integer_uleb128. destruct (Z.ltb_spec v 0); [reflexivity|lia].
  - unfold encode_integer_vlq. destruct (Z.ltb_spec v 0); [reflexivity|lia].
Qed.

Lemma encode_ok_inv fmt v bs : vli_encode fmt v = Ok bs ->
  encodable fmt v /\ terminated bs /\ spec_value fmt bs = v.
Proof.
  intros H. assert (He : encodable fmt v).
  { destruct fmt; cbn [encodable vli_encode] in *; auto.
    - unfold encode_integer_uleb128 in H. destruct (Z.ltb_spec v 0); [discriminate|lia].
    - unfold encode_integer_vlq in H. destruct (Z.ltb_spec v 0); [discriminate|lia]. }
  destruct (encode_spec fmt v He) as (bs' & H' & Ht & Hv).
  rewrite H in H'. injection H' as <-. auto.
Qed.

Theorem encode_decode fmt v bs s suf :
  vli_encode fmt v = Ok bs -> rest s = bs ++ suf ->
  vli_decode fmt s = (advance s (length bs), Ok v).
Proof.
  intros H Hr. destruct (encode_ok_inv _ _ _ H) as (_ & Ht & Hv).
  rewrite (decode_terminated fmt s bs suf); auto. now rewrite Hv.
Qed.

(** ** Prefix-freeness *)
Lemma terminated_prefix bs bs' suf suf' :
  terminated bs -> terminated bs' -> bs ++ suf = bs' ++ suf' -> bs = bs'.
Proof.
  intros (i & l & -> & Hi & Hl) (i' & l' & -> & Hi' & Hl') H.
  assert (Hii : i = i').
  { revert i' Hi' H. induction i as [|x i IH]; intros i' Hi' H.
    - destruct i' as [|y i']; auto. cbn in H. injection H as -> _.
      apply Forall_cons_iff in Hi' as [? _]. lia.
    - destruct i' as [|y i']; cbn in H.
      + injection H as -> _. apply Forall_cons_iff in Hi as [? _]. lia.
      + injection H as -> H. f_equal.
        apply Forall_cons_iff in Hi as [_ Hi]. apply Forall_cons_iff in Hi' as [_ Hi'].
        apply IH; auto. }
  subst i'. rewrite <- !app_assoc in H. apply app_inv_head in H. cbn in H.
  injection H as -> _. reflexivity.
Qed.

(** ** Minimality *)
Lemma spec_value_bound fmt bs : terminated bs ->
  match fmt with
  | VLQ | ULEB128 => 0 <= spec_value fmt bs < 128 ^ zlen bs
  | LEB128 => - 2 ^ (7 * zlen bs - 1) <= spec_value fmt bs < 2 ^ (7 * zlen bs - 1)
  | COMPACT_INDICES => Z.abs (spec_value fmt bs) < 64 * 128 ^ (zlen bs - 1)
  end.
Proof.
  intros Ht. assert (Hn : (0 < length bs)%nat).
  { pose proof (terminated_inv _ Ht). destruct bs; [congruence|cbn; lia]. }
  unfold zlen. destruct fmt; cbn [spec_value].
  - destruct bs as [|b bs]; [cbn in Hn; lia|].
    pose proof (be7_from_bound bs (b mod 64)) as Hb. pose proof (Z.mod_pos_bound b 64).
    cbn [length]. replace (Z.of_nat (S (length bs)) - 1) with (Z.of_nat (length bs)) by lia.
    pose proof (pow128_pos (length bs)).
    assert (0 <= be7_from (b mod 64) bs < 64 * 128 ^ Z.of_nat (length bs)) by nia.
    destruct (b mod 128 <? 64); lia.
  - pose proof (le7_bound bs) as Hb. rewrite <- pow2_7 in Hb.
    assert (Hp : 2 ^ (7 * Z.of_nat (length bs)) = 2 * 2 ^ (7 * Z.of_nat (length bs) - 1)).
    { rewrite <- Z.pow_succ_r by lia. f_equal; lia. }
    rewrite Hp in *. destruct (Z.ltb_spec (le7 bs) (2 ^ (7 * Z.of_nat (length bs) - 1))); lia.
  - apply le7_bound.
  - pose proof (be7_from_bound bs 0 ltac:(lia)). lia.
Qed.

Lemma pow_lt_inv b x y : 1 < b -> 0 <= y -> b ^ x < b ^ y -> x < y.
Proof. intros Hb Hy H. apply (Z.pow_lt_mono_r_iff b); auto. Qed.

Lemma zlen_term bs : terminated bs -> 1 <= zlen bs.
Proof.
  intros Ht. pose proof (terminated_inv _ Ht). unfold zlen. destruct bs; [congruence|cbn [length]; lia].
Qed.

Theorem encode_minimal fmt v bs other :
  fmt <> LEB128 -> vli_encode fmt v = Ok bs ->
  terminated other -> spec_value fmt other = v -> zlen bs <= zlen other.
Proof.
  intros Hf H Ho Hv. destruct (encode_ok_inv _ _ _ H) as (He & Ht & Hv').
  pose proof (spec_value_bound fmt other Ho) as Hb. rewrite Hv in Hb.
  pose proof (zlen_term _ Ho) as Hlo. pose proof (zlen_term _ Ht) as Hlb.
  destruct fmt; try congruence; cbn [encodable vli_encode] in *.
  - destruct (encode_compact_spec v) as (bs' & H' & _ & _ & Hm & Hz). rewrite H in H'.
    injection H' as <-.
    destruct (Z.le_gt_cases (zlen bs) 1) as [?|Hgt]; [lia|]. specialize (Hm Hgt).
    assert (zlen bs - 2 < zlen other - 1); [|lia]. apply (pow_lt_inv 128); lia.
  - destruct (encode_uleb_spec v He) as (bs' & H' & _ & _ & Hm & Hz). rewrite H in H'.
    injection H' as <-. destruct (Z.eq_dec v 0) as [Hv0|Hv0].
    + rewrite (Hz Hv0). unfold zlen at 1; cbn. lia.
    + specialize (Hm ltac:(lia)).
      assert (zlen bs - 1 < zlen other); [|lia]. apply (pow_lt_inv 128); lia.
  - destruct (encode_vlq_spec v He) as (bs' & H' & _ & _ & Hm & Hz). rewrite H in H'.
    injection H' as <-. destruct (Z.eq_dec v 0) as [Hv0|Hv0].
    + rewrite (Hz Hv0). unfold zlen at 1; cbn. lia.
    + specialize (Hm ltac:(lia)).
      assert (zlen bs - 1 < zlen other); [|lia]. apply (pow_lt_inv 128); lia.
Qed.

(** LEB128: minimal unless [v = - 2^(7k-1)]. *)
Theorem encode_leb_minimal v bs other :
  encode_integer_leb128 v = Ok bs ->
  terminated other -> spec_value LEB128 other = v ->
  (forall k, 1 <= k -> v <> - 2 ^ (7 * k - 1)) ->
  zlen bs <= zlen other.
Proof.
  intros H Ho Hv Hk. pose proof (spec_value_bound LEB128 other Ho) as Hb. rewrite Hv in Hb.
  pose proof (zlen_term _ Ho) as Hlo.
  destruct (encode_leb_spec v) as (bs' & H' & Ht & _ & Hm & Hz). rewrite H in H'.
  injection H' as <-. pose proof (zlen_term _ Ht) as Hlb.
  destruct (Z.eq_dec v 0) as [Hv0|Hv0].
  - rewrite (Hz Hv0). unfold zlen at 1; cbn. lia.
  - specialize (Hm Hv0). specialize (Hk (zlen other) Hlo).
    assert (Hp : 2 ^ (7 * zlen other) = 2 * 2 ^ (7 * zlen other - 1)).
    { rewrite <- Z.pow_succ_r by lia. f_equal; lia. }
    assert (7 * (zlen bs - 1) < 7 * zlen other); [|lia]. apply (pow_lt_inv 2); lia.
Qed.

(** The exceptional values take one byte more than necessary. *)
Theorem encode_leb_exception k bs :
  1 <= k -> encode_integer_leb128 (- 2 ^ (7 * k - 1)) = Ok bs ->
  zlen bs = k + 1
  /\ exists other, terminated other /\ spec_value LEB128 other = - 2 ^ (7 * k - 1)
                   /\ zlen other = k.
Proof.
  intros Hk H. set (v := - 2 ^ (7 * k - 1)) in *.
  assert (Hpos : 0 < 2 ^ (7 * k - 1)) by (apply Z.pow_pos_nonneg; lia).
  assert (Hp : 2 ^ (7 * k) = 2 * 2 ^ (7 * k - 1)).
  { rewrite <- Z.pow_succ_r by lia. f_equal; lia. }
  destruct (encode_leb_spec v) as (bs' & H' & Ht & _ & Hm & _). rewrite H in H'.
  injection H' as <-. specialize (Hm ltac:(unfold v; lia)).
  replace (2 * Z.abs v) with (2 ^ (7 * k)) in Hm by (unfold v; lia).
  pose proof (zlen_term _ Ht) as Hlb. split.
  - assert (7 * (zlen bs - 1) <= 7 * k).
    { apply (Z.pow_le_mono_r_iff 2); lia. }
    assert (7 * k < 7 * zlen bs) by (apply (pow_lt_inv 2); lia). lia.
  - set (n := Z.to_nat k).
    destruct (clear_last_terminated (le_groups n (v mod 2 ^ (7 * k)))) as (Ht' & Hl & _ & Hle).
    { intros He. apply (f_equal (@length Z)) in He. rewrite le_groups_length in He. cbn in He. lia. }
    { apply le_groups_range. }
    rewrite le_groups_length in Hl.
    exists (clear_last (le_groups n (v mod 2 ^ (7 * k)))). repeat split; auto.
    + cbn [spec_value]. rewrite Hl, Hle, le7_groups. rewrite <- pow2_7.
      replace (Z.of_nat n) with k by lia. rewrite Z.mod_mod by lia.
      assert (Hmod : v mod 2 ^ (7 * k) = 2 ^ (7 * k - 1)).
      { symmetry. apply Z.mod_unique with (q := -1); [left|]; unfold v; lia. }
      rewrite Hmod. destruct (Z.ltb_spec (2 ^ (7 * k - 1)) (2 ^ (7 * k - 1))); unfold v; lia.
    + unfold zlen. rewrite Hl. lia.
Qed.
