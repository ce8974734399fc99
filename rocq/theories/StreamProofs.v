(** Lemmas about streams and helpers.py. *)
From Verif Require Import Tac PyIntProofs.
From Verif Require Export Stream.

Lemma skipn_skipn {A} a b (l : list A) : skipn a (skipn b l) = skipn (b + a) l.
Proof.
  revert l; induction b as [|b IH]; intros l; [reflexivity|].
  destruct l as [|x l]; [now rewrite !skipn_nil|]. cbn [skipn Nat.add]. apply IH.
Qed.

Lemma rest_advance s k : rest (advance s k) = skipn k (rest s).
Proof.
  unfold rest, advance; cbn. now rewrite skipn_skipn.
Qed.

Lemma rest_advance_app s bs suf :
  rest s = bs ++ suf -> rest (advance s (length bs)) = suf.
Proof.
  intros H. rewrite rest_advance, H, skipn_app, skipn_all, Nat.sub_diag. reflexivity.
Qed.

Lemma advance_advance s a b : advance (advance s a) b = advance s (a + b).
Proof. unfold advance; cbn. f_equal. lia. Qed.

Lemma advance_0 s : advance s 0 = s.
Proof. destruct s; unfold advance; cbn. f_equal; lia. Qed.

Lemma tell_advance s k : tell (advance s k) = tell s + Z.of_nat k.
Proof. unfold tell, advance; cbn. lia. Qed.

Lemma s_data_advance s k : s_data (advance s k) = s_data s.
Proof. reflexivity. Qed.

Lemma s_pos_advance s k : s_pos (advance s k) = (s_pos s + k)%nat.
Proof. reflexivity. Qed.

Lemma read_enough s n :
  0 <= n <= zlen (rest s) ->
  read s n = (firstn (Z.to_nat n) (rest s), advance s (Z.to_nat n)).
Proof.
  unfold zlen. intros H. unfold read. destruct (Z.ltb_spec n 0); [lia|].
  rewrite Z.min_l by lia. reflexivity.
Qed.

Lemma read_app s bs suf :
  rest s = bs ++ suf -> read s (zlen bs) = (bs, advance s (length bs)).
Proof.
  intros H. rewrite read_enough.
  - unfold zlen. rewrite Nat2Z.id, H, firstn_app, Nat.sub_diag, firstn_all, app_nil_r.
    reflexivity.
  - rewrite H, zlen_app. pose proof (zlen_nonneg bs). pose proof (zlen_nonneg suf). lia.
Qed.

Lemma read_short s n :
  zlen (rest s) < n -> read s n = (rest s, advance s (length (rest s))).
Proof.
  unfold zlen. intros H. unfold read. destruct (Z.ltb_spec n 0); [lia|].
  rewrite Z.min_r by lia. rewrite Nat2Z.id, firstn_all. reflexivity.
Qed.

Lemma read_neg s n :
  n < 0 -> read s n = (rest s, advance s (length (rest s))).
Proof.
  intros H. unfold read. destruct (Z.ltb_spec n 0); [|lia]. now rewrite firstn_all.
Qed.

(** Every [read] returns a prefix of the rest and advances by exactly its length. *)
Lemma read_spec s n data s' :
  read s n = (data, s') ->
  exists suf, rest s = data ++ suf /\ s' = advance s (length data).
Proof.
  unfold read. set (k := if n <? 0 then _ else _). intros H; injection H as <- <-.
  exists (skipn k (rest s)). rewrite firstn_skipn. split; auto.
  f_equal. rewrite firstn_length. unfold k. destruct (Z.ltb_spec n 0); lia.
Qed.

Lemma read_int_ok s bs suf sg e :
  rest s = bs ++ suf ->
  read_int (zlen bs) sg e s = (advance s (length bs), Ok (py_from_bytes bs e sg)).
Proof.
  intros H. unfold read_int. rewrite (read_app s bs suf H).
  destruct (Z.ltb_spec (zlen bs) (zlen bs)); [lia|]. reflexivity.
Qed.

Lemma read_int_short s n sg e :
  zlen (rest s) < n ->
  read_int n sg e s
  = (advance s (length (rest s)), Raise (EUnexpectedEOF None n (tell s))).
Proof.
  intros H. unfold read_int. rewrite read_short by auto.
  destruct (Z.ltb_spec (zlen (rest s)) n); [|lia]. reflexivity.
Qed.

Lemma rest_split s n :
  0 <= n <= zlen (rest s) ->
  exists bs suf, rest s = bs ++ suf /\ zlen bs = n.
Proof.
  unfold zlen. intros H. exists (firstn (Z.to_nat n) (rest s)), (skipn (Z.to_nat n) (rest s)).
  rewrite firstn_skipn, firstn_length. split; auto. lia.
Qed.
