(** User-level statements about varints and stream helpers, proved for PropertiesVarint.v. *)
From Verif Require Import Varints VarintSpec Tac PyIntProofs StreamProofs VarintsProofs.

Lemma skipn_app_exact {A} (a b : list A) : skipn (length a) (a ++ b) = b.
Proof. induction a as [|x a IH]; cbn; [reflexivity|exact IH]. Qed.

Lemma rest_at pre bs suf : rest (at_data pre bs suf) = bs ++ suf.
Proof. apply skipn_app_exact. Qed.

Lemma advance_at pre bs suf : advance (at_data pre bs suf) (length bs) = after_data pre bs suf.
Proof. reflexivity. Qed.

Lemma varint_roundtrip fmt v bs pre suf :
  vli_encode fmt v = Ok bs ->
  vli_decode fmt (at_data pre bs suf) = (after_data pre bs suf, Ok v).
Proof.
  intros He. rewrite (encode_decode fmt v bs (at_data pre bs suf) suf He).
  - rewrite advance_at. reflexivity.
  - apply rest_at.
Qed.

Lemma varint_encode_total fmt v :
  (exists bs, vli_encode fmt v = Ok bs) <-> encodable fmt v.
Proof.
  split.
  - intros [bs Hb]. apply (encode_ok_inv fmt v bs Hb).
  - intro H. destruct (encode_spec fmt v H) as (bs & Hb & _). exists bs. exact Hb.
Qed.

Lemma varint_shape fmt v bs :
  vli_encode fmt v = Ok bs ->
  exists init last, bs = init ++ [last]
    /\ Forall (fun b => 128 <= b < 256) init /\ 0 <= last < 128.
Proof. intro H. apply (encode_ok_inv fmt v bs H). Qed.

Lemma varint_prefix_free fmt v w bs bs' tl :
  vli_encode fmt v = Ok bs -> vli_encode fmt w = Ok bs' -> bs' = bs ++ tl ->
  v = w /\ tl = [].
Proof.
  intros Hv Hw He.
  destruct (encode_ok_inv _ _ _ Hv) as (_ & T & Sv).
  destruct (encode_ok_inv _ _ _ Hw) as (_ & T' & Sw).
  assert (bs = bs') as <-.
  { apply (terminated_prefix bs bs' tl []); [exact T|exact T'|].
    rewrite app_nil_r. symmetry. exact He. }
  split; [congruence|].
  apply (app_inv_head bs). rewrite app_nil_r. symmetry. exact He.
Qed.

Lemma varint_sequence fmt vs : forall bss pre suf,
  mapM (vli_encode fmt) vs = Ok bss ->
  decode_many fmt (length vs) (at_data pre (concat bss) suf)
  = (after_data pre (concat bss) suf, Ok vs).
Proof.
  induction vs as [|v vs IH]; intros bss pre suf Hm.
  - cbn [mapM] in Hm. injection Hm as <-. unfold after_data. cbn.
    unfold lret, at_data. rewrite Nat.add_0_r. reflexivity.
  - cbn [mapM] in Hm.
    destruct (vli_encode fmt v) as [bs| |] eqn:Hb; cbn [bind] in Hm; try discriminate Hm.
    destruct (mapM (vli_encode fmt) vs) as [bss'| |] eqn:Hr; cbn [bind] in Hm; try discriminate Hm.
    injection Hm as <-. cbn [length decode_many concat].
    unfold lbind.
    assert (E : at_data pre (bs ++ concat bss') suf = at_data pre bs (concat bss' ++ suf)).
    { unfold at_data. rewrite <- !app_assoc. reflexivity. }
    rewrite E.
    rewrite (varint_roundtrip fmt v bs pre (concat bss' ++ suf) Hb).
    assert (E2 : after_data pre bs (concat bss' ++ suf) = at_data (pre ++ bs) (concat bss') suf).
    { unfold at_data, after_data. rewrite app_length, <- app_assoc. reflexivity. }
    rewrite E2. rewrite (IH bss' (pre ++ bs) suf eq_refl).
    unfold lret, after_data. f_equal. rewrite !app_length, <- !app_assoc.
    f_equal. lia.
Qed.

Lemma varint_reject fmt v :
  fmt = VLQ \/ fmt = ULEB128 ->
  (v < 0 -> vli_encode fmt v = Raise EValueErr)
  /\ (0 <= v -> exists bs, vli_encode fmt v = Ok bs).
Proof.
  intro Hf. split; intro Hv.
  - apply encode_rejects. destruct Hf as [-> | ->]; cbn; lia.
  - apply varint_encode_total. destruct Hf as [-> | ->]; exact Hv.
Qed.

Lemma varint_signed_total fmt v :
  fmt = COMPACT_INDICES \/ fmt = LEB128 -> exists bs, vli_encode fmt v = Ok bs.
Proof.
  intro Hf. apply varint_encode_total. destruct Hf as [-> | ->]; exact I.
Qed.

(** If a decoder, started anywhere, returns [v], the bytes it consumed are terminated and
    mean [v]. *)
Lemma varint_decode_inv fmt s s' v :
  bytes_ok (rest s) -> vli_decode fmt s = (s', Ok v) ->
  exists bs suf, rest s = bs ++ suf /\ terminated bs /\ spec_value fmt bs = v
    /\ s' = advance s (length bs).
Proof.
  intros Hok Hd. destruct (find_terminator (rest s) Hok) as [(bs & suf & E & T) | Hu].
  - rewrite (decode_terminated fmt s bs suf E T) in Hd.
    injection Hd as <- <-. exists bs, suf. auto.
  - rewrite (decode_unterminated fmt s Hu) in Hd. discriminate Hd.
Qed.

Lemma advance_length_inj s a b : advance s a = advance s b -> a = b.
Proof. unfold advance. intro H. injection H as H. lia. Qed.

Lemma terminated_ge1 bs : terminated bs -> (1 <= length bs)%nat.
Proof. intro H. pose proof (zlen_term bs H). unfold zlen in *. lia. Qed.

(** Minimality stated against the decoder: [other] is any byte string that the decoder
    turns into the same integer, consuming all of it. *)
Lemma varint_minimal fmt v bs other :
  fmt <> LEB128 -> vli_encode fmt v = Ok bs -> bytes_ok other ->
  vli_decode fmt (mkStream other 0) = (mkStream other (length other), Ok v) ->
  zlen bs <= zlen other.
Proof.
  intros Hf He Hok Hd.
  destruct (varint_decode_inv fmt (mkStream other 0) _ v Hok Hd)
    as (bs' & suf & E & T & Sv & A).
  apply (encode_minimal fmt v bs bs' Hf He T) in Sv.
  unfold advance in A. cbn in A. injection A as A. unfold zlen in *. lia.
Qed.

Lemma varint_leb_minimal v bs other :
  vli_encode LEB128 v = Ok bs -> bytes_ok other ->
  vli_decode LEB128 (mkStream other 0) = (mkStream other (length other), Ok v) ->
  (forall k, 1 <= k -> v <> - 2 ^ (7 * k - 1)) ->
  zlen bs <= zlen other.
Proof.
  intros He Hok Hd Hk.
  destruct (varint_decode_inv LEB128 (mkStream other 0) _ v Hok Hd)
    as (bs' & suf & E & T & Sv & A).
  pose proof (encode_leb_minimal v bs bs' He T Sv Hk) as M.
  unfold advance in A. cbn in A. injection A as A. unfold zlen in *. lia.
Qed.

Lemma varint_leb_exception k :
  1 <= k ->
  exists bs other,
    vli_encode LEB128 (- 2 ^ (7 * k - 1)) = Ok bs /\ zlen bs = k + 1
    /\ bytes_ok other /\ zlen other = k
    /\ vli_decode LEB128 (mkStream other 0)
       = (mkStream other (length other), Ok (- 2 ^ (7 * k - 1)))
    /\ forall other',
         bytes_ok other' ->
         vli_decode LEB128 (mkStream other' 0)
         = (mkStream other' (length other'), Ok (- 2 ^ (7 * k - 1))) ->
         k <= zlen other'.
Proof.
  intro Hk.
  destruct (varint_signed_total LEB128 (- 2 ^ (7 * k - 1)) (or_intror eq_refl)) as [bs Hb].
  destruct (encode_leb_exception k bs Hk Hb) as (L & other & T & Sv & Lo).
  exists bs, other. split; [exact Hb|]. split; [exact L|].
  assert (Hok : bytes_ok other) by (apply terminated_bytes_ok; exact T).
  split; [exact Hok|]. split; [exact Lo|]. split.
  - rewrite (decode_terminated LEB128 (mkStream other 0) other []).
    + rewrite Sv. reflexivity.
    + rewrite app_nil_r. reflexivity.
    + exact T.
  - intros other' Hok' Hd.
    destruct (varint_decode_inv LEB128 (mkStream other' 0) _ _ Hok' Hd)
      as (bs' & suf & E & T' & Sv' & A).
    pose proof (spec_value_bound LEB128 bs' T') as B. cbn iota in B. rewrite Sv' in B.
    assert (Hl : k <= zlen bs').
    { destruct (Z_le_gt_dec k (zlen bs')) as [?|Hgt]; [assumption|].
      assert (2 ^ (7 * zlen bs' - 1) < 2 ^ (7 * k - 1)); [|lia].
      pose proof (zlen_term bs' T'). apply Z.pow_lt_mono_r; lia. }
    unfold advance in A. cbn in A. injection A as A. unfold zlen in *. lia.
Qed.

Lemma varint_decode_total fmt s :
  bytes_ok (rest s) ->
  (forall init last suf,
     rest s = init ++ [last] ++ suf ->
     Forall (fun b => 128 <= b < 256) init -> 0 <= last < 128 ->
     vli_decode fmt s
     = (advance s (length init + 1), Ok (spec_value fmt (init ++ [last]))))
  /\ (Forall (fun b => 128 <= b < 256) (rest s) ->
      vli_decode fmt s
      = (advance s (length (rest s)),
         Raise (EUnexpectedEOF None 1 (tell s + zlen (rest s)))))
  /\ ((exists init last suf,
         rest s = init ++ [last] ++ suf
         /\ Forall (fun b => 128 <= b < 256) init /\ 0 <= last < 128)
      \/ Forall (fun b => 128 <= b < 256) (rest s)).
Proof.
  intro Hok. split; [|split].
  - intros init last suf E Hi Hl.
    rewrite (decode_terminated fmt s (init ++ [last]) suf).
    + rewrite app_length. reflexivity.
    + rewrite <- app_assoc. exact E.
    + exists init, last. auto.
  - apply decode_unterminated.
  - destruct (find_terminator (rest s) Hok) as [(bs & suf & E & init & last & -> & Hi & Hl) | Hu].
    + left. exists init, last, suf. rewrite <- app_assoc in E. auto.
    + right. exact Hu.
Qed.

(** helpers *)
Lemma read_write_int v n sg e bs pre suf :
  write_int v n sg e = (bs, Ok tt) ->
  zlen bs = n
  /\ read_int n sg e (at_data pre bs suf) = (after_data pre bs suf, Ok v).
Proof.
  unfold write_int, dlift, dwrite, dbind. intro H.
  destruct (py_to_bytes v n e sg) as [b| |] eqn:Hb; try discriminate H.
  injection H as <-. destruct (py_to_bytes_ok _ _ _ _ _ Hb) as (Hn & _ & Hl & _).
  split; [exact Hl|].
  rewrite <- Hl. rewrite (read_int_ok _ b suf sg e (rest_at pre b suf)).
  rewrite advance_at. rewrite (py_from_to_bytes _ _ _ _ _ Hb). reflexivity.
Qed.

Lemma write_int_fail v n sg e out x :
  write_int v n sg e = (out, Raise x) ->
  out = [] /\ ((x = EValueErr /\ n < 0) \/ (x = EOverflow /\ 0 <= n /\ fits sg n v = false)).
Proof.
  unfold write_int, dlift, dwrite, dbind, py_to_bytes. intro H.
  destruct (n <? 0) eqn:Hn.
  - injection H as <- <-. split; [reflexivity|left; split; [reflexivity|lia]].
  - destruct (fits sg n v) eqn:Hf; [discriminate H|].
    injection H as <- <-. split; [reflexivity|right; repeat split; lia].
Qed.

Lemma write_read_int bs sg e pre suf :
  bytes_ok bs ->
  exists v, read_int (zlen bs) sg e (at_data pre bs suf) = (after_data pre bs suf, Ok v)
    /\ write_int v (zlen bs) sg e = (bs, Ok tt).
Proof.
  intro Hok. exists (py_from_bytes bs e sg). split.
  - rewrite (read_int_ok _ bs suf sg e (rest_at pre bs suf)), advance_at. reflexivity.
  - unfold write_int, dlift, dwrite, dbind. rewrite (py_to_from_bytes bs e sg Hok).
    reflexivity.
Qed.

Lemma read_int_eof s n sg e :
  zlen (rest s) < n ->
  read_int n sg e s
  = (mkStream (s_data s) (s_pos s + length (rest s)),
     Raise (EUnexpectedEOF None n (tell s))).
Proof. apply read_int_short. Qed.

Lemma peek_bytes_spec s n short :
  0 <= n ->
  peek_bytes n short s
  = (s, if negb short && (zlen (rest s) <? n) then Raise EEOF
        else Ok (firstn (Z.to_nat n) (rest s))).
Proof.
  intro Hn. unfold peek_bytes.
  destruct (Z_le_gt_dec n (zlen (rest s))) as [Hle|Hgt].
  - rewrite read_enough by lia.
    assert (E : zlen (firstn (Z.to_nat n) (rest s)) = n).
    { unfold zlen in *. rewrite firstn_length. lia. }
    rewrite E. replace (n <? n) with false by lia.
    replace (zlen (rest s) <? n) with false by lia.
    destruct (negb short && false); reflexivity.
  - rewrite read_short by lia.
    replace (zlen (rest s) <? n) with true by lia.
    rewrite firstn_all2 by (unfold zlen in *; lia).
    destruct (negb short && true); reflexivity.
Qed.

Lemma iter_bytes_aux : forall fuel max n s,
  0 <= n -> match max with Some m => n <= m \/ m <= 0 | None => True end ->
  (length (rest s) < fuel)%nat ->
  let k := match max with
           | None => length (rest s)
           | Some m => Nat.min (Z.to_nat (m - n)) (length (rest s))
           end in
  iter_bytes_all fuel max n s = Some (firstn k (rest s), advance s k).
Proof.
  induction fuel as [|fuel IH]; intros max n s Hn Hm Hf k; [lia|].
  cbn [iter_bytes_all]. unfold iter_next.
  destruct (match max with None => true | Some m => n <? m end) eqn:Hc.
  - destruct (rest s) as [|b r] eqn:Hr.
    + rewrite read_short by (rewrite Hr; reflexivity). rewrite Hr.
      subst k. cbn [length]. destruct max; rewrite ?Nat.min_0_r; rewrite advance_0; reflexivity.
    + rewrite read_enough by (rewrite Hr; unfold zlen; cbn [length]; lia). rewrite Hr.
      change (Z.to_nat 1) with 1%nat. cbn [firstn].
      assert (Hr' : rest (advance s 1) = r) by (rewrite rest_advance, Hr; reflexivity).
      rewrite IH; rewrite ?Hr'; cbn [length] in *; [|lia|destruct max; lia|lia].
      rewrite advance_advance. subst k. destruct max as [m|].
      * replace (Nat.min (Z.to_nat (m - n)) (S (length r)))
          with (S (Nat.min (Z.to_nat (m - (n + 1))) (length r))) by lia.
        reflexivity.
      * reflexivity.
  - destruct max as [m|]; [|discriminate Hc].
    subst k. replace (Z.to_nat (m - n)) with O by lia.
    cbn [Nat.min firstn]. rewrite advance_0. reflexivity.
Qed.

Lemma iter_bytes_spec max s :
  let k := match max with
           | None => length (rest s)
           | Some m => Nat.min (Z.to_nat m) (length (rest s))
           end in
  iter_bytes_all (S (length (rest s))) max 0 s = Some (firstn k (rest s), advance s k).
Proof.
  intro k. rewrite iter_bytes_aux; [|lia|destruct max; lia|lia].
  subst k. destruct max; [rewrite Z.sub_0_r|]; reflexivity.
Qed.
