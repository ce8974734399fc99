(** What the table of variable-length formats says about sign and byte order (C66). *)
From Verif Require Import Tac.
From Verif Require Export Varints VarintSpec VarintsProofs VarintsMore.

Lemma vli_signed_iff fmt :
  (vli_signed fmt = true <-> forall v, exists bs, vli_encode fmt v = Ok bs)
  /\ (vli_signed fmt = false <-> forall v, v < 0 -> vli_encode fmt v = Raise EValueErr).
Proof.
  destruct fmt; cbn [vli_signed].
  1,2: split; split; intros H; try discriminate H; auto;
    [intros v; apply varint_signed_total; auto|].
  1,2: match type of H with context [vli_encode ?f] =>
         destruct (varint_signed_total f (-1) ltac:(auto)) as [bs Hb] end;
       rewrite (H (-1) ltac:(lia)) in Hb; discriminate.
  1,2: split; split; intros H; try discriminate H; auto.
  1,3: match type of H with context [vli_encode ?f] =>
         destruct (H (-1)) as [bs Hb]; rewrite (proj1 (varint_reject f (-1) ltac:(auto)) ltac:(lia)) in Hb end;
       discriminate.
  1,2: intros v Hv; apply varint_reject; auto.
Qed.

Lemma le7_low b bs : le7 (b :: bs) mod 128 = b mod 128.
Proof. cbn [le7 fold_right]. rewrite Z.mul_comm, Z.mod_add, Z.mod_mod by lia. auto. Qed.

Lemma be7_low acc init b : be7_from acc (init ++ [b]) mod 128 = b mod 128.
Proof. rewrite be7_from_app. cbn [be7_from fold_left]. rewrite Z.add_comm, Z.mod_add, Z.mod_mod by lia. auto. Qed.

Lemma vli_little fmt v bs : vli_endian fmt = Little -> vli_encode fmt v = Ok bs ->
  exists b tl, bs = b :: tl /\ b mod 128 = v mod 128.
Proof.
  intros He H. destruct (encode_ok_inv _ _ _ H) as (_ & Ht & Hv). apply terminated_inv in Ht.
  destruct bs as [|b tl]; [congruence|]. exists b, tl. split; auto. rewrite <- le7_low with (bs := tl).
  destruct fmt; try discriminate; cbn [spec_value] in Hv; [|rewrite Hv; auto].
  destruct (_ <? _); [rewrite Hv; auto|]. rewrite <- Hv.
  set (k := Z.of_nat (length (b :: tl))). assert (Hk : 1 <= k) by (unfold k; cbn [length]; lia).
  replace (7 * k) with (7 + 7 * (k - 1)) by lia. rewrite Z.pow_add_r by lia. change (2 ^ 7) with 128.
  rewrite Z.mul_comm. rewrite <- Z.add_opp_r, <- Z.mul_opp_l, Z.mod_add by lia. auto.
Qed.

Lemma vli_big fmt v bs : vli_endian fmt = Big -> vli_encode fmt v = Ok bs -> 1 < zlen bs ->
  exists init b, bs = init ++ [b] /\ b mod 128 = Z.abs v mod 128.
Proof.
  intros He H Hl. destruct (encode_ok_inv _ _ _ H) as (_ & (init & b & -> & _) & Hv).
  exists init, b. split; auto. destruct fmt; try discriminate; cbn [spec_value] in Hv.
  - destruct init as [|a init]; [cbn in Hl; lia|]. cbn [app] in Hv.
    pose proof (be7_from_bound (init ++ [b]) (a mod 64) ltac:(apply Z.mod_pos_bound; lia)) as Hb.
    pose proof (Z.mod_pos_bound a 64 ltac:(lia)). pose proof (pow128_pos (length (init ++ [b]))).
    assert (Ha : Z.abs v = be7_from (a mod 64) (init ++ [b])) by (destruct (_ <? _); nia).
    rewrite Ha, be7_low. auto.
  - pose proof (be7_from_bound (init ++ [b]) 0 ltac:(lia)). rewrite Z.abs_eq by lia.
    rewrite <- Hv, be7_low. auto.
Qed.
