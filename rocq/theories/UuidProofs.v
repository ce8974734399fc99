(** UUID forms: all four storage formats are inverted by the parser. *)
From Verif Require Import Tac PyIntProofs CodecsProofs.
From Verif Require Export Uuid.

(** lower-case hex digit codes *)
Definition is_hexl (ch : Z) : bool := ((48 <=? ch) && (ch <=? 57)) || ((97 <=? ch) && (ch <=? 102)).
Definition hexl (s : list Z) : Prop := Forall (fun ch => is_hexl ch = true) s.

Lemma hex_digit_hexl d : 0 <= d < 16 -> is_hexl (hex_digit d) = true.
Proof. intros H. unfold hex_digit, is_hexl. destruct (d <? 10) eqn:?; lia. Qed.

Lemma hex_digit_val d : 0 <= d < 16 -> hex_val (hex_digit d) = Some d.
Proof.
  intros H. unfold hex_digit, hex_val. destruct (d <? 10) eqn:Hd.
  - replace ((48 <=? 48 + d) && (48 + d <=? 57)) with true by lia. f_equal. lia.
  - replace ((48 <=? 87 + d) && (87 + d <=? 57)) with false by lia.
    replace ((97 <=? 87 + d) && (87 + d <=? 102)) with true by lia. f_equal. lia.
Qed.

Lemma hex_be_length n : forall v, length (hex_be n v) = n.
Proof. induction n as [|n IH]; intros v; cbn [hex_be]; [reflexivity|].
  rewrite app_length, IH. cbn. lia. Qed.

Lemma hex_be_hexl n : forall v, hexl (hex_be n v).
Proof.
  induction n as [|n IH]; intros v; cbn [hex_be]; [constructor|].
  apply Forall_app. split; [apply IH|]. constructor; [|constructor].
  apply hex_digit_hexl. apply Z.mod_pos_bound. lia.
Qed.

Lemma hex_digits_app s : forall t acc p, hexl s ->
  (s <> [] \/ p = true) ->
  hex_digits (s ++ t) acc p
  = hex_digits t (fold_left (fun a ch => a * 16 + match hex_val ch with Some d => d | None => 0 end) s acc) true.
Proof.
  induction s as [|ch s IH]; intros t acc p Hs Hp; cbn [app].
  - destruct Hp as [Hp | ->]; [congruence|]. reflexivity.
  - inversion Hs as [|? ? H1 H2]; subst. cbn [hex_digits fold_left].
    replace (ch =? 95) with false by (unfold is_hexl in H1; lia).
    assert (Hv : exists d, hex_val ch = Some d).
    { unfold is_hexl in H1. unfold hex_val.
      destruct ((48 <=? ch) && (ch <=? 57)); eauto.
      destruct ((97 <=? ch) && (ch <=? 102)); eauto. discriminate. }
    destruct Hv as [d ->]. apply IH; auto.
Qed.

Lemma hex_be_fold n : forall v, 0 <= v -> 
  fold_left (fun a ch => a * 16 + match hex_val ch with Some d => d | None => 0 end) (hex_be n v) 0
  = v mod 16 ^ Z.of_nat n.
Proof.
  induction n as [|n IH]; intros v Hv; cbn [hex_be].
  - cbn. rewrite Z.mod_1_r. reflexivity.
  - rewrite fold_left_app. cbn [fold_left].
    rewrite IH by (apply Z.div_pos; lia).
    rewrite hex_digit_val by (apply Z.mod_pos_bound; lia).
    rewrite Nat2Z.inj_succ, Z.pow_succ_r by lia.
    rewrite Z.rem_mul_r by (try apply Z.pow_pos_nonneg; lia). lia.
Qed.

Lemma hexl_in ch : is_hexl ch = true ->
  In ch [48;49;50;51;52;53;54;55;56;57;97;98;99;100;101;102].
Proof.
  intros H. assert (Hr : 0 <= ch < 103) by (unfold is_hexl in H; lia).
  pose proof (sweep (fun ch => implb (is_hexl ch)
     (existsb (Z.eqb ch) [48;49;50;51;52;53;54;55;56;57;97;98;99;100;101;102])) 103
     eq_refl ch Hr) as S.
  cbv beta in S. rewrite H in S. cbn [implb] in S. apply existsb_exists in S.
  destruct S as (x & Hin & Hx). apply Z.eqb_eq in Hx. subst x. exact Hin.
Qed.

Lemma lstrip_hexl p s : Forall (fun ch => p ch = false) s -> lstrip p s = s.
Proof. destruct s as [|ch s]; intros H; [reflexivity|]. inversion H as [|? ? H1]; subst.
  cbn [lstrip]. rewrite H1. reflexivity. Qed.

Lemma strip_hexl p s : Forall (fun ch => p ch = false) s -> strip p s = s.
Proof.
  intros H. unfold strip. rewrite (lstrip_hexl p s) by auto. rewrite lstrip_hexl.
  - apply rev_involutive.
  - apply Forall_rev. exact H.
Qed.

Lemma int_base16_hexl h : hexl h -> h <> [] ->
  int_base16 h = Some (fold_left (fun a ch => a * 16 + match hex_val ch with Some d => d | None => 0 end) h 0).
Proof.
  intros Hh Hne. unfold int_base16.
  rewrite strip_hexl by (eapply Forall_impl; [|exact Hh]; intros ch Hc; cbv beta in *;
                         unfold is_hexl in Hc; unfold is_space; lia).
  assert (E1 : match h with
               | 43 :: s' => (false, s')
               | 45 :: s' => (true, s')
               | _ => (false, h)
               end = (false, h)).
  { destruct h as [|a h]; [congruence|]. inversion Hh as [|? ? H1 H2]; subst.
    apply hexl_in in H1. cbn [In] in H1.
    repeat destruct H1 as [<-|H1]; try reflexivity. contradiction. }
  rewrite E1.
  assert (E2 : match h with
               | 48 :: 120 :: s' | 48 :: 88 :: s' => (true, s')
               | _ => (false, h)
               end = (false, h)).
  { destruct h as [|a [|b h]]; [congruence| |].
    - inversion Hh as [|? ? H1 H2]; subst. apply hexl_in in H1. cbn [In] in H1.
      repeat destruct H1 as [<-|H1]; try reflexivity. contradiction.
    - inversion Hh as [|? ? H1 H2]; subst. inversion H2 as [|? ? H3 H4]; subst.
      apply hexl_in in H1. apply hexl_in in H3. cbn [In] in H1, H3.
      repeat destruct H1 as [<-|H1]; try reflexivity; [|contradiction].
      repeat destruct H3 as [<-|H3]; try reflexivity. contradiction. }
  rewrite E2.
  rewrite <- (app_nil_r h) at 1. rewrite hex_digits_app by auto. reflexivity.
Qed.

Lemma str_remove_none pat0 pat : forall s fuel,
  Forall (fun ch => (ch =? pat0) = false) s -> (length s <= fuel)%nat ->
  str_remove fuel (pat0 :: pat) s = s.
Proof.
  induction s as [|ch s IH]; intros fuel Hs Hf; (destruct fuel as [|fuel]; [auto|]); cbn [str_remove].
  - reflexivity.
  - inversion Hs as [|? ? H1 H2]; subst. cbn [starts_with].
    rewrite Z.eqb_sym, H1. f_equal. apply IH; auto. cbn in Hf. lia.
Qed.

Lemma str_remove_dash : forall s fuel, (length s <= fuel)%nat ->
  str_remove fuel [45] s = filter (fun ch => negb (ch =? 45)) s.
Proof.
  induction s as [|ch s IH]; intros fuel Hf.
  - destruct fuel; reflexivity.
  - destruct fuel as [|fuel]; [cbn in Hf; lia|]. cbn [str_remove starts_with filter].
    rewrite Z.eqb_sym. destruct (ch =? 45); cbn [negb]; [|f_equal]; apply IH; cbn in Hf; lia.
Qed.

Lemma filter_hexl s : hexl s -> filter (fun ch => negb (ch =? 45)) s = s.
Proof.
  induction s as [|ch s IH]; intros H; [reflexivity|]. inversion H as [|? ? H1 H2]; subst.
  cbn [filter]. replace (ch =? 45) with false by (unfold is_hexl in H1; lia).
  cbn [negb]. f_equal. auto.
Qed.

(** hex digits and dashes only *)
Definition hexdash (s : list Z) : Prop := Forall (fun ch => is_hexl ch = true \/ ch = 45) s.

Lemma uuid_of_hexdash s u : hexdash s ->
  filter (fun ch => negb (ch =? 45)) s = uuid_hex u -> 0 <= u < 2 ^ 128 ->
  uuid_of_hex s = Ok u.
Proof.
  intros Hs Hf Hu. unfold uuid_of_hex, str_replace_empty, chars_urn, chars_uuid.
  assert (H117 : Forall (fun ch => (ch =? 117) = false) s).
  { eapply Forall_impl; [|exact Hs]. intros ch Hc. cbv beta in *. unfold is_hexl in Hc. lia. }
  rewrite (str_remove_none 117 _ s (length s)) by auto.
  rewrite (str_remove_none 117 _ s (length s)) by auto.
  rewrite strip_hexl.
  2:{ eapply Forall_impl; [|exact Hs]. intros ch Hc. cbv beta in *. unfold is_hexl in Hc. lia. }
  rewrite str_remove_dash by auto. rewrite Hf.
  unfold zlen, uuid_hex. rewrite hex_be_length. 
  change (negb (Z.of_nat 32 =? 32)) with false. cbv iota.
  rewrite int_base16_hexl.
  - rewrite hex_be_fold by lia. change (16 ^ Z.of_nat 32) with (2 ^ 128).
    rewrite Z.mod_small by lia.
    replace ((0 <=? u) && (u <? 2 ^ 128)) with true by lia. reflexivity.
  - apply hex_be_hexl.
  - intros H. apply (f_equal (@length Z)) in H. rewrite hex_be_length in H. discriminate.
Qed.

Lemma hexl_hexdash s : hexl s -> hexdash s.
Proof. apply Forall_impl. auto. Qed.

Lemma Forall_firstn' {A} (P : A -> Prop) k : forall l, Forall P l -> Forall P (firstn k l).
Proof.
  induction k as [|k IH]; intros [|x l] H; cbn; try constructor; inversion H; subst; auto.
Qed.
Lemma Forall_skipn' {A} (P : A -> Prop) k : forall l, Forall P l -> Forall P (skipn k l).
Proof.
  induction k as [|k IH]; intros [|x l] H; cbn; auto. inversion H; subst; auto.
Qed.

Lemma uuid_str_split (h : list Z) : length h = 32%nat ->
  firstn 8 h ++ firstn 4 (skipn 8 h) ++ firstn 4 (skipn 12 h) ++ firstn 4 (skipn 16 h)
  ++ skipn 20 h = h.
Proof.
  intros H. do 32 (destruct h as [|? h]; [discriminate H|]).
  destruct h; [reflexivity|discriminate H].
Qed.

Lemma uuid_str_filter u : filter (fun ch => negb (ch =? 45)) (uuid_str u) = uuid_hex u.
Proof.
  unfold uuid_str. set (h := uuid_hex u).
  assert (Hh : hexl h) by apply hex_be_hexl.
  assert (Hl : length h = 32%nat) by apply hex_be_length.
  rewrite !filter_app. change (filter (fun ch => negb (ch =? 45)) [45]) with (@nil Z).
  cbn [app].
  rewrite !filter_hexl by (unfold hexl; repeat (apply Forall_firstn' || apply Forall_skipn'); exact Hh).
  apply uuid_str_split. exact Hl.
Qed.

Lemma uuid_str_hexdash u : hexdash (uuid_str u).
Proof.
  unfold uuid_str. set (h := uuid_hex u).
  assert (Hh : hexdash h) by apply hexl_hexdash, hex_be_hexl.
  unfold hexdash in *.
  repeat (apply Forall_app; split);
    try (repeat (apply Forall_firstn' || apply Forall_skipn'); exact Hh);
    (constructor; [right; reflexivity|constructor]).
Qed.

Lemma uuid_str_length u : length (uuid_str u) = 36%nat.
Proof.
  unfold uuid_str. pose proof (hex_be_length 32 u) as H. fold (uuid_hex u) in H.
  rewrite !app_length, !firstn_length, !skipn_length, H. reflexivity.
Qed.

Lemma swap_le_involutive b : length b = 16%nat -> swap_le (swap_le b) = b.
Proof.
  intros H. do 16 (destruct b as [|? b]; [discriminate H|]).
  destruct b; [reflexivity|discriminate H].
Qed.

Lemma swap_le_length b : length b = 16%nat -> length (swap_le b) = 16%nat.
Proof.
  intros H. do 16 (destruct b as [|? b]; [discriminate H|]).
  destruct b; [reflexivity|discriminate H].
Qed.

Lemma uuid_bytes_length u : length (uuid_bytes u) = 16%nat.
Proof. unfold uuid_bytes. rewrite rev_length, le_bytes_length. reflexivity. Qed.

Lemma uuid_bytes_value u : 0 <= u < 2 ^ 128 -> le_value (rev (uuid_bytes u)) = u.
Proof.
  intros H. unfold uuid_bytes. rewrite rev_involutive, le_value_le_bytes.
  change (256 ^ Z.of_nat 16) with (2 ^ 128). apply Z.mod_small. exact H.
Qed.

Lemma decode_ascii_hexdash s : hexdash s -> decode Ascii s = Ok s.
Proof.
  intros H. apply decode_encode, ascii_chars. revert H. apply Forall_impl. intros ch. unfold is_hexl. lia.
Qed.

Lemma uuid_dump_length fmt u : zlen (uuid_dump fmt u) = uuid_size fmt.
Proof.
  unfold zlen. destruct fmt; cbn [uuid_dump uuid_size].
  - rewrite uuid_bytes_length. reflexivity.
  - rewrite swap_le_length by apply uuid_bytes_length. reflexivity.
  - rewrite uuid_str_length. reflexivity.
  - unfold uuid_hex. rewrite hex_be_length. reflexivity.
Qed.

Lemma uuid_parse_dump fmt u : 0 <= u < 2 ^ 128 -> uuid_parse fmt (uuid_dump fmt u) = Ok u.
Proof.
  intros H. destruct fmt; cbn [uuid_dump uuid_parse].
  - rewrite uuid_bytes_value by auto. reflexivity.
  - rewrite swap_le_involutive by apply uuid_bytes_length.
    rewrite uuid_bytes_value by auto. reflexivity.
  - rewrite decode_ascii_hexdash by apply uuid_str_hexdash. cbn [bind].
    apply uuid_of_hexdash; auto using uuid_str_hexdash, uuid_str_filter.
  - rewrite decode_ascii_hexdash by apply hexl_hexdash, hex_be_hexl. cbn [bind].
    apply uuid_of_hexdash; auto.
    + apply hexl_hexdash, hex_be_hexl.
    + apply filter_hexl, hex_be_hexl.
Qed.

Lemma hexdash_bytes_ok s : hexdash s -> bytes_ok s.
Proof. apply Forall_impl. intros ch H. unfold is_hexl in H. unfold byte_ok. lia. Qed.

Lemma uuid_dump_ok fmt u : bytes_ok (uuid_dump fmt u).
Proof.
  assert (Hb : bytes_ok (uuid_bytes u)) by (apply Forall_rev, le_bytes_ok).
  destruct fmt; cbn [uuid_dump].
  - exact Hb.
  - unfold swap_le. generalize dependent (uuid_bytes u). intros b Hb. unfold bytes_ok in *.
    repeat (apply Forall_app; split); try apply Forall_rev;
      repeat (apply Forall_firstn' || apply Forall_skipn'); exact Hb.
  - apply hexdash_bytes_ok, uuid_str_hexdash.
  - apply hexdash_bytes_ok, hexl_hexdash, hex_be_hexl.
Qed.
