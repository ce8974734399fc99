(** Text that UUID fields accept (C68). *)
From Verif Require Import Tac PyIntProofs CodecsProofs StreamProofs StructModel FieldProofs LeafProofs LeafMore VarintsMore.
From Verif Require Export UuidProofs SpecField.

(** The hexadecimal digit [ch] (ASCII, either case) stands for [v]. *)
Inductive text_digit : Z -> Z -> Prop :=
| td_dec v : 0 <= v <= 9 -> text_digit v (48 + v)
| td_low v : 10 <= v <= 15 -> text_digit v (97 + (v - 10))
| td_upp v : 10 <= v <= 15 -> text_digit v (65 + (v - 10)).

(** The digits [ds] with dashes anywhere between them. *)
Inductive dashed : list Z -> list Z -> Prop :=
| da_nil : dashed [] []
| da_dash ds t : dashed ds t -> dashed ds (45 :: t)
| da_digit v ch ds t : text_digit v ch -> dashed ds t -> dashed (v :: ds) (ch :: t).

Definition braces (t : list Z) : Prop := Forall (fun ch => ch = 123 \/ ch = 125) t.
Definition urn_prefix : list Z := [117; 114; 110; 58].
Definition uuid_prefix : list Z := [117; 117; 105; 100; 58].

(** The number with the digits [ds], most significant first. *)
Definition number (ds : list Z) : Z := fold_left (fun a v => 16 * a + v) ds 0.

Definition text_format (fmt : uuid_format) : Prop := fmt = CANONICAL_STRING \/ fmt = HEX_STRING.

Definition hex_any (ch : Z) : Prop := exists v, text_digit v ch.

Lemma text_digit_val v ch : text_digit v ch -> hex_val ch = Some v /\ ch <> 95 /\ 0 <= v < 16.
Proof.
  intros H. unfold hex_val. destruct H as [v H|v H|v H].
  - replace ((48 <=? 48 + v) && (48 + v <=? 57)) with true by lia. repeat split; try lia. f_equal. lia.
  - replace ((48 <=? 97 + (v - 10)) && (97 + (v - 10) <=? 57)) with false by lia.
    replace ((97 <=? 97 + (v - 10)) && (97 + (v - 10) <=? 102)) with true by lia. repeat split; try lia. f_equal. lia.
  - replace ((48 <=? 65 + (v - 10)) && (65 + (v - 10) <=? 57)) with false by lia.
    replace ((97 <=? 65 + (v - 10)) && (65 + (v - 10) <=? 102)) with false by lia.
    replace ((65 <=? 65 + (v - 10)) && (65 + (v - 10) <=? 70)) with true by lia. repeat split; try lia. f_equal. lia.
Qed.

Lemma text_digit_range v ch : text_digit v ch -> 48 <= ch <= 102 /\ ch <> 45 /\ (ch <= 57 \/ 65 <= ch <= 70 \/ 97 <= ch).
Proof. intros H. destruct H; lia. Qed.

Lemma dashed_chars ds t : dashed ds t -> Forall (fun ch => 45 <= ch <= 102 /\ (ch = 45 \/ 48 <= ch <= 57 \/ 65 <= ch <= 70 \/ 97 <= ch)) t.
Proof.
  induction 1 as [|ds t H IH|v ch ds t Hd H IH]; constructor; auto; [lia|].
  apply text_digit_range in Hd. lia.
Qed.

Lemma dashed_filter ds t : dashed ds t ->
  Forall2 text_digit ds (filter (fun ch => negb (ch =? 45)) t).
Proof.
  induction 1 as [|ds t H IH|v ch ds t Hd H IH]; cbn [filter]; auto.
  replace (ch =? 45) with false by (apply text_digit_range in Hd; lia). cbn. constructor; auto.
Qed.

Lemma hex_digits_any ds : forall s acc p, Forall2 text_digit ds s -> (s <> [] \/ p = true) ->
  Uuid.hex_digits s acc p = Some (fold_left (fun a v => 16 * a + v) ds acc).
Proof.
  induction ds as [|v ds IH]; intros s acc p H Hp; inversion H as [|? ch ? s' Hd Hs]; subst; cbn [Uuid.hex_digits fold_left].
  - destruct Hp as [Hp| ->]; [congruence|reflexivity].
  - apply text_digit_val in Hd as (-> & Hn & _). replace (ch =? 95) with false by lia.
    rewrite (IH s' (acc * 16 + v) true) by auto. do 2 f_equal. lia.
Qed.

Lemma number_range ds : forall acc, Forall (fun v => 0 <= v < 16) ds -> 0 <= acc ->
  0 <= fold_left (fun a v => 16 * a + v) ds acc < (acc + 1) * 16 ^ zlen ds.
Proof.
  induction ds as [|v ds IH]; intros acc H Ha; cbn [fold_left].
  - unfold zlen. cbn [length]. change (16 ^ Z.of_nat 0) with 1. lia.
  - inversion H as [|? ? Hv Hds]; subst. specialize (IH (16 * acc + v) Hds ltac:(lia)).
    replace (zlen (v :: ds)) with (zlen ds + 1) by (unfold zlen; cbn [length]; lia).
    rewrite Z.pow_add_r by (unfold zlen; lia). change (16 ^ 1) with 16.
    assert (0 <= 16 ^ zlen ds) by (apply Z.pow_nonneg; lia). nia.
Qed.

Lemma any_in ch : 48 <= ch <= 57 \/ 65 <= ch <= 70 \/ 97 <= ch <= 102 ->
  In ch [48;49;50;51;52;53;54;55;56;57;97;98;99;100;101;102;65;66;67;68;69;70].
Proof. intros H. cbn [In]. lia. Qed.

Lemma int_base16_digits ds s : Forall2 text_digit ds s -> s <> [] -> int_base16 s = Some (number ds).
Proof.
  intros H Hne. unfold int_base16.
  assert (Hc : Forall (fun ch => 48 <= ch <= 57 \/ 65 <= ch <= 70 \/ 97 <= ch <= 102) s).
  { clear Hne. induction H as [|v ch ds s Hd H IH]; constructor; auto. apply text_digit_range in Hd. lia. }
  rewrite strip_hexl by (eapply Forall_impl; [|exact Hc]; intros ch Hx; cbv beta in *; unfold is_space; lia).
  assert (E1 : match s with
               | 43 :: s' => (false, s')
               | 45 :: s' => (true, s')
               | _ => (false, s)
               end = (false, s)).
  { destruct s as [|a s]; auto. inversion Hc as [|? ? Ha Hs]; subst.
    apply any_in in Ha. cbn [In] in Ha. repeat destruct Ha as [<-|Ha]; try reflexivity. contradiction. }
  rewrite E1.
  assert (E2 : match s with
               | 48 :: 120 :: s' | 48 :: 88 :: s' => (true, s')
               | _ => (false, s)
               end = (false, s)).
  { destruct s as [|a [|b s]]; auto.
    - inversion Hc as [|? ? Ha Hs]; subst.
      apply any_in in Ha. cbn [In] in Ha. repeat destruct Ha as [<-|Ha]; try reflexivity. contradiction.
    - inversion Hc as [|? ? Ha Hs]; subst. inversion Hs as [|? ? Hb _]; subst.
      apply any_in in Ha. apply any_in in Hb. cbn [In] in Ha, Hb.
      repeat destruct Ha as [<-|Ha]; try reflexivity; [|contradiction].
      repeat destruct Hb as [<-|Hb]; try reflexivity. contradiction. }
  rewrite E2, (hex_digits_any ds s 0 false) by auto. reflexivity.
Qed.

Lemma lstrip_all p l s : Forall (fun ch => p ch = true) l -> lstrip p (l ++ s) = lstrip p s.
Proof. induction 1 as [|ch l Hc H IH]; auto. cbn. rewrite Hc. auto. Qed.

Lemma strip_around p l s r : Forall (fun ch => p ch = true) l -> Forall (fun ch => p ch = true) r ->
  Forall (fun ch => p ch = false) s -> strip p (l ++ s ++ r) = s.
Proof.
  intros Hl Hr Hs. unfold strip. rewrite lstrip_all by auto.
  destruct s as [|ch s].
  - cbn [app]. assert (H0 : lstrip p r = []) by (rewrite <- (app_nil_r r), lstrip_all; auto).
    rewrite H0. reflexivity.
  - inversion Hs as [|? ? H1 _]; subst. cbn [app lstrip]. rewrite H1.
    change (ch :: s ++ r) with ((ch :: s) ++ r). rewrite rev_app_distr.
    rewrite lstrip_all by (apply Forall_rev; auto). rewrite lstrip_hexl by (apply Forall_rev; auto).
    apply rev_involutive.
Qed.

Lemma str_remove_app pat s : forall fuel, pat <> [] ->
  str_remove (S fuel) pat (pat ++ s) = str_remove fuel pat s.
Proof.
  intros fuel Hp. destruct pat as [|a pat]; [congruence|]. cbn [app str_remove].
  assert (H : forall q t, starts_with q (q ++ t) = Some t).
  { induction q as [|x q IH]; intros t; cbn; auto. rewrite Z.eqb_refl. auto. }
  change (a :: pat ++ s) with ((a :: pat) ++ s). rewrite H. reflexivity.
Qed.

Lemma str_remove_skip pat0 pat p : forall s fuel,
  (forall i, (i < length p)%nat -> starts_with (pat0 :: pat) (skipn i (p ++ s)) = None) ->
  str_remove (length p + fuel) (pat0 :: pat) (p ++ s) = p ++ str_remove fuel (pat0 :: pat) s.
Proof.
  induction p as [|ch p IH]; intros s fuel H; auto. cbn [length Nat.add app str_remove].
  pose proof (H 0%nat ltac:(cbn; lia)) as H0. cbn [skipn] in H0. change (ch :: p ++ s) with ((ch :: p) ++ s). rewrite H0.
  f_equal. apply IH. intros i Hi. exact (H (S i) ltac:(cbn; lia)).
Qed.

Definition not_u (s : list Z) : Prop := Forall (fun ch => (ch =? 117) = false) s.

Lemma prefix_removed pre s : In pre [[]; urn_prefix; uuid_prefix; urn_prefix ++ uuid_prefix] -> not_u s ->
  str_replace_empty chars_uuid (str_replace_empty chars_urn (pre ++ s)) = s.
Proof.
  intros Hp Hs. unfold not_u in Hs. unfold str_replace_empty, chars_uuid, chars_urn.
  cbn [In] in Hp. destruct Hp as [<-|[<-|[<-|[<-|[]]]]].
  - cbn [app]. rewrite (str_remove_none 117 _ s (length s)) by auto. apply str_remove_none; auto.
  - rewrite app_length. cbn [length Nat.add urn_prefix].
    change (117 :: 114 :: 110 :: 58 :: s) with ([117; 114; 110; 58] ++ s).
    rewrite str_remove_app by discriminate.
    rewrite (str_remove_none 117 [114; 110; 58] s) by (try lia; auto).
    apply str_remove_none; auto.
  - change [117; 114; 110; 58] with (117 :: [114; 110; 58]).
    rewrite app_length. replace (length uuid_prefix + length s)%nat with (length uuid_prefix + (length s))%nat by lia.
    rewrite str_remove_skip.
    + rewrite (str_remove_none 117 [114; 110; 58] s) by auto.
      rewrite app_length. cbn [length Nat.add uuid_prefix].
      change [117; 117; 105; 100; 58] with uuid_prefix at 1.
      change (117 :: 117 :: 105 :: 100 :: 58 :: s) with (uuid_prefix ++ s).
      rewrite str_remove_app by discriminate. apply str_remove_none; auto; lia.
    + intros i Hi. cbn in Hi. do 5 (destruct i as [|i]; [reflexivity|]). lia.
  - rewrite <- app_assoc.
    replace (length (urn_prefix ++ uuid_prefix ++ s)) with (S (length uuid_prefix + (3 + length s)))
      by (rewrite !app_length; cbn; lia).
    change [117; 114; 110; 58] with urn_prefix. rewrite str_remove_app by discriminate.
    change urn_prefix with (117 :: [114; 110; 58]).
    rewrite str_remove_skip.
    + rewrite (str_remove_none 117 [114; 110; 58] s) by (try lia; auto).
      rewrite app_length. cbn [length Nat.add uuid_prefix].
      change (117 :: 117 :: 105 :: 100 :: 58 :: s) with (uuid_prefix ++ s).
      change [117; 117; 105; 100; 58] with uuid_prefix.
      rewrite str_remove_app by discriminate. apply str_remove_none; auto; lia.
    + intros i Hi. cbn in Hi. do 5 (destruct i as [|i]; [reflexivity|]). lia.
Qed.

Lemma text_cleaned pre lb body rb ds : In pre [[]; urn_prefix; uuid_prefix; urn_prefix ++ uuid_prefix] ->
  braces lb -> braces rb -> dashed ds body ->
  uuid_of_hex (pre ++ lb ++ body ++ rb)
  = if zlen ds =? 32 then Ok (number ds) else Raise EValueErr.
Proof.
  intros Hp Hl Hr Hb. unfold uuid_of_hex. pose proof (dashed_chars ds body Hb) as Hc.
  assert (Hbr : forall t, braces t -> not_u t /\ Forall (fun ch => ((ch =? 123) || (ch =? 125)) = true) t).
  { intros t Ht. split; (eapply Forall_impl; [|exact Ht]); intros ch Hx; destruct Hx; subst; reflexivity. }
  rewrite prefix_removed; auto.
  2:{ unfold not_u. rewrite !Forall_app. repeat split; try (apply Hbr; assumption).
      eapply Forall_impl; [|exact Hc]. intros ch Hx. cbv beta in *. lia. }
  rewrite strip_around; try (apply Hbr; assumption).
  2:{ eapply Forall_impl; [|exact Hc]. intros ch Hx. cbv beta in *. lia. }
  unfold str_replace_empty. rewrite str_remove_dash by auto.
  apply dashed_filter in Hb as Hf. set (h := filter _ body) in *.
  assert (Hlen : zlen h = zlen ds) by (unfold zlen; clear - Hf; induction Hf; cbn; lia).
  rewrite Hlen. destruct (Z.eqb_spec (zlen ds) 32) as [H32|H32]; cbn [negb]; auto.
  rewrite (int_base16_digits ds h Hf) by (intros H0; rewrite H0 in Hlen; unfold zlen in *; cbn in Hlen; lia).
  pose proof (number_range ds 0) as Hn. fold (number ds) in Hn. rewrite H32 in Hn.
  assert (Hd : Forall (fun v => 0 <= v < 16) ds).
  { clear - Hf. induction Hf as [|v ch ds h Hd Hf IH]; constructor; auto. apply text_digit_val in Hd. tauto. }
  specialize (Hn Hd ltac:(lia)). change ((0 + 1) * 16 ^ 32) with (2 ^ 128) in Hn.
  replace ((0 <=? number ds) && (number ds <? 2 ^ 128)) with true by lia. auto.
Qed.

Lemma ascii_decoded s : Forall (fun ch => 0 <= ch < 128) s -> decode Ascii s = Ok s.
Proof.
  intros H. apply decode_encode, ascii_chars. auto.
Qed.

Lemma text_ascii pre lb body rb ds : In pre [[]; urn_prefix; uuid_prefix; urn_prefix ++ uuid_prefix] ->
  braces lb -> braces rb -> dashed ds body -> Forall (fun ch => 0 <= ch < 128) (pre ++ lb ++ body ++ rb).
Proof.
  intros Hp Hl Hr Hb. rewrite !Forall_app. repeat split.
  - cbn [In] in Hp. destruct Hp as [<-|[<-|[<-|[<-|[]]]]]; repeat constructor; lia.
  - eapply Forall_impl; [|exact Hl]. intros; cbv beta in *; lia.
  - eapply Forall_impl; [|exact (dashed_chars ds body Hb)]. intros; cbv beta in *; lia.
  - eapply Forall_impl; [|exact Hr]. intros; cbv beta in *; lia.
Qed.

Lemma uuid_text_leaf c fmt g g0 t suf s : text_format fmt -> c_size c = SInt (zlen t) -> rest s = t ++ suf ->
  leaf_load c (KUuid fmt) g g0 s
  = (advance s (length t), match uuid_parse fmt t with Ok u => Ok (VUUID u) | Raise e => Raise e | OOF => OOF end).
Proof.
  intros Hf Hs Hr. cbn [leaf_load]. rewrite Hs, (read_app s t suf Hr). replace (zlen t <? zlen t) with false by lia.
  destruct Hf as [-> | ->]; destruct (uuid_parse _ t); auto.
Qed.

Lemma uuid_text_accepted E n c fmt ctx d pre lb body rb ds front suf : text_format fmt ->
  In pre [[]; urn_prefix; uuid_prefix; urn_prefix ++ uuid_prefix] -> braces lb -> braces rb ->
  dashed ds body -> length ds = 32%nat ->
  let text := pre ++ lb ++ body ++ rb in
  c_size c = SInt (zlen text) -> takes c (VUUID (number ds)) ->
  field_from_stream E n (Field c (KUuid fmt)) ctx d (at_data front text suf)
  = (after_data front text suf, Ok (VUUID (number ds))).
Proof.
  intros Hf Hp Hl Hr Hb Hd text Hs Ht. apply takes_load; auto. rewrite do_load_leaf by auto.
  rewrite (uuid_text_leaf c fmt _ _ text suf _ Hf Hs (rest_at _ _ _)), advance_at.
  assert (Hu : uuid_parse fmt text = Ok (number ds)).
  { assert (H : (do t <- decode Ascii text; uuid_of_hex t) = Ok (number ds)).
    { rewrite ascii_decoded by (eapply text_ascii; eauto). cbn [bind]. unfold text.
      rewrite (text_cleaned _ _ _ _ ds) by auto. unfold zlen. rewrite Hd. auto. }
    destruct Hf as [-> | ->]; auto. }
  rewrite Hu. auto.
Qed.

Lemma uuid_text_rejected E n c fmt ctx d pre lb body rb ds front suf : text_format fmt ->
  In pre [[]; urn_prefix; uuid_prefix; urn_prefix ++ uuid_prefix] -> braces lb -> braces rb ->
  dashed ds body -> length ds <> 32%nat ->
  let text := pre ++ lb ++ body ++ rb in
  c_size c = SInt (zlen text) -> always_present c -> c_null c = VUndefined ->
  field_from_stream E n (Field c (KUuid fmt)) ctx d (at_data front text suf)
  = (after_data front text suf, Raise EValueErr).
Proof.
  intros Hf Hp Hl Hr Hb Hd text Hs Ha Hn.
  rewrite (load_fails E n c (KUuid fmt) ctx d _ (after_data front text suf) EValueErr Ha Hn); auto.
  rewrite do_load_leaf by auto.
  rewrite (uuid_text_leaf c fmt _ _ text suf _ Hf Hs (rest_at _ _ _)), advance_at.
  assert (Hu : uuid_parse fmt text = Raise EValueErr).
  { assert (H : (do t <- decode Ascii text; uuid_of_hex t) = Raise EValueErr).
    { rewrite ascii_decoded by (eapply text_ascii; eauto). cbn [bind]. unfold text.
      rewrite (text_cleaned _ _ _ _ ds) by auto. replace (zlen ds =? 32) with false by (unfold zlen; lia). auto. }
    destruct Hf as [-> | ->]; auto. }
  rewrite Hu. auto.
Qed.

(** ** Exactly the texts accepted *)

(** The digits [ds], with single underscores between some of them. *)
Inductive digit_text : list Z -> list Z -> Prop :=
| dt_one v ch : text_digit v ch -> digit_text [v] [ch]
| dt_more v ch ds t : text_digit v ch -> digit_text ds t -> digit_text (v :: ds) (ch :: t)
| dt_under v ch ds t : text_digit v ch -> digit_text ds t -> digit_text (v :: ds) (ch :: 95 :: t).

(** Tabs, line ends, separators and spaces. *)
Definition blank (t : list Z) : Prop := Forall (fun ch => In ch [9;10;11;12;13;32]) t.
Definition base_prefix (t : list Z) : Prop :=
  In t [[]; [48; 120]; [48; 88]; [48; 120; 95]; [48; 88; 95]].

(** Text that Python's [int(text, 16)] takes, and the number. *)
Inductive int_literal : list Z -> Z -> Prop :=
| il_plus sp1 sg pre ds t sp2 : blank sp1 -> blank sp2 -> In sg [[]; [43]] -> base_prefix pre ->
    digit_text ds t -> int_literal (sp1 ++ (sg ++ pre ++ t) ++ sp2) (number ds)
| il_minus sp1 pre ds t sp2 : blank sp1 -> blank sp2 -> base_prefix pre ->
    digit_text ds t -> int_literal (sp1 ++ ([45] ++ pre ++ t) ++ sp2) (- number ds).

Lemma hex_val_digit ch v : hex_val ch = Some v -> text_digit v ch.
Proof.
  unfold hex_val.
  destruct ((48 <=? ch) && (ch <=? 57)) eqn:H1; [intros [= <-]; replace ch with (48 + (ch - 48)) at 2 by lia; apply td_dec; lia|].
  destruct ((97 <=? ch) && (ch <=? 102)) eqn:H2; [intros [= <-]; replace ch with (97 + ((ch - 87) - 10)) at 2 by lia; apply td_low; lia|].
  destruct ((65 <=? ch) && (ch <=? 70)) eqn:H3; [intros [= <-]; replace ch with (65 + ((ch - 55) - 10)) at 2 by lia; apply td_upp; lia|].
  discriminate.
Qed.

Lemma digits_sound s : forall acc p r, Uuid.hex_digits s acc p = Some r ->
  (p = true /\ s = [] /\ r = acc)
  \/ (p = true /\ exists ds t, s = 95 :: t /\ digit_text ds t /\ r = fold_left (fun a v => 16 * a + v) ds acc)
  \/ (exists ds, digit_text ds s /\ r = fold_left (fun a v => 16 * a + v) ds acc).
Proof.
  induction s as [|ch s IH]; intros acc p r H; cbn [Uuid.hex_digits] in H.
  - destruct p; [injection H as <-; auto|discriminate].
  - destruct (Z.eqb_spec ch 95) as [->|Hn].
    + destruct p; [|discriminate]. right. left. split; auto.
      destruct (IH _ _ _ H) as [(Hp & _)|[(Hp & _)|(ds & Hd & Hr)]]; try discriminate. eauto.
    + destruct (hex_val ch) as [v|] eqn:Hv; [|discriminate]. apply hex_val_digit in Hv.
      right. right.
      destruct (IH _ _ _ H) as [(_ & -> & ->)|[(_ & ds & t & -> & Hd & ->)|(ds & Hd & ->)]];
        (eexists (v :: _); split;
         [solve [apply dt_one; auto | apply dt_under; eauto | apply dt_more; eauto]
         |cbn [fold_left]; try (rewrite (Z.mul_comm 16 acc)); reflexivity]).
Qed.

Lemma digits_complete ds t : digit_text ds t -> forall acc p,
  Uuid.hex_digits t acc p = Some (fold_left (fun a v => 16 * a + v) ds acc).
Proof.
  induction 1 as [v ch Hd|v ch ds t Hd H IH|v ch ds t Hd H IH]; intros acc p; cbn [Uuid.hex_digits fold_left];
    apply text_digit_val in Hd as (-> & Hn & _); replace (ch =? 95) with false by lia;
    rewrite (Z.mul_comm acc 16); try (change (95 =? 95) with true; cbv iota); auto.
Qed.

Lemma blank_space ch : In ch [9;10;11;12;13;32] <-> is_space ch = true.
Proof. unfold is_space. cbn [In]. lia. Qed.

Lemma lstrip_split p s : exists l, s = l ++ lstrip p s /\ Forall (fun ch => p ch = true) l.
Proof.
  induction s as [|ch s (l & IH & Hl)]; [exists []; auto|]. cbn [lstrip].
  destruct (p ch) eqn:Hc; [|exists []; auto]. exists (ch :: l). split; auto. cbn. congruence.
Qed.

Lemma strip_split p s : exists l r, s = l ++ strip p s ++ r
  /\ Forall (fun ch => p ch = true) l /\ Forall (fun ch => p ch = true) r.
Proof.
  unfold strip. destruct (lstrip_split p s) as (l & Hs & Hl).
  destruct (lstrip_split p (rev (lstrip p s))) as (r & Hr & Hf).
  exists l, (rev r). repeat split; auto; [|apply Forall_rev; auto].
  rewrite <- rev_app_distr, <- Hr, rev_involutive. auto.
Qed.

(** Stripping text whose ends stay. *)
Lemma strip_ends p l a m b r : Forall (fun ch => p ch = true) l -> Forall (fun ch => p ch = true) r ->
  p a = false -> p b = false -> strip p (l ++ (a :: m ++ [b]) ++ r) = a :: m ++ [b].
Proof.
  intros Hl Hr Ha Hb. unfold strip. rewrite lstrip_all by auto. cbn [app lstrip]. rewrite Ha.
  replace (rev (a :: (m ++ [b]) ++ r)) with (rev r ++ b :: rev (a :: m)).
  2:{ change (a :: (m ++ [b]) ++ r) with ((a :: m ++ [b]) ++ r). rewrite rev_app_distr. f_equal.
      change (a :: m ++ [b]) with ((a :: m) ++ [b]). rewrite rev_app_distr. reflexivity. }
  rewrite lstrip_all by (apply Forall_rev; auto). cbn [lstrip]. rewrite Hb.
  change (b :: rev (a :: m)) with ([b] ++ rev (a :: m)). rewrite rev_app_distr, rev_involutive. reflexivity.
Qed.

Lemma digit_text_ends ds t : digit_text ds t ->
  (exists ch, t = [ch] /\ hex_any ch) \/ (exists a m b, t = a :: m ++ [b] /\ hex_any a /\ hex_any b).
Proof.
  induction 1 as [v ch Hd|v ch ds t Hd H IH|v ch ds t Hd H IH].
  - left. exists ch. split; auto. exists v. auto.
  - right. destruct IH as [(x & -> & Hx)|(a & m & b & -> & Ha & Hb)].
    + exists ch, [], x. repeat split; auto. exists v. auto.
    + exists ch, (a :: m), b. repeat split; auto. exists v. auto.
  - right. destruct IH as [(x & -> & Hx)|(a & m & b & -> & Ha & Hb)].
    + exists ch, [95], x. repeat split; auto. exists v. auto.
    + exists ch, (95 :: a :: m), b. repeat split; auto. exists v. auto.
Qed.

Lemma hex_any_cases ch : hex_any ch -> In ch [48;49;50;51;52;53;54;55;56;57;97;98;99;100;101;102;65;66;67;68;69;70].
Proof. intros [v Hd]. apply any_in. destruct Hd; lia. Qed.

(** The sign-and-prefix part of the parser. *)
Definition parse_unsigned (s : list Z) : option Z :=
  let '(pref, s) := match s with
                    | 48 :: 120 :: s' | 48 :: 88 :: s' => (true, s')
                    | _ => (false, s)
                    end in
  let s := match pref, s with true, 95 :: s' => s' | _, _ => s end in
  Uuid.hex_digits s 0 false.

Lemma parse_unsigned_sound s r : parse_unsigned s = Some r ->
  exists pre ds t, s = pre ++ t /\ base_prefix pre /\ digit_text ds t /\ r = number ds.
Proof.
  intros H.
  assert (Hd : forall x, Uuid.hex_digits x 0 false = Some r -> exists ds, digit_text ds x /\ r = number ds).
  { intros x Hx. destruct (digits_sound _ _ _ _ Hx) as [(Hp & _)|[(Hp & _)|K]]; try discriminate. exact K. }
  assert (H1 : (exists y, (s = 48 :: 120 :: y \/ s = 48 :: 88 :: y)
                 /\ Uuid.hex_digits (match y with 95 :: y' => y' | _ => y end) 0 false = Some r)
               \/ Uuid.hex_digits s 0 false = Some r).
  { unfold parse_unsigned in H. destruct s as [|a s]; auto.
    destruct (Z.eq_dec a 48) as [->|Ha].
    - destruct s as [|b s]; auto. destruct (Z.eq_dec b 120) as [->|Hb]; [left; eauto|].
      destruct (Z.eq_dec b 88) as [->|Hb']; [left; eauto|]. right.
      destruct b as [|b|b]; auto. do 7 (destruct b as [b|b|]; auto; try congruence).
    - right. destruct a as [|a|a]; auto. do 6 (destruct a as [a|a|]; auto; try congruence). }
  destruct H1 as [(y & Hs & Hy)|H1].
  - assert (Hc : (exists y', y = 95 :: y') \/ match y with 95 :: y' => y' | _ => y end = y).
    { destruct y as [|c y]; auto. destruct (Z.eq_dec c 95) as [->|Hc]; [eauto|]. right.
      destruct c as [|c|c]; auto. do 7 (destruct c as [c|c|]; auto; try congruence). }
    destruct Hc as [(y' & ->)|Hc]; [|rewrite Hc in Hy]; apply Hd in Hy as (ds & Hds & Hr).
    + destruct Hs as [-> | ->]; [exists [48; 120; 95]|exists [48; 88; 95]]; exists ds, y';
        repeat split; auto; unfold base_prefix; cbn; tauto.
    + destruct Hs as [-> | ->]; [exists [48; 120]|exists [48; 88]]; exists ds, y;
        repeat split; auto; unfold base_prefix; cbn; tauto.
  - apply Hd in H1 as (ds & Hds & Hr). exists [], ds, s. repeat split; auto. left; auto.
Qed.

Lemma digit_text_head ds t : digit_text ds t -> exists ch t', t = ch :: t' /\ hex_any ch
  /\ match t' with [] => True | b :: _ => hex_any b \/ b = 95 end.
Proof.
  assert (Hh : forall ds t, digit_text ds t -> match t with [] => True | b :: _ => hex_any b end).
  { clear. intros ds t H. destruct H as [v ch Hd|v ch ds t Hd H|v ch ds t Hd H]; exists v; auto. }
  intros H. destruct H as [v ch Hd|v ch ds t Hd H|v ch ds t Hd H].
  - exists ch, []. repeat split; auto. exists v; auto.
  - exists ch, t. apply Hh in H. repeat split; auto; [exists v; auto|]. destruct t; auto.
  - exists ch, (95 :: t). repeat split; auto. exists v; auto.
Qed.

Lemma parse_unsigned_complete pre ds t : base_prefix pre -> digit_text ds t ->
  parse_unsigned (pre ++ t) = Some (number ds).
Proof.
  intros Hp Hd. pose proof (digits_complete _ _ Hd 0 false) as Hc. fold (number ds) in Hc.
  destruct (digit_text_head _ _ Hd) as (ch & t' & -> & Hch & Ht').
  unfold base_prefix in Hp. cbn [In] in Hp.
  assert (H95 : match ch :: t' with 95 :: y' => y' | _ => ch :: t' end = ch :: t').
  { apply hex_any_cases in Hch. cbn [In] in Hch. repeat destruct Hch as [<-|Hch]; try reflexivity. contradiction. }
  destruct Hp as [<-|[<-|[<-|[<-|[<-|[]]]]]]; cbn [app]; unfold parse_unsigned; try (rewrite H95); auto.
  apply hex_any_cases in Hch. cbn [In] in Hch.
  repeat destruct Hch as [<-|Hch]; try exact Hc; [|contradiction].
  destruct t' as [|b t']; [exact Hc|]. destruct Ht' as [Hb| ->]; [|exact Hc].
  apply hex_any_cases in Hb. cbn [In] in Hb.
  repeat destruct Hb as [<-|Hb]; try exact Hc. contradiction.
Qed.

Lemma int_base16_unfold s : int_base16 s =
  match strip is_space s with
  | 43 :: s' => parse_unsigned s'
  | 45 :: s' => match parse_unsigned s' with Some v => Some (- v) | None => None end
  | s' => parse_unsigned s'
  end.
Proof.
  unfold int_base16. set (x := strip is_space s). clearbody x.
  assert (H : forall (neg : bool) (y : list Z),
    (let '(pref, s1) := match y with
                        | 48 :: 120 :: s' | 48 :: 88 :: s' => (true, s')
                        | _ => (false, y)
                        end in
     let s2 := match pref, s1 with true, 95 :: s' => s' | _, _ => s1 end in
     match Uuid.hex_digits s2 0 false with
     | Some v => Some (if neg then - v else v)
     | None => None
     end) = match parse_unsigned y with Some v => Some (if neg then - v else v) | None => None end).
  { intros neg y. unfold parse_unsigned. lazymatch goal with |- (let '(_, _) := ?X in _) = _ => destruct X end. reflexivity. }
  assert (Hi : forall y, match parse_unsigned y with Some v => Some v | None => None end = parse_unsigned y).
  { intros y. destruct (parse_unsigned y); auto. }
  destruct x as [|a x]; [reflexivity|].
  destruct (Z.eq_dec a 43) as [->|H43]; [exact (eq_trans (H false x) (Hi x))|].
  destruct (Z.eq_dec a 45) as [->|H45]; [exact (H true x)|].
  assert (E1 : match a :: x with
               | 43 :: s' => (false, s')
               | 45 :: s' => (true, s')
               | _ => (false, a :: x)
               end = (false, a :: x)).
  { destruct a as [|a|a]; auto. do 6 (destruct a as [a|a|]; auto; try congruence). }
  assert (E2 : match a :: x with
               | 43 :: s' => parse_unsigned s'
               | 45 :: s' => match parse_unsigned s' with Some v => Some (- v) | None => None end
               | s' => parse_unsigned s'
               end = parse_unsigned (a :: x)).
  { destruct a as [|a|a]; auto. do 6 (destruct a as [a|a|]; auto; try congruence). }
  rewrite E1, E2. exact (eq_trans (H false (a :: x)) (Hi (a :: x))).
Qed.

Lemma int_base16_iff s v : int_base16 s = Some v <-> int_literal s v.
Proof.
  rewrite int_base16_unfold. split.
  - intros H. destruct (strip_split is_space s) as (l & r & Hs & Hl & Hr).
    assert (Hb : forall t, Forall (fun ch => is_space ch = true) t -> blank t)
      by (intros t Ht; eapply Forall_impl; [|exact Ht]; intros ch; apply blank_space).
    apply Hb in Hl. apply Hb in Hr. rewrite Hs. set (x := strip is_space s) in *. clearbody x.
    assert (Hcase : (exists y, x = 43 :: y /\ parse_unsigned y = Some v)
      \/ (exists y w, x = 45 :: y /\ parse_unsigned y = Some w /\ v = - w)
      \/ parse_unsigned x = Some v).
    { destruct x as [|a x]; auto.
      destruct (Z.eq_dec a 43) as [->|H43]; [left; eauto|].
      destruct (Z.eq_dec a 45) as [->|H45].
      { right. left. destruct (parse_unsigned x) as [w|] eqn:Hw; [injection H as <-; exists x, w; auto|discriminate]. }
      right. right. destruct a as [|a|a]; try exact H. do 6 (destruct a as [a|a|]; try exact H; try congruence). }
    destruct Hcase as [(y & -> & Hy)|[(y & w & -> & Hy & ->)|Hy]]; apply parse_unsigned_sound in Hy as (pre & ds & t & -> & Hp & Hd & ->).
    + apply (il_plus l [43] pre ds t r); auto. right; left; auto.
    + apply (il_minus l pre ds t r); auto.
    + apply (il_plus l [] pre ds t r); auto. left; auto.
  - assert (Hb : forall t, blank t -> Forall (fun ch => is_space ch = true) t)
      by (intros t Ht; eapply Forall_impl; [|exact Ht]; intros ch; apply blank_space).
    assert (Hsp : forall sg pre ds t, In sg [[]; [43]; [45]] -> base_prefix pre -> digit_text ds t ->
              forall l r, blank l -> blank r -> strip is_space (l ++ (sg ++ pre ++ t) ++ r) = sg ++ pre ++ t).
    { intros sg pre ds t Hsg Hp Hd l r Hl Hr. apply Hb in Hl. apply Hb in Hr.
      assert (Hx : forall ch, hex_any ch -> is_space ch = false).
      { intros ch Hch. apply hex_any_cases in Hch. cbn [In] in Hch.
        repeat destruct Hch as [<-|Hch]; try reflexivity. contradiction. }
      assert (He : (exists ch, sg ++ pre ++ t = [ch] /\ is_space ch = false)
                   \/ exists a m b, sg ++ pre ++ t = a :: m ++ [b] /\ is_space a = false /\ is_space b = false).
      { assert (He : exists m b, t = m ++ [b] /\ is_space b = false
                     /\ match m with [] => True | a :: _ => is_space a = false end).
        { destruct (digit_text_ends _ _ Hd) as [(ch & -> & Hc)|(a & m & b & -> & Ha & Hb')].
          - exists [], ch. auto.
          - exists (a :: m), b. auto. }
        destruct He as (m & b & -> & Hb' & Hm).
        assert (Hpre : match sg ++ pre with [] => True | a :: _ => is_space a = false end).
        { unfold base_prefix in Hp. cbn [In] in Hsg, Hp.
          destruct Hsg as [<-|[<-|[<-|[]]]]; destruct Hp as [<-|[<-|[<-|[<-|[<-|[]]]]]]; cbn; auto. }
        rewrite (app_assoc sg pre). destruct (sg ++ pre) as [|a q].
        - cbn [app]. destruct m as [|a m]; [left; exists b; auto|]. right. exists a, m, b. auto.
        - right. exists a, (q ++ m), b. rewrite <- app_assoc. auto. }
      destruct He as [(ch & -> & Hc)|(a & m & b & -> & Ha & Hb')].
      - apply strip_around; auto.
      - apply strip_ends; auto. }
    intros H. destruct H as [sp1 sg pre ds t sp2 H1 H2 Hsg Hp Hd|sp1 pre ds t sp2 H1 H2 Hp Hd].
    + rewrite (Hsp sg pre ds t) by (auto; cbn [In] in *; tauto).
      pose proof (parse_unsigned_complete _ _ _ Hp Hd) as Hu.
      cbn [In] in Hsg. destruct Hsg as [<-|[<-|[]]]; cbn [app]; auto.
      destruct (pre ++ t) as [|a x] eqn:Hx; auto.
      assert (Ha : hex_any a).
      { unfold base_prefix in Hp. cbn [In] in Hp.
        destruct Hp as [<-|[<-|[<-|[<-|[<-|[]]]]]]; cbn [app] in Hx;
          try (injection Hx as <- _; exists 0; apply (td_dec 0); lia).
        destruct (digit_text_head _ _ Hd) as (ch & t' & -> & Hch & _). injection Hx as -> _. auto. }
      apply hex_any_cases in Ha. cbn [In] in Ha.
      repeat destruct Ha as [<-|Ha]; try exact Hu. contradiction.
    + rewrite (Hsp [45] pre ds t) by (auto; cbn [In]; tauto). cbn [app].
      rewrite (parse_unsigned_complete _ _ _ Hp Hd). auto.
Qed.

(** The text [t] (after the prefixes) of a UUID with the number [v]: braces around 32
    characters, not counting dashes, that [int] takes. *)
Definition uuid_text (t : list Z) (v : Z) : Prop :=
  exists lb body rb, t = lb ++ body ++ rb /\ braces lb /\ braces rb
    /\ let h := filter (fun ch => negb (ch =? 45)) body in
       length h = 32%nat /\ int_literal h v /\ 0 <= v.

Lemma digit_text_short ds t : digit_text ds t -> (length ds <= length t)%nat /\ Forall (fun v => 0 <= v < 16) ds.
Proof.
  induction 1 as [v ch Hd|v ch ds t Hd H IH|v ch ds t Hd H IH]; apply text_digit_val in Hd as (_ & _ & Hr);
    cbn [length]; (split; [lia|]); constructor; auto; tauto.
Qed.

Lemma literal_bound h v : int_literal h v -> length h = 32%nat -> v < 2 ^ 128.
Proof.
  assert (Hb : forall ds t, digit_text ds t -> (length t <= 32)%nat -> 0 <= number ds < 2 ^ 128).
  { intros ds t Hd Hl. apply digit_text_short in Hd as [Hs Hf].
    pose proof (number_range ds 0 Hf ltac:(lia)) as Hn. fold (number ds) in Hn.
    assert (16 ^ zlen ds <= 16 ^ 32) by (apply Z.pow_le_mono_r; unfold zlen; lia).
    change (2 ^ 128) with (16 ^ 32). lia. }
  intros H Hl. destruct H as [sp1 sg pre ds t sp2 _ _ _ _ Hd|sp1 pre ds t sp2 _ _ _ Hd];
    rewrite !app_length in Hl; specialize (Hb ds t Hd ltac:(lia)); lia.
Qed.

Lemma literal_no_brace h v : int_literal h v -> Forall (fun ch => ch <> 123 /\ ch <> 125) h.
Proof.
  assert (Hbl : forall t, blank t -> Forall (fun ch => ch <> 123 /\ ch <> 125) t).
  { intros t Ht. eapply Forall_impl; [|exact Ht]. intros ch Hc. cbn [In] in Hc. lia. }
  assert (Hd : forall ds t, digit_text ds t -> Forall (fun ch => ch <> 123 /\ ch <> 125) t).
  { intros ds t Hd. induction Hd as [v0 ch Hc|v0 ch ds t Hc H IH|v0 ch ds t Hc H IH];
      apply text_digit_range in Hc; repeat constructor; auto; lia. }
  assert (Hp : forall p, base_prefix p -> Forall (fun ch => ch <> 123 /\ ch <> 125) p).
  { intros p Hp. unfold base_prefix in Hp. cbn [In] in Hp.
    destruct Hp as [<-|[<-|[<-|[<-|[<-|[]]]]]]; repeat constructor; lia. }
  intros H. destruct H as [sp1 sg pre ds t sp2 H1 H2 Hs H3 H4|sp1 pre ds t sp2 H1 H2 H3 H4];
    rewrite !Forall_app; repeat split; eauto.
  - cbn [In] in Hs. destruct Hs as [<-|[<-|[]]]; repeat constructor; lia.
  - repeat constructor; lia.
Qed.

Lemma filter_no_brace body : Forall (fun ch => ch <> 123 /\ ch <> 125) (filter (fun ch => negb (ch =? 45)) body) ->
  Forall (fun ch => ((ch =? 123) || (ch =? 125)) = false) body.
Proof.
  induction body as [|ch body IH]; constructor; cbn [filter] in H.
  - destruct (Z.eqb_spec ch 45) as [->|Hn]; [reflexivity|]. cbn in H. inversion H; subst. lia.
  - destruct (ch =? 45); cbn in H; [auto|]. inversion H; subst; auto.
Qed.

Lemma uuid_of_hex_iff pre t v : In pre [[]; urn_prefix; uuid_prefix; urn_prefix ++ uuid_prefix] -> ~ In 117 t ->
  (uuid_of_hex (pre ++ t) = Ok v <-> uuid_text t v).
Proof.
  intros Hp Hu. unfold uuid_of_hex.
  rewrite prefix_removed; auto.
  2:{ unfold not_u. rewrite Forall_forall. intros ch Hc. destruct (Z.eqb_spec ch 117) as [->|]; auto. contradiction. }
  unfold str_replace_empty. rewrite str_remove_dash by auto.
  set (p := fun ch => (ch =? 123) || (ch =? 125)).
  assert (Hbr : forall t, braces t <-> Forall (fun ch => p ch = true) t).
  { intros x. unfold braces. rewrite !Forall_forall. unfold p.
    split; intros H ch Hc; specialize (H ch Hc); cbv beta in *; lia. }
  split.
  - intros H. destruct (strip_split p t) as (l & r & Ht & Hl & Hr).
    exists l, (strip p t), r. rewrite !Hbr. repeat split; auto; cbv zeta.
    + destruct (zlen _ =? 32) eqn:Hlen in H; [|discriminate]. unfold zlen in Hlen. lia.
    + apply int_base16_iff. destruct (negb _) in H; [discriminate|].
      destruct (int_base16 _) as [w|]; [|discriminate].
      destruct ((0 <=? w) && (w <? 2 ^ 128)); congruence.
    + destruct (negb _) in H; [discriminate|].
      destruct (int_base16 _) as [w|]; [|discriminate].
      destruct ((0 <=? w) && (w <? 2 ^ 128)) eqn:Hw; [|discriminate]. injection H as <-. lia.
  - intros (lb & body & rb & -> & Hl & Hr & Hx). cbv zeta in Hx. destruct Hx as (Hlen & Hi & Hv).
    apply Hbr in Hl. apply Hbr in Hr.
    pose proof (filter_no_brace body (literal_no_brace _ _ Hi)) as Hb.
    rewrite (strip_around p lb body rb) by auto.
    replace (zlen (filter (fun ch => negb (ch =? 45)) body) =? 32) with true by (unfold zlen; lia). cbn [negb].
    pose proof (literal_bound _ _ Hi Hlen) as Hbd. apply int_base16_iff in Hi. rewrite Hi.
    replace ((0 <=? v) && (v <? 2 ^ 128)) with true by lia. auto.
Qed.

Lemma uuid_of_hex_raise t : (exists v, uuid_of_hex t = Ok v) \/ uuid_of_hex t = Raise EValueErr.
Proof.
  unfold uuid_of_hex. destruct (negb _); auto. destruct (int_base16 _); auto.
  destruct ((0 <=? _) && _); eauto.
Qed.

(** Every text without the letter u besides the prefixes. *)
Lemma uuid_text_exact E n c fmt ctx d pre t front suf : text_format fmt ->
  In pre [[]; urn_prefix; uuid_prefix; urn_prefix ++ uuid_prefix] -> ~ In 117 t ->
  Forall (fun ch => 0 <= ch < 128) t ->
  c_size c = SInt (zlen (pre ++ t)) -> always_present c -> c_null c = VUndefined -> c_const c = VUndefined ->
  c_validators c = [] ->
  let s := at_data front (pre ++ t) suf in let s' := after_data front (pre ++ t) suf in
  (forall v, field_from_stream E n (Field c (KUuid fmt)) ctx d s = (s', Ok (VUUID v)) <-> uuid_text t v)
  /\ ((forall v, ~ uuid_text t v) -> field_from_stream E n (Field c (KUuid fmt)) ctx d s = (s', Raise EValueErr)).
Proof.
  intros Hf Hp Hu Ha Hs Hpr Hn Hc Hv s s'.
  assert (Hd : decode Ascii (pre ++ t) = Ok (pre ++ t)).
  { apply ascii_decoded. rewrite Forall_app. split; auto. cbn [In] in Hp.
    destruct Hp as [<-|[<-|[<-|[<-|[]]]]]; repeat constructor; lia. }
  assert (Hl : forall g g0, leaf_load c (KUuid fmt) g g0 s
    = (s', match uuid_of_hex (pre ++ t) with Ok u => Ok (VUUID u) | Raise e => Raise e | OOF => OOF end)).
  { intros g g0. unfold s. rewrite (uuid_text_leaf c fmt _ _ (pre ++ t) suf _ Hf Hs (rest_at _ _ _)), advance_at.
    destruct Hf as [-> | ->]; cbn [uuid_parse]; rewrite Hd; reflexivity. }
  assert (Hr : field_from_stream E n (Field c (KUuid fmt)) ctx d s
    = (s', match uuid_of_hex (pre ++ t) with Ok u => Ok (VUUID u) | Raise e => Raise e | OOF => OOF end)).
  { destruct (uuid_of_hex_raise (pre ++ t)) as [(v & Ho)|Ho]; rewrite Ho in *.
    - apply takes_load; [|rewrite do_load_leaf by auto; apply Hl].
      unfold takes, accepts. rewrite Hv. repeat split; auto.
    - rewrite (load_fails E n c (KUuid fmt) ctx d s s' EValueErr Hpr Hn); auto. rewrite do_load_leaf by auto. apply Hl. }
  rewrite Hr. split.
  - intros v. rewrite <- (uuid_of_hex_iff pre t v Hp Hu).
    destruct (uuid_of_hex (pre ++ t)) as [u|e|]; (split; [intros [=]|intros [=]]); subst; auto; congruence.
  - intros Hno. destruct (uuid_of_hex_raise (pre ++ t)) as [(v & Ho)|Ho]; [|rewrite Ho; auto].
    apply (uuid_of_hex_iff pre t v Hp Hu) in Ho. destruct (Hno _ Ho).
Qed.
