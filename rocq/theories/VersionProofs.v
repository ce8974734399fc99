(** Version numbers (C90). *)
From Verif Require Import Tac.
From Verif Require Export SpecVersion.
Open Scope Z_scope.

Lemma dec_sound s : forall acc p r, dec_value s acc p = Some r ->
  (p = true /\ s = [] /\ r = acc)
  \/ (p = true /\ exists ds t, s = 95 :: t /\ dec_text ds t /\ r = fold_left (fun a d => a * 10 + d) ds acc)
  \/ (exists ds, dec_text ds s /\ r = fold_left (fun a d => a * 10 + d) ds acc).
Proof.
  induction s as [|ch s IH]; intros acc p r H; cbn [dec_value] in H.
  - destruct p; [injection H as <-; auto|discriminate].
  - destruct (Z.eqb_spec ch 95) as [->|Hn].
    + destruct p; [|discriminate]. right. left. split; auto.
      destruct (IH _ _ _ H) as [(Hp & _)|[(Hp & _)|(ds & Hd & Hr)]]; try discriminate. eauto.
    + destruct ((48 <=? ch) && (ch <=? 57)) eqn:Hc; [|discriminate].
      right. right. replace ch with (48 + (ch - 48)) by lia. assert (Hd0 : 0 <= ch - 48 < 10) by lia.
      destruct (IH _ _ _ H) as [(_ & -> & ->)|[(_ & ds & t & -> & Hd & ->)|(ds & Hd & ->)]];
        (eexists (ch - 48 :: _); split;
         [solve [apply dx_one; auto | apply dx_under; eauto | apply dx_more; eauto]|reflexivity]).
Qed.

Lemma dec_complete ds t : dec_text ds t -> forall acc p,
  dec_value t acc p = Some (fold_left (fun a d => a * 10 + d) ds acc).
Proof.
  induction 1 as [d Hd|d ds t Hd H IH|d ds t Hd H IH]; intros acc p; cbn [dec_value fold_left];
    replace (48 + d =? 95) with false by lia;
    replace ((48 <=? 48 + d) && (48 + d <=? 57)) with true by lia;
    replace (48 + d - 48) with d by lia; try (change (95 =? 95) with true; cbv iota); auto.
Qed.

Lemma dec_text_nonneg ds t : dec_text ds t -> 0 <= digits_value ds.
Proof.
  intros H. apply digits_nonneg. induction H; constructor; auto.
Qed.

Definition dec_char (ch : Z) : Prop := 48 <= ch <= 57.
Lemma dec_text_ends ds t : dec_text ds t ->
  (exists ch, t = [ch] /\ dec_char ch) \/ (exists a m b, t = a :: m ++ [b] /\ dec_char a /\ dec_char b).
Proof.
  unfold dec_char. induction 1 as [d Hd|d ds t Hd H IH|d ds t Hd H IH].
  - left. exists (48 + d). split; auto. lia.
  - right. destruct IH as [(x & -> & Hx)|(a & m & b & -> & Ha & Hb)].
    + exists (48 + d), [], x. repeat split; auto; lia.
    + exists (48 + d), (a :: m), b. repeat split; auto; lia.
  - right. destruct IH as [(x & -> & Hx)|(a & m & b & -> & Ha & Hb)].
    + exists (48 + d), [95], x. repeat split; auto; lia.
    + exists (48 + d), (95 :: a :: m), b. repeat split; auto; lia.
Qed.

Lemma dec_text_chars ds t : dec_text ds t -> Forall (fun ch => dec_char ch \/ ch = 95) t.
Proof. unfold dec_char. induction 1; repeat constructor; auto; lia. Qed.

Lemma dec_text_plain ds : Forall (fun d => 0 <= d < 10) ds -> ds <> [] -> dec_text ds (map (fun d => 48 + d) ds).
Proof.
  induction 1 as [|d ds Hd H IH]; intros Hne; [contradiction|]. destruct ds as [|d' ds].
  - apply dx_one; auto.
  - cbn [map]. apply dx_more; auto. apply IH. discriminate.
Qed.

Lemma sign_match (A : Type) (a : Z) (x : list Z) (f g : list Z -> A) (h : A) : a <> 43 -> a <> 45 ->
  match a :: x with 43 :: s' => f s' | 45 :: s' => g s' | _ => h end = h.
Proof.
  intros H1 H2. destruct a as [|a|a]; auto. do 6 (destruct a as [a|a|]; auto; try congruence).
Qed.

Lemma int_base10_iff s v : ~ In 45 s -> int_base10 s = Ok v <-> numeric v s.
Proof.
  intros Hm. split.
  - intros H. destruct (strip_split is_space s) as (l & r & Hs & Hl & Hr).
    assert (Hb : forall t, Forall (fun ch => is_space ch = true) t -> blank t)
      by (intros t Ht; eapply Forall_impl; [|exact Ht]; intros ch; apply blank_space).
    apply Hb in Hl. apply Hb in Hr. unfold int_base10 in H. set (x := strip is_space s) in *. clearbody x. subst s.
    assert (Hd : forall y, dec_value y 0 false = Some v -> exists ds, dec_text ds y /\ v = digits_value ds).
    { intros y Hy. destruct (dec_sound _ _ _ _ Hy) as [(Hp & _)|[(Hp & _)|K]]; try discriminate. exact K. }
    destruct x as [|a x]; [discriminate|].
    destruct (Z.eq_dec a 43) as [->|H43].
    + destruct (dec_value x 0 false) as [w|] eqn:E; [|discriminate]. injection H as ->.
      destruct (Hd _ E) as (ds & Hx & ->). apply (numeric_piece l [43] ds x r); auto. cbn; auto.
    + assert (H45 : a <> 45).
      { intros ->. apply Hm. rewrite !in_app_iff. right. left. left. auto. }
      rewrite (sign_match _ a x (fun s' => (false, s')) (fun s' => (true, s')) (false, a :: x) H43 H45) in H.
      destruct (dec_value (a :: x) 0 false) as [w|] eqn:E; [|discriminate]. injection H as ->.
      destruct (Hd _ E) as (ds & Hx & ->). apply (numeric_piece l [] ds (a :: x) r); auto. cbn; auto.
  - intros H. destruct H as [sp1 sg ds t sp2 H1 H2 Hsg Ht].
    assert (Hb : forall t, blank t -> Forall (fun ch => is_space ch = true) t)
      by (intros u Hu; eapply Forall_impl; [|exact Hu]; intros ch; apply blank_space).
    assert (Hst : strip is_space (sp1 ++ (sg ++ t) ++ sp2) = sg ++ t).
    { assert (Hx : forall ch, dec_char ch -> is_space ch = false) by (unfold dec_char, is_space; intros; lia).
      assert (He : (exists ch, sg ++ t = [ch] /\ is_space ch = false)
                   \/ exists a m b, sg ++ t = a :: m ++ [b] /\ is_space a = false /\ is_space b = false).
      { cbn [In] in Hsg. destruct (dec_text_ends _ _ Ht) as [(ch & -> & Hch)|(a & m & b & -> & Ha & Hb')].
        - destruct Hsg as [<-|[<-|[]]]; [left; exists ch; split; [reflexivity|apply Hx; exact Hch]|right]. exists 43, [], ch. auto.
        - right. destruct Hsg as [<-|[<-|[]]]; [exists a, m, b; auto|]. exists 43, (a :: m), b. auto. }
      destruct He as [(ch & -> & Hch)|(a & m & b & -> & Ha & Hb')].
      - apply strip_around; auto.
      - change (sp1 ++ (a :: m ++ [b]) ++ sp2) with (sp1 ++ a :: (m ++ [b]) ++ sp2).
        apply strip_ends; auto. }
    unfold int_base10. rewrite Hst. clear Hst.
    pose proof (dec_complete _ _ Ht 0 false) as Hc. fold (digits_value ds) in Hc.
    cbn [In] in Hsg. destruct Hsg as [<-|[<-|[]]]; cbn [app].
    + destruct (dec_text_ends _ _ Ht) as [(ch & -> & Hch)|(a & m & b & -> & Ha & Hb')]; unfold dec_char in *;
        rewrite sign_match by lia; rewrite Hc; reflexivity.
    + rewrite Hc. reflexivity.
Qed.

Lemma partition_spec s b a : Version.partition 45 s = (b, a) -> ~ In 45 b /\ (s = b /\ a = [] \/ s = b ++ 45 :: a).
Proof.
  revert b a. induction s as [|ch s IH]; intros b a H; cbn [Version.partition] in H.
  - injection H as <- <-. auto.
  - destruct (Z.eqb_spec ch 45) as [->|Hn].
    + injection H as <- <-. auto.
    + destruct (Version.partition 45 s) as [b' a']. injection H as <- <-. destruct (IH b' a' eq_refl) as [H1 H2].
      split; [cbn [In]; intros [E|E]; auto|]. destruct H2 as [[-> ->]| ->]; auto.
Qed.

Lemma partition_at b a : ~ In 45 b -> Version.partition 45 (b ++ 45 :: a) = (b, a).
Proof.
  induction b as [|ch b IH]; intros H; cbn [app Version.partition]; auto.
  cbn [In] in H. replace (ch =? 45) with false by lia. rewrite IH by tauto. auto.
Qed.

Lemma partition_none b : ~ In 45 b -> Version.partition 45 b = (b, []).
Proof.
  induction b as [|ch b IH]; intros H; cbn [Version.partition]; auto.
  cbn [In] in H. replace (ch =? 45) with false by lia. rewrite IH by tauto. auto.
Qed.

Lemma split_spec s p ps : Version.split 46 s = (p, ps) -> s = p ++ concat (map (cons 46) ps) /\ Forall (fun t => ~ In 46 t) (p :: ps).
Proof.
  revert p ps. induction s as [|ch s IH]; intros p ps H; cbn [Version.split] in H.
  - injection H as <- <-. auto.
  - destruct (Version.split 46 s) as [p' ps']. destruct (IH p' ps' eq_refl) as [-> HF].
    destruct (Z.eqb_spec ch 46) as [->|Hn]; injection H as <- <-.
    + split; [reflexivity|]. constructor; auto.
    + split; [reflexivity|]. inversion HF; subst. constructor; auto. cbn [In]. intros [E|E]; auto.
Qed.

Lemma split_one p : ~ In 46 p -> Version.split 46 p = (p, []).
Proof.
  induction p as [|ch p IH]; intros H; cbn [Version.split]; auto. cbn [In] in H. rewrite IH by tauto.
  replace (ch =? 46) with false by lia. auto.
Qed.

Lemma split_dot p s : ~ In 46 p -> Version.split 46 (p ++ 46 :: s) = let '(q, qs) := Version.split 46 s in (p, q :: qs).
Proof.
  induction p as [|ch p IH]; intros H; cbn [app Version.split].
  - destruct (Version.split 46 s). reflexivity.
  - cbn [In] in H. rewrite IH by tauto. destruct (Version.split 46 s). replace (ch =? 46) with false by lia. auto.
Qed.

Lemma numeric_chars v t : numeric v t -> ~ In 45 t /\ ~ In 46 t /\ 0 <= v.
Proof.
  intros H. destruct H as [sp1 sg ds t sp2 H1 H2 Hsg Ht].
  assert (Hn : forall ch, ch = 45 \/ ch = 46 -> ~ In ch (sp1 ++ (sg ++ t) ++ sp2)).
  { intros ch Hch. pose proof (dec_text_chars _ _ Ht) as Hd. rewrite !in_app_iff.
    unfold blank, dec_char in *. rewrite Forall_forall in *.
    intros [Hi|[[Hi|Hi]|Hi]].
    - apply H1 in Hi. cbn [In] in Hi. lia.
    - cbn [In] in Hsg. destruct Hsg as [<-|[<-|[]]]; cbn [In] in Hi; lia.
    - apply Hd in Hi. lia.
    - apply H2 in Hi. cbn [In] in Hi. lia. }
  split; [apply Hn; auto|]. split; [apply Hn; auto|]. eapply dec_text_nonneg; eauto.
Qed.

Lemma numbers_minus a b c t : numbers a b c t -> ~ In 45 t.
Proof.
  intros H. destruct H as [a b ta tb Ha Hb|a b c ta tb tc Ha Hb Hc|a b c ta tb tc rest Ha Hb Hc Hr];
    repeat match goal with H : numeric _ _ |- _ => apply numeric_chars in H as (? & ? & _) end;
    repeat (rewrite in_app_iff || cbn [In]); intuition discriminate.
Qed.

(** The text in front of the suffix. *)
Definition base_of (base : list Z) : res (Z * Z * Z) :=
  match Version.split 46 base with
  | (_, []) => Raise EValueErr
  | (ma, mi :: possibly_patch) =>
    let pa := match possibly_patch with p :: _ => p | [] => [48] end in
    do ma <- int_base10 ma;
    do mi <- int_base10 mi;
    do pa <- int_base10 pa;
    Ok (ma, mi, pa)
  end.

Lemma base_iff base a b c : ~ In 45 base -> base_of base = Ok (a, b, c) <-> numbers a b c base.
Proof.
  intros Hm. split.
  - unfold base_of. destruct (Version.split 46 base) as [ma [|mi ps]] eqn:Hs; [discriminate|].
    apply split_spec in Hs as [-> HF]. cbn [map concat] in Hm.
    assert (Hma : ~ In 45 ma) by (intros Hi; apply Hm; apply in_or_app; auto).
    assert (Hmi : ~ In 45 mi) by (intros Hi; apply Hm; apply in_or_app; right; apply in_or_app; left; right; auto).
    destruct (int_base10 ma) as [x|x|] eqn:E1; try discriminate.
    destruct (int_base10 mi) as [y|y|] eqn:E2; try discriminate. cbn [bind].
    apply int_base10_iff in E1; auto. apply int_base10_iff in E2; auto.
    destruct ps as [|p ps].
    + cbn. intros [= <- <- <-]. rewrite app_nil_r. constructor; auto.
    + cbn [map concat] in Hm |- *.
      destruct (int_base10 p) as [z|z|] eqn:E3; try discriminate. cbn [bind]. intros [= <- <- <-].
      assert (Hp : ~ In 45 p).
      { intros Hi. apply Hm. apply in_or_app; right. apply in_or_app; right. apply in_or_app; left; right; auto. }
      apply int_base10_iff in E3; auto. rewrite <- !app_comm_cons.
      destruct ps as [|q ps]; cbn [map concat].
      * rewrite app_nil_r. apply numbers_three; auto.
      * rewrite <- app_comm_cons. apply numbers_more; auto. intros Hi. apply Hm. cbn [map concat].
        apply in_or_app; right. apply in_or_app; right. apply in_or_app; right. right. auto.
  - intros H. unfold base_of. destruct H as [a b ta tb Ha Hb|a b c ta tb tc Ha Hb Hc|a b c ta tb tc rest Ha Hb Hc Hr];
    repeat match goal with H : numeric _ _ |- _ =>
      let H1 := fresh in pose proof H as H1; apply numeric_chars in H1 as (? & ? & _);
      apply int_base10_iff in H; [|assumption] end;
    repeat rewrite split_dot by assumption; rewrite ?split_one by assumption; try (destruct (Version.split 46 rest));
      repeat match goal with H : int_base10 _ = _ |- _ => rewrite H; clear H end; reflexivity.
Qed.

Lemma of_string_base s : version_of_string s =
  let '(base, suf) := Version.partition 45 s in
  do n <- base_of base;
  let '(a, b, c) := n in Ok (mkVersion a b c (match suf with [] => None | _ => Some suf end)).
Proof.
  unfold version_of_string, base_of. destruct (Version.partition 45 s) as [base suf].
  destruct (Version.split 46 base) as [ma [|mi ps]]; [reflexivity|]. cbv zeta.
  destruct (int_base10 ma); cbn [bind]; auto. destruct (int_base10 mi); cbn [bind]; auto.
  destruct (int_base10 _); reflexivity.
Qed.

Lemma version_parsed s v : version_of_string s = Ok v <-> spells s v.
Proof.
  rewrite of_string_base. split.
  - destruct (Version.partition 45 s) as [base suf] eqn:Hp. apply partition_spec in Hp as [Hm Hs].
    destruct (base_of base) as [[[a b] c]|x|] eqn:Hb; try discriminate. cbn [bind]. intros [= <-].
    apply base_iff in Hb; auto. unfold spells. cbn [major minor patch suffix].
    destruct Hs as [[-> ->]| ->].
    + exists base, []. rewrite app_nil_r. repeat split; auto. constructor.
    + exists base, (45 :: suf). split; auto. split; auto. destruct suf; constructor. discriminate.
  - intros (base & e & -> & Hn & He). destruct v as [a b c sf]. cbn [major minor patch suffix] in *.
    pose proof (numbers_minus _ _ _ _ Hn) as Hm. pose proof (proj2 (base_iff _ _ _ _ Hm) Hn) as Hb.
    destruct He as [| |sf Hne].
    + rewrite app_nil_r, partition_none by auto. rewrite Hb. reflexivity.
    + rewrite partition_at by auto. rewrite Hb. reflexivity.
    + rewrite partition_at by auto. rewrite Hb. cbn [bind]. destruct sf; [contradiction|reflexivity].
Qed.

Lemma int_total t : (exists v, int_base10 t = Ok v) \/ int_base10 t = Raise EValueErr.
Proof.
  unfold int_base10. destruct (match strip is_space t with 43 :: s' => _ | 45 :: s' => _ | _ => _ end) as [ng y].
  destruct (dec_value y 0 false); eauto.
Qed.

Lemma version_total s : (exists v, version_of_string s = Ok v) \/ version_of_string s = Raise EValueErr.
Proof.
  unfold version_of_string. destruct (Version.partition 45 s) as [base suf].
  destruct (Version.split 46 base) as [ma [|mi ps]]; auto.
  destruct (int_total ma) as [[a ->]| ->]; auto. destruct (int_total mi) as [[b ->]| ->]; auto. cbn [bind]. cbv zeta.
  destruct (int_total (match ps with p :: _ => p | [] => [48] end)) as [[c ->]| ->]; auto. cbn [bind]. eauto.
Qed.

Lemma version_refused s e : version_of_string s = Raise e <-> e = EValueErr /\ ~ exists v, spells s v.
Proof.
  split.
  - intros H. split; [|intros [v Hv]; apply version_parsed in Hv; congruence].
    destruct (version_total s) as [[v Hv]|Hv]; congruence.
  - intros [-> Hn]. destruct (version_total s) as [[v Hv]|Hv]; auto.
    exfalso. apply Hn. exists v. apply version_parsed. auto.
Qed.

Lemma decimal_numeric z t : 0 <= z -> decimal z t -> numeric z t.
Proof.
  intros Hz Ht. destruct Ht as [z ds _ Hn|z ds Hneg Hn]; [|lia].
  destruct Hn as (H1 & H2 & H3 & _). subst z.
  replace (map (fun d => 48 + d) ds) with ([] ++ ([] ++ map (fun d => 48 + d) ds) ++ []) by (rewrite app_nil_r; reflexivity).
  apply numeric_piece; try (constructor; fail); [left; auto|]. apply dec_text_plain; auto.
Qed.

Lemma version_written v : proper v -> written v (version_text v).
Proof.
  intros (H1 & H2 & H3 & H4). exists (int_text (major v)), (int_text (minor v)), (int_text (patch v)).
  exists (match suffix v with Some (ch :: s) => 45 :: ch :: s | _ => [] end).
  repeat (split; [apply int_text_decimal|]).
  unfold version_text. destruct (suffix v) as [[|ch s]|]; [contradiction| |].
  - split; [constructor; discriminate|]. split; [discriminate|]. cbn [app]. rewrite <- !app_assoc. cbn [app]. rewrite <- app_assoc. reflexivity.
  - split; [constructor|]. split; [discriminate|]. cbn [app]. rewrite app_nil_r. reflexivity.
Qed.

Lemma written_spells v t : proper v -> written v t -> spells t v.
Proof.
  intros (H1 & H2 & H3 & _) (a & b & c & e & Ha & Hb & Hc & He & _ & ->).
  exists (a ++ 46 :: b ++ 46 :: c), e. split; [rewrite <- !app_assoc; cbn [app]; rewrite <- !app_assoc; reflexivity|].
  split; auto. apply numbers_three; apply decimal_numeric; auto.
Qed.

Lemma version_round v : proper v -> version_of_string (version_text v) = Ok v.
Proof. intros H. apply version_parsed, written_spells, version_written; auto. Qed.

Lemma numbers_nonneg a b c t : numbers a b c t -> 0 <= a /\ 0 <= b /\ 0 <= c.
Proof.
  intros H. destruct H; repeat match goal with H : numeric _ _ |- _ => apply numeric_chars in H as (_ & _ & ?) end; lia.
Qed.

Lemma parsed_proper s v : version_of_string s = Ok v -> proper v.
Proof.
  intros H. apply version_parsed in H as (base & e & _ & Hn & He). apply numbers_nonneg in Hn as (? & ? & ?).
  unfold proper. repeat (split; auto). destruct He; congruence.
Qed.

Lemma version_normal s v : version_of_string s = Ok v -> version_of_string (version_text v) = Ok v.
Proof. intros H. apply version_round. eapply parsed_proper; eauto. Qed.

Lemma version_text_one v w : proper v -> proper w -> version_text v = version_text w -> v = w.
Proof. intros Hv Hw H. apply version_round in Hv, Hw. rewrite H in Hv. congruence. Qed.
