(** Proofs about [repr] of structs and what fields and classes tell (C97). *)
From Coq Require Import String Ascii List Lia.
From Verif Require Import Tac SpecIntrospect MessageProofs UuidProofs EndsProofs FieldMore.
Open Scope list_scope.
Open Scope Z_scope.

Lemma lit_inj a b : lit a = lit b -> a = b.
Proof.
  unfold lit. revert b. induction a as [|x a IH]; intros [|y b] H; try discriminate; [reflexivity|].
  cbn [list_ascii_of_string map] in H. injection H as Hx Ha. apply Nat2Z.inj in Hx.
  apply (f_equal ascii_of_nat) in Hx. rewrite !ascii_nat_embedding in Hx. rewrite Hx, (IH _ Ha). reflexivity.
Qed.

(** ** What is shown *)

Lemma escape_byte_denotes q ch t s : q = 34 \/ q = 39 -> 0 <= ch < 256 -> denotes q t s ->
  denotes q (escape_byte q ch ++ t) (ch :: s).
Proof.
  intros Hq Hc H. unfold escape_byte.
  destruct (Z.eqb_spec ch q) as [->|H1]; cbn [orb]; [apply dn_itself; auto; destruct Hq; auto|].
  destruct (Z.eqb_spec ch 92) as [->|H2]; cbn [app]; [apply dn_itself; auto|].
  destruct (Z.eqb_spec ch 9) as [->|H3]; [apply dn_tab; auto|].
  destruct (Z.eqb_spec ch 10) as [->|H4]; [apply dn_newline; auto|].
  destruct (Z.eqb_spec ch 13) as [->|H5]; [apply dn_return; auto|].
  destruct ((ch <? 32) || (127 <=? ch)) eqn:E; cbn [app].
  - pose proof (dn_hex q _ _ _ _ t s (hex_digit_value (ch / 16) ltac:(dmlia)) (hex_digit_value (ch mod 16) ltac:(dmlia)) H) as Hd.
    replace (16 * (ch / 16) + ch mod 16) with ch in Hd by dmlia. exact Hd.
  - apply dn_plain; auto. lia.
Qed.

Lemma repr_bytes_literal s : Forall (fun b => 0 <= b < 256) s -> exists t, literal s t /\ repr_bytes s = lit "b" ++ t.
Proof.
  intros H. assert (Hq : quote_for s = 34 \/ quote_for s = 39) by (unfold quote_for; destruct (_ && _); auto).
  eexists. split; [|reflexivity]. unfold repr_bytes. set (q := quote_for s) in *. clearbody q.
  apply literal_for; auto. induction H as [|ch s Hc Hs IH]; [constructor|]. cbn [flat_map]. apply escape_byte_denotes; auto.
Qed.

Lemma join_map {A} sep (f : A -> text) a b l : join sep (map f (a :: b :: l)) = f a ++ sep ++ join sep (map f (b :: l)).
Proof. reflexivity. Qed.

Section Show.
Variable qualname : nat -> text.
Variable other : value -> text.
Notation shows := (shows qualname).
Notation items := (items qualname).
Notation pairs := (pairs qualname).
Notation arguments := (arguments qualname).

Lemma uuid_str_ascii u : ascii_text (uuid_str u).
Proof.
  eapply Forall_impl; [|apply uuid_str_hexdash]. intros ch H. cbn beta in H |- *.
  unfold is_hexl in H. lia.
Qed.

Lemma repr_shows v : showable qualname v -> shows v (repr_value qualname other v).
Proof.
  induction v as [v Hv|l IH|l IH|d IH|cid d IH] using value_induct; intros H.
  - destruct v; try contradiction; inversion H; subst; cbn [repr_value]; try constructor; auto using int_text_decimal, repr_literal, uuid_str_ascii.
    apply (repr_bytes_literal bs) in H1 as (t & Ht & E). injection E as <-. exact Ht.
  - inversion H as [| | | | | | | |l' Hl| |]; subst. cbn [repr_value]. constructor. clear H.
    induction Hl as [|v l Hv Hl IHl]; [constructor|]. inversion IH; subst. specialize (IHl H2).
    destruct l as [|w l]; [constructor; auto|]. cbn [map join] in *. constructor; auto.
  - inversion H.
  - inversion H as [| | | | | | | | |d' Hl|]; subst. cbn [repr_value]. constructor. clear H.
    induction Hl as [|[k v] l [Hk Hv] Hl IHl]; [constructor|]. inversion IH; subst. specialize (IHl H2). cbn [fst snd] in *.
    destruct l as [|w l]; [constructor; auto using repr_literal|].
    rewrite join_map. cbn [fst snd]. rewrite <- !app_assoc. constructor; auto using repr_literal.
  - inversion H as [| | | | | | | | | |cid' d' Hc Hl]; subst. cbn [repr_value]. unfold repr_struct. constructor; [auto|]. clear H.
    rewrite map_map. cbn [fst snd]. induction Hl as [|[k v] l [Hk Hv] Hl IHl]; [constructor|]. inversion IH; subst. specialize (IHl H2). cbn [fst snd] in *.
    destruct l as [|w l]; [constructor; auto|].
    rewrite join_map. cbn [fst snd]. rewrite <- !app_assoc. constructor; auto.
Qed.

(** ** Reading it back *)

(** What may follow a value. *)
Definition stop (r : text) : Prop := match r with [] => True | ch :: _ => ch = 44 \/ ch = 41 \/ ch = 93 \/ ch = 125 end.

Definition quote (ch : Z) : bool := (ch =? 34) || (ch =? 39).
Definition stopb (r : text) : bool := match r with [] => true | ch :: _ => (ch =? 44) || (ch =? 41) || (ch =? 93) || (ch =? 125) end.

(** The kind of value a text starts with. *)
Definition begins (p t : text) (k : text -> bool) : bool := match starts_with p t with Some r => k r | None => false end.

Definition tag (t : text) : Z :=
  if begins [34] t (fun _ => true) || begins [39] t (fun _ => true) then 1
  else if match t with ch :: _ => (ch =? 45) || ((48 <=? ch) && (ch <=? 57)) | [] => false end then 2
  else if begins [91] t (fun _ => true) then 3
  else if begins [123] t (fun _ => true) then 4
  else if begins [60; 95; 85] t (fun _ => true) then 5
  else if begins [60; 95; 68] t (fun _ => true) then 6
  else if begins [60; 95; 78] t (fun _ => true) then 7
  else if begins [98; 34] t (fun _ => true) || begins [98; 39] t (fun _ => true) then 8
  else if begins [78; 111; 110; 101] t stopb then 9
  else if begins [85; 85; 73; 68; 40; 34] t (fun _ => true) || begins [85; 85; 73; 68; 40; 39] t (fun _ => true) then 10
  else 0.

Definition tag_of (v : value) : Z :=
  match v with
  | VStr _ => 1 | VInt _ => 2 | VList _ => 3 | VDict _ => 4 | VUndefined => 5 | VDefault => 6
  | VNotPresent => 7 | VBytes _ => 8 | VNone => 9 | VUUID _ => 10 | _ => 0
  end.

Lemma begins_some p t k : begins p t k = true -> exists r, t = p ++ r /\ k r = true.
Proof.
  unfold begins. destruct (starts_with p t) as [r|] eqn:E; [|discriminate]. intros H. exists r. split; [|auto].
  revert t E. induction p as [|x p IH]; intros [|y t] E; cbn in E |- *; try congruence; try discriminate.
  destruct (Z.eqb_spec x y) as [->|]; [|discriminate]. f_equal. apply IH, E.
Qed.

Lemma literal_head s t : literal s t -> exists q t', t = q :: t' /\ (q = 34 \/ q = 39).
Proof. intros [q t' Hq _]. eauto. Qed.

Lemma decimal_head z t : decimal z t -> exists ch t', t = ch :: t' /\ (ch = 45 \/ 48 <= ch <= 57).
Proof.
  intros [z' ds Hz (Hf & Hv & Hne & _)|z' ds Hz (Hf & Hv & Hne & _)]; [|eauto].
  destruct ds as [|d ds]; [contradiction|]. inversion Hf; subst. cbn [map]. eexists _, _. split; [reflexivity|lia].
Qed.

Lemma stop_stopb r : stop r -> stopb r = true.
Proof. destruct r; cbn; [auto|]. intros; lia. Qed.

Lemma arguments_head d t : arguments d t -> t = [] \/ exists ch t', t = ch :: t' /\ letter ch.
Proof. intros [|k v u (ch & t' & -> & Hc & _)|k v u w l x (ch & t' & -> & Hc & _)]; cbn [app]; eauto. Qed.

Lemma not_begins p t k : (forall r, t = p ++ r -> k r = true -> False) -> begins p t k = false.
Proof. intros H. destruct (begins p t k) eqn:E; [|reflexivity]. apply begins_some in E as (r & -> & Hk). destruct (H r); auto. Qed.

Definition special (c : Z) : Prop := In c [34; 39; 40; 41; 44; 61; 91; 93; 123; 125].

Lemma ident_chars t : ident t -> Forall (fun c => ~ special c) t /\ exists ch t', t = ch :: t' /\ letter ch.
Proof.
  intros (ch & t' & -> & Hc & Ht). split; [|eauto]. constructor; [|auto].
  unfold letter in Hc. intros H. unfold special in H. cbn in H. lia.
Qed.

(** A name, an opening parenthesis and something else do not begin with [p]. *)
Lemma name_not p x k n : Forall (fun c => ~ special c) n -> Forall (fun c => c <> 40) p ->
  (forall r, k (40 :: r) = false) -> (forall c r, k (c :: r) = true -> special c) ->
  begins p (n ++ 40 :: x) k = false.
Proof.
  intros Hn Hp H40 Hk. apply not_begins. intros r He Hkr.
  apply app_eq_app in He as (l & [[-> ->]|[-> H0]]).
  - destruct l as [|c l]; cbn [app] in Hkr; [rewrite H40 in Hkr; discriminate|].
    apply Hk in Hkr. apply Forall_app in Hn as [_ Hn]. inversion Hn; auto.
  - destruct l as [|c l].
    + cbn [app] in *. subst r. rewrite H40 in Hkr. discriminate.
    + injection H0 as <- _. apply Forall_app in Hp as [_ Hp]. inversion Hp; congruence.
Qed.
Lemma shows_tag v t r : shows v t -> stop r -> tag (t ++ r) = tag_of v.
Proof.
  intros H Hr. destruct H as [| | | |z t Hd|s t Hl|s t Hl|u t Hu Hl|l t Hi|d t Hi|cid d t Hn Ha].
  - transitivity (if stopb r then 9 else 0); [reflexivity|]. rewrite stop_stopb by auto. reflexivity.
  - reflexivity.
  - reflexivity.
  - reflexivity.
  - destruct (decimal_head _ _ Hd) as (ch & t' & -> & Hc). cbn [app tag_of]. unfold tag, begins. cbn [starts_with].
    destruct (Z.eqb_spec 34 ch); [lia|]. destruct (Z.eqb_spec 39 ch); [lia|]. replace ((ch =? 45) || _) with true by lia. reflexivity.
  - destruct (literal_head _ _ Hl) as (q & t' & -> & [-> | ->]); reflexivity.
  - destruct (literal_head _ _ Hl) as (q & t' & -> & [-> | ->]); reflexivity.
  - destruct (literal_head _ _ Hl) as (q & t' & -> & [-> | ->]); reflexivity.
  - reflexivity.
  - reflexivity.
  - destruct (ident_chars _ Hn) as (Hs & ch & n' & Hq & Hc). rewrite <- !app_assoc. cbn [tag_of].
    change (lit "(" ++ t ++ lit ")" ++ r) with (40 :: t ++ lit ")" ++ r).
    set (x := t ++ lit ")" ++ r).
    assert (Hx : exists c y, x = c :: y /\ c <> 34 /\ c <> 39).
    { unfold x. destruct (arguments_head _ _ Ha) as [->|(c & y & -> & Hy)]; [exists 41; eexists; split; [reflexivity|lia]|].
      eexists _, _. split; [reflexivity|]. unfold letter in Hy. lia. }
    assert (Hq1 : forall p k, hd 0 p <> ch -> p <> [] -> begins p (qualname cid ++ 40 :: x) k = false).
    { intros p k Hp Hne. apply not_begins. rewrite Hq. intros r' He _. destruct p; [congruence|]. injection He. cbn in Hp. congruence. }
    unfold letter in Hc. unfold tag. rewrite !(Hq1 [_]), !(Hq1 [60; _; _]) by (first [discriminate|cbn; lia]).
    cbn [orb]. rewrite Hq at 1. cbn [app]. replace ((ch =? 45) || _) with false by lia.
    assert (Hb : forall p, In p [[98; 34]; [98; 39]] -> begins p (qualname cid ++ 40 :: x) (fun _ => true) = false).
    { intros p Hp. apply not_begins. intros r' He _. rewrite Hq in He. destruct n' as [|c n'].
      - destruct Hp as [<-|[<-|[]]]; discriminate.
      - rewrite Hq in Hs. inversion Hs as [|? ? _ Hs']. inversion Hs' as [|? ? Hcs _]. apply Hcs. unfold special.
        destruct Hp as [<-|[<-|[]]]; injection He as _ -> _; cbn; auto. }
    rewrite !Hb by (cbn; auto). cbn [orb].
    rewrite (name_not [78; 111; 110; 101]); auto.
    2: repeat constructor; lia. 2: { intros c y Hy. unfold stopb in Hy. unfold special. cbn. lia. }
    assert (Hu : forall q, q = 34 \/ q = 39 -> begins [85; 85; 73; 68; 40; q] (qualname cid ++ 40 :: x) (fun _ => true) = false).
    { intros q Hq2. apply not_begins. intros r' He _. change ([85; 85; 73; 68; 40; q] ++ r') with ([85; 85; 73; 68] ++ 40 :: q :: r') in He.
      destruct Hx as (c & y & Hx & Hx1 & Hx2). rewrite Hx in He.
      apply app_eq_app in He as (l & [[Hl He]|[Hl He]]).
      - destruct l as [|d' l]; [injection He as -> _; lia|]. injection He as <- _. rewrite Hl in Hs.
        apply Forall_app in Hs as [_ Hs]. inversion Hs as [|? ? Hcs _]. apply Hcs. unfold special. cbn. auto.
      - destruct l as [|d' l]; [injection He as -> _; lia|]. injection He as <- _.
        assert (Hin : In 40 [85; 85; 73; 68]) by (rewrite Hl; apply in_or_app; right; left; reflexivity). cbn in Hin. lia. }
    rewrite !Hu by auto. reflexivity.
Qed.

Lemma shows_head v t : shows v t -> exists ch t', t = ch :: t' /\ ch <> 41 /\ ch <> 44 /\ ch <> 93 /\ ch <> 125.
Proof.
  intros [| | | |z t' Hd|s t' Hl|s t' Hl|u t' Hu Hl|l t' Hi|d t' Hi|cid d t' (ch & n & Hq & Hc & Hn) Ha];
    try (eexists _, _; split; [reflexivity|repeat split; discriminate]).
  - destruct (decimal_head _ _ Hd) as (ch & t2 & -> & Hc). eexists _, _. split; [reflexivity|lia].
  - destruct (literal_head _ _ Hl) as (q & t2 & -> & Hq). eexists _, _. split; [reflexivity|lia].
  - rewrite Hq. eexists _, _. split; [reflexivity|]. unfold letter in Hc. lia.
Qed.

Lemma split_at c : forall a b (x y : text), ~ In c a -> ~ In c b -> a ++ c :: x = b ++ c :: y -> a = b /\ x = y.
Proof.
  induction a as [|h a IH]; intros [|k b] x y Ha Hb He; cbn [app] in He.
  - injection He as ->. auto.
  - injection He as -> _. destruct Hb. left. reflexivity.
  - injection He as <- _. destruct Ha. left. reflexivity.
  - injection He as -> He. destruct (IH b x y) as (-> & ->); auto; intros H; [apply Ha|apply Hb]; right; auto.
Qed.

Lemma ident_not c t : ident t -> special c -> ~ In c t.
Proof. intros H Hc Hi. apply ident_chars in H as (H & _). rewrite Forall_forall in H. apply (H c); auto. Qed.

Hypothesis qualname_inj : forall c1 c2, qualname c1 = qualname c2 -> c1 = c2.

Scheme shows_ind2 := Induction for SpecIntrospect.shows Sort Prop
with items_ind2 := Induction for SpecIntrospect.items Sort Prop
with pairs_ind2 := Induction for SpecIntrospect.pairs Sort Prop
with arguments_ind2 := Induction for SpecIntrospect.arguments Sort Prop.
Combined Scheme shows_mutual from shows_ind2, items_ind2, pairs_ind2, arguments_ind2.

Definition one_reading (v : value) (t : text) : Prop :=
  forall v2 t2 r1 r2, shows v2 t2 -> stop r1 -> stop r2 -> t ++ r1 = t2 ++ r2 -> v = v2 /\ t = t2 /\ r1 = r2.

Lemma uuid_str_inj u v : 0 <= u < 2 ^ 128 -> 0 <= v < 2 ^ 128 -> uuid_str u = uuid_str v -> u = v.
Proof.
  intros Hu Hv H. pose proof (uuid_parse_dump CANONICAL_STRING u Hu) as H1. pose proof (uuid_parse_dump CANONICAL_STRING v Hv) as H2.
  cbn [uuid_dump] in H1, H2. rewrite H in H1. congruence.
Qed.

Lemma one_reading_all :
  (forall v t, shows v t -> one_reading v t)
  /\ (forall l t, items l t -> forall l2 t2 r1 r2, items l2 t2 -> t ++ 93 :: r1 = t2 ++ 93 :: r2 -> l = l2 /\ t = t2 /\ r1 = r2)
  /\ (forall d t, pairs d t -> forall d2 t2 r1 r2, pairs d2 t2 -> t ++ 125 :: r1 = t2 ++ 125 :: r2 -> d = d2 /\ t = t2 /\ r1 = r2)
  /\ (forall d t, arguments d t -> forall d2 t2 r1 r2, arguments d2 t2 -> t ++ 41 :: r1 = t2 ++ 41 :: r2 -> d = d2 /\ t = t2 /\ r1 = r2).
Proof.
  assert (Hnd : forall r, stop r -> ~ digit_first r).
  { intros r Hr (d & r' & -> & Hd). unfold stop in Hr. lia. }
  assert (Htag : forall v1 t1 v2 t2 r1 r2, shows v1 t1 -> shows v2 t2 -> stop r1 -> stop r2 -> t1 ++ r1 = t2 ++ r2 -> tag_of v1 = tag_of v2).
  { intros v1 t1 v2 t2 r1 r2 H1 H2 Hr1 Hr2 He. rewrite <- (shows_tag _ _ r1 H1 Hr1), He. apply shows_tag; auto. }
  apply shows_mutual; unfold one_reading.
  - intros v2 t2 r1 r2 H2 Hr1 Hr2 He. pose proof (Htag _ _ _ _ _ _ (sh_none _) H2 Hr1 Hr2 He) as Ht.
    destruct H2; try discriminate Ht. apply app_inv_head in He. auto.
  - intros v2 t2 r1 r2 H2 Hr1 Hr2 He. pose proof (Htag _ _ _ _ _ _ (sh_undefined _) H2 Hr1 Hr2 He) as Ht.
    destruct H2; try discriminate Ht. apply app_inv_head in He. auto.
  - intros v2 t2 r1 r2 H2 Hr1 Hr2 He. pose proof (Htag _ _ _ _ _ _ (sh_default _) H2 Hr1 Hr2 He) as Ht.
    destruct H2; try discriminate Ht. apply app_inv_head in He. auto.
  - intros v2 t2 r1 r2 H2 Hr1 Hr2 He. pose proof (Htag _ _ _ _ _ _ (sh_absent _) H2 Hr1 Hr2 He) as Ht.
    destruct H2; try discriminate Ht. apply app_inv_head in He. auto.
  - intros z t Hd v2 t2 r1 r2 H2 Hr1 Hr2 He. pose proof (Htag _ _ _ _ _ _ (sh_int _ _ _ Hd) H2 Hr1 Hr2 He) as Ht.
    destruct H2 as [| | | |z2 t2 Hd2| | | | | | ]; try discriminate Ht.
    destruct (decimal_ends _ _ _ _ _ _ Hd Hd2 (Hnd _ Hr1) (Hnd _ Hr2) He) as (-> & -> & ->). auto.
  - intros s t Hl v2 t2 r1 r2 H2 Hr1 Hr2 He. pose proof (Htag _ _ _ _ _ _ (sh_str _ _ _ Hl) H2 Hr1 Hr2 He) as Ht.
    destruct H2 as [| | | | |s2 t2 Hl2| | | | | ]; try discriminate Ht.
    destruct (literal_ends _ _ _ _ _ _ Hl Hl2 He) as (-> & -> & ->). auto.
  - intros s t Hl v2 t2 r1 r2 H2 Hr1 Hr2 He. pose proof (Htag _ _ _ _ _ _ (sh_bytes _ _ _ Hl) H2 Hr1 Hr2 He) as Ht.
    destruct H2 as [| | | | | |s2 t2 Hl2| | | | ]; try discriminate Ht. rewrite <- !app_assoc in He. apply app_inv_head in He.
    destruct (literal_ends _ _ _ _ _ _ Hl Hl2 He) as (-> & -> & ->). auto.
  - intros u t Hu Hl v2 t2 r1 r2 H2 Hr1 Hr2 He. pose proof (Htag _ _ _ _ _ _ (sh_uuid _ _ _ Hu Hl) H2 Hr1 Hr2 He) as Ht.
    destruct H2 as [| | | | | | |u2 t2 Hu2 Hl2| | | ]; try discriminate Ht. rewrite <- !app_assoc in He. apply app_inv_head in He.
    destruct (literal_ends _ _ _ _ _ _ Hl Hl2 He) as (Hq & -> & Hr). apply app_inv_head in Hr as ->.
    apply uuid_str_inj in Hq as ->; auto.
  - intros l t Hi IH v2 t2 r1 r2 H2 Hr1 Hr2 He. pose proof (Htag _ _ _ _ _ _ (sh_list _ _ _ Hi) H2 Hr1 Hr2 He) as Ht.
    destruct H2 as [| | | | | | | |l2 t2 Hi2| | ]; try discriminate Ht. rewrite <- !app_assoc in He. apply app_inv_head in He.
    destruct (IH _ _ _ _ Hi2 He) as (-> & -> & ->). auto.
  - intros d t Hi IH v2 t2 r1 r2 H2 Hr1 Hr2 He. pose proof (Htag _ _ _ _ _ _ (sh_dict _ _ _ Hi) H2 Hr1 Hr2 He) as Ht.
    destruct H2 as [| | | | | | | | |d2 t2 Hi2| ]; try discriminate Ht. rewrite <- !app_assoc in He. apply app_inv_head in He.
    destruct (IH _ _ _ _ Hi2 He) as (-> & -> & ->). auto.
  - intros cid d t Hn Hi IH v2 t2 r1 r2 H2 Hr1 Hr2 He. pose proof (Htag _ _ _ _ _ _ (sh_struct _ _ _ _ Hn Hi) H2 Hr1 Hr2 He) as Ht.
    destruct H2 as [| | | | | | | | | |cid2 d2 t2 Hn2 Hi2]; try discriminate Ht. rewrite <- !app_assoc in He.
    apply (split_at 40) in He as (Hq & He); [|apply ident_not; [auto|cbn; auto]..].
    apply qualname_inj in Hq as ->. destruct (IH _ _ _ _ Hi2 He) as (-> & -> & ->). auto.
  - intros l2 t2 r1 r2 [|v t H|v t w l u H Hi] He.
    + injection He as ->. auto.
    + destruct (shows_head _ _ H) as (ch & t' & -> & Hc). injection He as <- _. lia.
    + destruct (shows_head _ _ H) as (ch & t' & -> & Hc). injection He as <- _. lia.
  - intros v t H IH l2 t2 r1 r2 [|v2 t2' H2|v2 t2' w l u H2 Hi] He.
    + destruct (shows_head _ _ H) as (ch & t' & -> & Hc). injection He as -> _. lia.
    + pose proof (fun a b => IH _ _ _ _ H2 a b He) as U; specialize (U ltac:(cbn; auto) ltac:(cbn; auto)); destruct U as (-> & -> & Hr). injection Hr as ->. auto.
    + rewrite <- !app_assoc in He. pose proof (fun a b => IH _ _ _ _ H2 a b He) as U; specialize (U ltac:(cbn; auto) ltac:(cbn; auto)); destruct U as (_ & _ & Hr). discriminate.
  - intros v t w l u H IH Hi IHi l2 t2 r1 r2 [|v2 t2' H2|v2 t2' w2 l' u2 H2 Hi2] He.
    + destruct (shows_head _ _ H) as (ch & t' & -> & Hc). injection He as -> _. lia.
    + rewrite <- !app_assoc in He. pose proof (fun a b => IH _ _ _ _ H2 a b He) as U; specialize (U ltac:(cbn; auto) ltac:(cbn; auto)); destruct U as (_ & _ & Hr). discriminate.
    + rewrite <- !app_assoc in He. pose proof (fun a b => IH _ _ _ _ H2 a b He) as U; specialize (U ltac:(cbn; auto) ltac:(cbn; auto)); destruct U as (-> & -> & Hr).
      apply app_inv_head in Hr. destruct (IHi _ _ _ _ Hi2 Hr) as (Hl & -> & ->). rewrite Hl. auto.
  - intros l2 t2 r1 r2 [|k v t k' Hk H|k v t k' w l u Hk H Hi] He.
    + injection He as ->. auto.
    + destruct (literal_head _ _ Hk) as (q & t' & -> & Hq). injection He as <- _. lia.
    + destruct (literal_head _ _ Hk) as (q & t' & -> & Hq). injection He as <- _. lia.
  - intros k v t k' Hk H IH l2 t2 r1 r2 [|k2 v2 t2' k2' Hk2 H2|k2 v2 t2' k2' w l u Hk2 H2 Hi] He.
    + destruct (literal_head _ _ Hk) as (q & t' & -> & Hq). injection He as -> _. lia.
    + rewrite <- !app_assoc in He. destruct (literal_ends _ _ _ _ _ _ Hk Hk2 He) as (Hq & -> & Hr). apply app_inv_head in Hr. apply lit_inj in Hq as ->.
      pose proof (fun a b => IH _ _ _ _ H2 a b Hr) as U; specialize (U ltac:(cbn; auto) ltac:(cbn; auto)); destruct U as (-> & -> & Hr'). injection Hr' as ->. auto.
    + rewrite <- !app_assoc in He. destruct (literal_ends _ _ _ _ _ _ Hk Hk2 He) as (Hq & -> & Hr). apply app_inv_head in Hr.
      pose proof (fun a b => IH _ _ _ _ H2 a b Hr) as U; specialize (U ltac:(cbn; auto) ltac:(cbn; auto)); destruct U as (_ & _ & Hr'). discriminate.
  - intros k v t k' w l u Hk H IH Hi IHi l2 t2 r1 r2 [|k2 v2 t2' k2' Hk2 H2|k2 v2 t2' k2' w2 l' u2 Hk2 H2 Hi2] He.
    + destruct (literal_head _ _ Hk) as (q & t' & -> & Hq). injection He as -> _. lia.
    + rewrite <- !app_assoc in He. destruct (literal_ends _ _ _ _ _ _ Hk Hk2 He) as (Hq & -> & Hr). apply app_inv_head in Hr.
      pose proof (fun a b => IH _ _ _ _ H2 a b Hr) as U; specialize (U ltac:(cbn; auto) ltac:(cbn; auto)); destruct U as (_ & _ & Hr'). discriminate.
    + rewrite <- !app_assoc in He. destruct (literal_ends _ _ _ _ _ _ Hk Hk2 He) as (Hq & -> & Hr). apply app_inv_head in Hr. apply lit_inj in Hq as ->.
      pose proof (fun a b => IH _ _ _ _ H2 a b Hr) as U; specialize (U ltac:(cbn; auto) ltac:(cbn; auto)); destruct U as (-> & -> & Hr'). apply app_inv_head in Hr'.
      destruct (IHi _ _ _ _ Hi2 Hr') as (Hl & -> & ->). rewrite Hl. auto.
  - intros l2 t2 r1 r2 [|k v t Hk H|k v t w l u Hk H Hi] He.
    + injection He as ->. auto.
    + destruct Hk as (ch & t' & Hk & Hc & _). rewrite Hk in He. injection He as <- _. unfold letter in Hc. lia.
    + destruct Hk as (ch & t' & Hk & Hc & _). rewrite Hk in He. injection He as <- _. unfold letter in Hc. lia.
  - intros k v t Hk H IH l2 t2 r1 r2 [|k2 v2 t2' Hk2 H2|k2 v2 t2' w l u Hk2 H2 Hi] He.
    + destruct Hk as (ch & t' & Hk & Hc & _). rewrite Hk in He. injection He as -> _. unfold letter in Hc. lia.
    + rewrite <- !app_assoc in He. apply (split_at 61) in He as (Hq & Hr); [|apply ident_not; [auto|cbn; auto 10]..]. apply lit_inj in Hq as ->.
      pose proof (fun a b => IH _ _ _ _ H2 a b Hr) as U; specialize (U ltac:(cbn; auto) ltac:(cbn; auto)); destruct U as (-> & -> & Hr'). injection Hr' as ->. auto.
    + rewrite <- !app_assoc in He. apply (split_at 61) in He as (Hq & Hr); [|apply ident_not; [auto|cbn; auto 10]..].
      pose proof (fun a b => IH _ _ _ _ H2 a b Hr) as U; specialize (U ltac:(cbn; auto) ltac:(cbn; auto)); destruct U as (_ & _ & Hr'). discriminate.
  - intros k v t w l u Hk H IH Hi IHi l2 t2 r1 r2 [|k2 v2 t2' Hk2 H2|k2 v2 t2' w2 l' u2 Hk2 H2 Hi2] He.
    + destruct Hk as (ch & t' & Hk & Hc & _). rewrite Hk in He. injection He as -> _. unfold letter in Hc. lia.
    + rewrite <- !app_assoc in He. apply (split_at 61) in He as (Hq & Hr); [|apply ident_not; [auto|cbn; auto 10]..].
      pose proof (fun a b => IH _ _ _ _ H2 a b Hr) as U; specialize (U ltac:(cbn; auto) ltac:(cbn; auto)); destruct U as (_ & _ & Hr'). discriminate.
    + rewrite <- !app_assoc in He. apply (split_at 61) in He as (Hq & Hr); [|apply ident_not; [auto|cbn; auto 10]..]. apply lit_inj in Hq as ->.
      pose proof (fun a b => IH _ _ _ _ H2 a b Hr) as U; specialize (U ltac:(cbn; auto) ltac:(cbn; auto)); destruct U as (-> & -> & Hr'). apply app_inv_head in Hr'.
      destruct (IHi _ _ _ _ Hi2 Hr') as (Hl & -> & ->). rewrite Hl. auto.
Qed.

Lemma shows_one v w t : shows v t -> shows w t -> v = w.
Proof. intros Hv Hw. destruct (proj1 one_reading_all v t Hv w t [] [] Hw) as (H & _); cbn; auto. Qed.

Lemma repr_determines v w : showable qualname v -> showable qualname w -> repr_value qualname other v = repr_value qualname other w -> v = w.
Proof. intros Hv Hw H. apply repr_shows in Hv. apply repr_shows in Hw. rewrite H in Hv. eapply shows_one; eauto. Qed.
End Show.

(** ** Classes *)

Lemma declared_last l : forall f, 
  match pr_objclass (declare_all l) f with
  | Some c => last_with (pr_classes (declare_all l)) f c
  | None => forall comps, In comps (pr_classes (declare_all l)) -> ~ In f comps
  end.
Proof.
  intros f. induction l as [|s l IH] using rev_ind; [intros comps []|].
  unfold declare_all in *. rewrite fold_left_app. cbn [fold_left]. set (p := fold_left declare l _) in *. clearbody p.
  unfold declare. cbn [pr_classes pr_objclass]. set (cs := _ ++ st_fields s). clearbody cs.
  destruct (existsb (Nat.eqb f) cs) eqn:E.
  - apply existsb_exists in E as (f' & Hin & Hf). apply Nat.eqb_eq in Hf as <-. split.
    + exists cs. split; [|auto]. rewrite nth_error_app2, Nat.sub_diag by lia. reflexivity.
    + intros c' l' Hc Hn. assert (Hlt : (c' < length (pr_classes p ++ [cs]))%nat) by (apply nth_error_Some; congruence).
      rewrite app_length in Hlt. cbn in Hlt. lia.
  - assert (Hno : ~ In f cs).
    { intros Hin. assert (existsb (Nat.eqb f) cs = true) by (apply existsb_exists; exists f; split; [auto|apply Nat.eqb_refl]). congruence. }
    destruct (pr_objclass p f) as [c|].
    + destruct IH as ((l' & Hl & Hin) & Hlast). split.
      * exists l'. split; [|auto]. rewrite nth_error_app1; [auto|]. apply nth_error_Some. congruence.
      * intros c' l2 Hc Hn. destruct (Nat.lt_ge_cases c' (length (pr_classes p))) as [Hlt|Hge].
        -- rewrite nth_error_app1 in Hn by auto. eauto.
        -- rewrite nth_error_app2 in Hn by auto. destruct (c' - length (pr_classes p))%nat as [|m]; [injection Hn as <-; auto|].
           destruct m; discriminate.
    + intros comps Hc. apply in_app_or in Hc as [Hc|[<-|[]]]; auto.
Qed.

(** ** Required fields *)

Lemma required_default E n f ctx d : required f = Ok true ->
  field_to_stream E n f VDefault ctx d = ([], Raise (EMissingRequired (c_name (conf f)))).
Proof.
  unfold required. destruct (is_undefined (c_const (conf f))); [|discriminate].
  destruct (default_of (conf f)) as [v|e|] eqn:Hd; cbn [bind]; try discriminate. intros H. injection H as H.
  unfold field_to_stream, field_to_stream_with, to_stream_with. cbn [is_default]. rewrite Hd. cbn. rewrite H. reflexivity.
Qed.

Lemma required_missing f ctx d name : required f = Ok true -> is_computed_field f = false -> c_name (conf f) = Some name -> dmem d name = false ->
  run_dict d (c_present (conf f) ctx None) = Ok true ->
  run_dict d (compute_value_for_dump (conf f) ctx) = Raise (EMissingRequired (Some name)).
Proof.
  unfold required, is_computed_field. destruct (is_undefined (c_const (conf f))); [|discriminate].
  destruct (default_of (conf f)) as [v|e|] eqn:Hd; cbn [bind]; try discriminate. intros H. injection H as H.
  destruct (c_compute (conf f)) eqn:Hc; [discriminate|]. intros _ Hn Hm Hp.
  assert (Hv : v = VUndefined) by (destruct v; try discriminate; reflexivity). subst v.
  assert (Hf : forall q, run_dict d (fallback_value (conf f)) = q -> q = Ok VUndefined).
  { intros q <-. unfold fallback_value, default_query. unfold default_of in Hd. rewrite Hc.
    destruct (negb (is_undefined (c_default (conf f)))); [|reflexivity].
    destruct (c_factory (conf f)) as [[v|e]|]; [injection Hd as ->|discriminate|injection Hd as ->]; reflexivity. }
  specialize (Hf _ eq_refl). unfold compute_value_for_dump, stored_or_fallback, run_dict in *. rewrite Hn, run_qbind. cbn [run_q].
  rewrite Hm, Hf. cbn [is_not_present]. rewrite run_qbind, Hp. reflexivity.
Qed.
