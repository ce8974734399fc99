(** Proofs for text in any encoding (C104). *)
From Coq Require Import Lia.
From Verif Require Import SpecEncodings CustomProofs Tac PyIntProofs StreamProofs VarintsMore FieldProofs LeafProofs LocalProofs.

Lemma is_nul_iff l : is_nul l = true <-> l = [0].
Proof. unfold is_nul. apply bytes_eqb_iff. Qed.

(** ** The encodings of Codecs.v *)

Lemma builtin_loop cd name : forall fuel cd' mx nr buf acc s,
  stringz_loop fuel name cd' mx nr buf acc s = x_loop fuel name (coding_of cd) mx nr (cd', buf) (rev acc) s.
Proof.
  induction fuel as [|fuel IH]; intros cd' mx nr buf acc s; [reflexivity|].
  cbn [stringz_loop x_loop]. destruct (iter_next mx nr s) as [[b s1]|].
  2:{ cbn [coding_of co_stop fst snd]. destruct (forgiven cd' buf); reflexivity. }
  cbn [coding_of co_step fst snd]. destruct (dec_step cd' (buf ++ [b])) as [cp| | |cd1|] eqn:Hd; try reflexivity.
  - cbn [is_nul bytes_eqb]. unfold is_nul. cbn [bytes_eqb]. rewrite Bool.andb_true_r.
    destruct (cp =? 0); [reflexivity|]. exact (IH (started cd') mx (nr + 1) [] (cp :: acc) s1).
  - cbn [is_nul bytes_eqb]. rewrite app_nil_r. exact (IH cd' mx (nr + 1) (buf ++ [b]) acc s1).
  - cbn [is_nul bytes_eqb]. rewrite app_nil_r. exact (IH cd1 mx (nr + 1) [] acc s1).
Qed.

Lemma builtin_expected dd c cd pad d :
  get_expected_size_with dd c (KString cd pad) d = x_get_expected_size c (coding_of cd) false d.
Proof.
  unfold get_expected_size_with, x_get_expected_size. destruct (c_size c); reflexivity.
Qed.

Lemma builtin_expected_z g c cd pad d :
  get_expected_size_with (fun v => leaf_dump c (KStringZ cd pad) g v) c (KStringZ cd pad) d = x_get_expected_size c (coding_of cd) true d.
Proof.
  assert (Hn : unsized_null_len (fun v => leaf_dump c (KStringZ cd pad) g v) c (KStringZ cd pad) = x_null_len c (coding_of cd) true).
  { unfold unsized_null_len, x_null_len. destruct (c_null c); try reflexivity. cbn [leaf_dump coding_of co_encode].
    destruct (encode cd (_ ++ [0])) as [bs| |]; reflexivity. }
  unfold get_expected_size_with, x_get_expected_size. destruct (c_size c); try reflexivity.
  unfold expected_unsized.
  destruct (oget d (c_name c)) as [v|]; cbn [bind].
  - destruct v; try reflexivity. exact Hn.
  - destruct (default_of c) as [dv| |]; cbn [bind]; try reflexivity. destruct (is_undefined dv) eqn:Hu; cbn [bind]; try reflexivity.
    destruct dv; try reflexivity. exact Hn.
Qed.

Lemma builtin_string E n c cd pad v ctx d s :
  let f := builtin E n (Field c (KString cd pad)) in let x := x_string c (coding_of cd) pad in
  u_conf x = u_conf f /\ u_size_for x v = u_size_for f v
  /\ (forall bs k, u_pad x bs k = u_pad f bs k)
  /\ u_dump x v ctx d = u_dump f v ctx d /\ u_load x ctx d s = u_load f ctx d s.
Proof.
  cbn zeta. unfold builtin, x_string. cbn [u_conf u_size_for u_pad u_dump u_load conf kind].
  split; [reflexivity|]. split; [destruct v; reflexivity|]. split; [intros bs k; destruct pad; reflexivity|].
  rewrite do_dump_leaf, do_load_leaf by reflexivity. cbn [leaf_dump leaf_load]. rewrite !builtin_expected.
  split; reflexivity.
Qed.

Lemma builtin_stringz E n c cd pad v ctx d s :
  let f := builtin E n (Field c (KStringZ cd pad)) in let x := x_stringz c (coding_of cd) pad in
  u_conf x = u_conf f /\ u_size_for x v = u_size_for f v
  /\ (forall bs k, u_pad x bs k = u_pad f bs k)
  /\ u_dump x v ctx d = u_dump f v ctx d /\ u_load x ctx d s = u_load f ctx d s.
Proof.
  cbn zeta. unfold builtin, x_stringz. cbn [u_conf u_size_for u_pad u_dump u_load conf kind].
  split; [reflexivity|]. split; [destruct v; reflexivity|]. split; [intros bs k; destruct pad; reflexivity|].
  rewrite do_dump_leaf, do_load_leaf by reflexivity. split; [destruct v; reflexivity|].
  cbn [leaf_load].
  assert (Hg : get_expected_size_with (fun v => do_dump E n (Field c (KStringZ cd pad)) v VNone d) c (KStringZ cd pad) d
               = x_get_expected_size c (coding_of cd) true d).
  { rewrite <- (builtin_expected_z (Ok 0) c cd pad d). unfold get_expected_size_with, expected_unsized, unsized_null_len.
    assert (Hd : forall v, do_dump E n (Field c (KStringZ cd pad)) v VNone d = leaf_dump c (KStringZ cd pad) (Ok 0) v).
    { intros w. rewrite do_dump_leaf by reflexivity. reflexivity. }
    destruct (c_null c); try rewrite Hd; reflexivity. }
  rewrite Hg. destruct (x_get_expected_size c (coding_of cd) true d) as [m|e|]; [|destruct (is_UndefinedSizeError e)|]; try reflexivity.
  - symmetry. exact (builtin_loop cd (c_name c) _ cd (Some m) 0 [] [] s).
  - symmetry. exact (builtin_loop cd (c_name c) _ cd None 0 [] [] s).
Qed.

(** ** Where StringZ stops *)

Lemma finds_nil co st t n : finds co st [] t n <-> co_stop co st = Ok [0] /\ t = [] /\ n = O.
Proof.
  split.
  - intros [(bs & suf & outs & st' & Hd & Hg & _)|(outs & st' & Hg & Hn & Hs & -> & ->)].
    + symmetry in Hd. apply app_eq_nil in Hd. destruct Hd as [-> ->]. inversion Hg as [? Ho|]. destruct outs; discriminate.
    + inversion Hg; subst. auto.
  - intros (Hs & -> & ->). right. exists [], st. repeat split; auto. constructor.
Qed.

Lemma gives_cons_inv co st b bs all st' : gives co st (b :: bs) all st' ->
  exists out st1 outs, all = out :: outs /\ co_step co st b = Ok (out, st1) /\ gives co st1 bs outs st'.
Proof. intros H. inversion H; subst. eauto 8. Qed.

Lemma finds_cons co st b data t n : finds co st (b :: data) t n
  <-> exists out st1, co_step co st b = Ok (out, st1)
      /\ (out = [0] /\ t = [] /\ n = 1%nat
          \/ out <> [0] /\ exists t1 n1, finds co st1 data t1 n1 /\ t = out ++ t1 /\ n = S n1).
Proof.
  split.
  - intros [(bs & suf & outs & st' & Hd & Hg & Hn & -> & ->)|(outs & st' & Hg & Hn & Hs & -> & ->)].
    + destruct bs as [|b' bs]; [inversion Hg as [? Ho|]; destruct outs; discriminate|].
      injection Hd as <- Hd. apply gives_cons_inv in Hg. destruct Hg as (out & st1 & outs1 & Ha & Hst & Hg1).
      exists out, st1. split; [exact Hst|]. destruct outs as [|o outs].
      * cbn [app] in Ha; injection Ha as <- <-. inversion Hg1; subst. left. auto.
      * cbn [app] in Ha; injection Ha as <- <-. right. split; [intros ->; apply Hn; left; reflexivity|].
        exists (concat outs), (length bs). split; [|auto].
        left. exists bs, suf, outs, st'. repeat split; auto. intros Hi. apply Hn. right. exact Hi.
    + inversion Hg as [|? ? out st1 ? outs1 ? Hst Hg1]; subst. exists out, st1. split; [exact Hst|]. right.
      split; [intros ->; apply Hn; left; reflexivity|]. exists (concat outs1), (length data). split; [|auto].
      right. exists outs1, st'. repeat split; auto. intros Hi. apply Hn. right. exact Hi.
  - intros (out & st1 & Hst & [(-> & -> & ->)|(Hne & t1 & n1 & Hf & -> & ->)]).
    + left. exists [b], data, [], st1. repeat split; auto. econstructor; [exact Hst|constructor].
    + destruct Hf as [(bs & suf & outs & st' & -> & Hg & Hn & -> & ->)|(outs & st' & Hg & Hn & Hs & -> & ->)].
      * left. exists (b :: bs), suf, (out :: outs), st'. repeat split; auto.
        { econstructor; [exact Hst|exact Hg]. }
        { intros [H|H]; auto. }
      * right. exists (out :: outs), st'. repeat split; auto.
        { econstructor; [exact Hst|exact Hg]. }
        { intros [H|H]; auto. }
Qed.

Definition window (mx : option Z) (nr : Z) (data : list Z) : list Z :=
  match mx with None => data | Some m => firstn (Z.to_nat (m - nr)) data end.

Lemma iter_window mx nr s :
  match window mx nr (rest s) with
  | [] => iter_next mx nr s = None
  | b :: w => iter_next mx nr s = Some (b, advance s 1) /\ window mx (nr + 1) (rest (advance s 1)) = w
  end.
Proof.
  unfold window. rewrite rest_advance. destruct mx as [m|].
  - destruct (Z_lt_le_dec nr m) as [H|H].
    + replace (Z.to_nat (m - nr)) with (S (Z.to_nat (m - (nr + 1)))) by lia.
      destruct (rest s) as [|b r] eqn:Hr; cbn [firstn skipn].
      * unfold iter_next. replace (nr <? m) with true by lia. rewrite read_short by (rewrite Hr; unfold zlen; cbn; lia).
        rewrite Hr. reflexivity.
      * split; [|reflexivity]. apply (iter_next_some (Some m) nr s b r Hr H).
    + replace (Z.to_nat (m - nr)) with O by lia. cbn [firstn]. apply iter_next_limit. exact H.
  - destruct (rest s) as [|b r] eqn:Hr; cbn [skipn].
    + unfold iter_next. rewrite read_short by (rewrite Hr; unfold zlen; cbn; lia). rewrite Hr. reflexivity.
    + split; [|reflexivity]. apply (iter_next_some None nr s b r Hr I).
Qed.

Lemma loop_iff co name : forall fuel mx nr st acc s s' v, (length (window mx nr (rest s)) < fuel)%nat ->
  x_loop fuel name co mx nr st acc s = (s', Ok v)
  <-> exists t n, finds co st (window mx nr (rest s)) t n /\ v = VStr (acc ++ t) /\ s' = advance s n.
Proof.
  induction fuel as [|fuel IH]; intros mx nr st acc s s' v Hf; [lia|]. cbn [x_loop].
  pose proof (iter_window mx nr s) as Hw. destruct (window mx nr (rest s)) as [|b w] eqn:Ew.
  - rewrite Hw. split.
    + intros H. destruct (co_stop co st) as [out|e|] eqn:Hs; cbn [bind] in H; try discriminate.
      destruct (is_nul out) eqn:Hn; [|discriminate]. apply is_nul_iff in Hn. subst out. injection H as <- <-.
      exists [], O. rewrite app_nil_r, advance_0. split; [|auto]. apply finds_nil. auto.
    + intros (t & n & Hfi & -> & ->). apply finds_nil in Hfi. destruct Hfi as (Hs & -> & ->). rewrite Hs. cbn [bind].
      cbn [is_nul bytes_eqb]. rewrite app_nil_r, advance_0. reflexivity.
  - destruct Hw as [Hi Hw]. rewrite Hi. cbn [length] in Hf.
    assert (Hrec : forall st1 out, x_loop fuel name co mx (nr + 1) st1 (acc ++ out) (advance s 1) = (s', Ok v)
      <-> exists t n, finds co st1 w t n /\ v = VStr ((acc ++ out) ++ t) /\ s' = advance (advance s 1) n).
    { intros st1 out. rewrite IH by (rewrite Hw; lia). rewrite Hw. reflexivity. }
    split.
    + intros H. destruct (co_step co st b) as [[out st1]|e|] eqn:Hs; try discriminate.
      destruct (is_nul out) eqn:Hn.
      * apply is_nul_iff in Hn. subst out. injection H as <- <-. exists [], 1%nat. rewrite app_nil_r. split; [|auto].
        apply finds_cons. exists [0], st1. split; [exact Hs|]. left. auto.
      * apply Hrec in H. destruct H as (t & n & Hfi & -> & ->). exists (out ++ t), (S n).
        split; [|split; [rewrite app_assoc; reflexivity|rewrite advance_advance; reflexivity]].
        apply finds_cons. exists out, st1. split; [exact Hs|]. right. split.
        { intros ->. discriminate. }
        exists t, n. auto.
    + intros (t & n & Hfi & -> & ->). apply finds_cons in Hfi.
      destruct Hfi as (out & st1 & Hs & [(-> & -> & ->)|(Hne & t1 & n1 & Hfi & -> & ->)]); rewrite Hs.
      * cbn [is_nul bytes_eqb]. rewrite app_nil_r. reflexivity.
      * destruct (is_nul out) eqn:Hn; [apply is_nul_iff in Hn; congruence|]. apply Hrec.
        exists t1, n1. rewrite app_assoc, advance_advance. auto.
Qed.

Lemma stringz_iff c co pad ctx d lim s s' v : limit_is c co d lim ->
  u_load (x_stringz c co pad) ctx d s = (s', Ok v)
  <-> exists t n, finds co (co_start co) (allowed lim (rest s)) t n /\ v = VStr t /\ s' = advance s n.
Proof.
  intros Hl.
  assert (Hw : forall mx, window mx 0 (rest s) = allowed mx (rest s)).
  { intros [m|]; [unfold window, allowed; rewrite Z.sub_0_r|]; reflexivity. }
  assert (Hlen : forall mx, (length (window mx 0 (rest s)) < S (length (rest s)))%nat).
  { intros mx. rewrite Hw. destruct mx; cbn [allowed]; [rewrite firstn_length|]; lia. }
  unfold x_stringz. cbn [u_load]. destruct lim as [m|]; cbn [limit_is] in Hl.
  - rewrite Hl. rewrite loop_iff by apply Hlen. rewrite Hw. reflexivity.
  - destruct Hl as [nm Hl]. rewrite Hl. cbn [is_UndefinedSizeError]. rewrite loop_iff by apply Hlen. rewrite Hw. reflexivity.
Qed.

Lemma no_limit_is c co d : no_limit c d -> limit_is c co d None.
Proof.
  intros (H1 & H2 & H3). cbn [limit_is]. unfold x_get_expected_size. rewrite H1, H3, H2. cbn [bind is_undefined]. eauto.
Qed.

(** Text that is found in the dump is found wherever the dump is. *)
Lemma found_undoes c co pad ctx d ctx' dl t bs outs st : c_size c = SNone -> no_limit c dl ->
  co_encode co (t ++ [0]) = Ok bs -> gives co (co_start co) bs (outs ++ [[0]]) st -> ~ In [0] outs -> concat outs = t ->
  undoes (x_stringz c co pad) ctx d ctx' dl (VStr t) (VStr t).
Proof.
  intros Hc Hl He Hg Hn Ht b out pre suf Hd Hse. unfold x_stringz in Hd. cbn [u_dump] in Hd. rewrite He in Hd.
  injection Hd as <-. destruct Hse as [(_ & ->)|(size & Hm & _)]; [|unfold must_have in Hm; cbn [x_stringz u_conf] in Hm; rewrite Hc in Hm; contradiction].
  apply (stringz_iff c co pad ctx' dl None _ _ _ (no_limit_is c co dl Hl)). cbn [allowed].
  exists t, (length bs). split; [|split; [reflexivity|]].
  - left. exists bs, suf, outs, st. rewrite rest_at. auto.
  - symmetry. apply advance_at.
Qed.

Lemma gives_app co st bs outs st1 bs' outs' st2 : gives co st bs outs st1 -> gives co st1 bs' outs' st2 ->
  gives co st (bs ++ bs') (outs ++ outs') st2.
Proof. intros H. revert bs' outs' st2. induction H; intros; cbn [app]; [assumption|econstructor; eauto]. Qed.

Lemma gives_app_inv co bs : forall st bs' all st2, gives co st (bs ++ bs') all st2 ->
  exists outs outs' st1, all = outs ++ outs' /\ gives co st bs outs st1 /\ gives co st1 bs' outs' st2.
Proof.
  induction bs as [|b bs IH]; intros st bs' all st2 H.
  - exists [], all, st. repeat split; [constructor|exact H].
  - cbn [app] in H. apply gives_cons_inv in H. destruct H as (out & st1 & outs & -> & Hs & Hg).
    destruct (IH _ _ _ _ Hg) as (o1 & o2 & st3 & -> & H1 & H2). exists (out :: o1), o2, st3.
    repeat split; auto. econstructor; eauto.
Qed.

Lemma gives_fun co st bs outs st1 : gives co st bs outs st1 -> forall outs' st1', gives co st bs outs' st1' -> outs' = outs /\ st1' = st1.
Proof.
  intros H. induction H as [|st b out st1 bs outs st2 Hs Hg IH]; intros outs' st' H'.
  - inversion H'; subst. auto.
  - apply gives_cons_inv in H'. destruct H' as (out' & st1' & outs1 & -> & Hs' & Hg'). rewrite Hs in Hs'.
    injection Hs' as <- <-. destruct (IH _ _ Hg') as [-> ->]. auto.
Qed.

Lemma concat_nul outs t : concat outs = t -> without_nul t -> ~ In [0] outs.
Proof.
  intros <- Hn Hi. unfold without_nul in Hn. rewrite Forall_forall in Hn. apply (Hn 0); [|reflexivity].
  apply in_concat. exists [0]. split; [exact Hi|left; reflexivity].
Qed.

Lemma concat_silent n : concat (repeat (@nil Z) n) = [].
Proof. induction n; auto. Qed.

(** ** Encodings with own bytes for each character *)

Section Words.
Context (enc : Z -> option (list Z)) (dec : list Z -> word).
Hypothesis Hown : own_bytes enc dec.
Let co := word_coding enc dec.

Lemma word_from cp w : enc cp = Some w -> forall q p, w = p ++ q -> q <> [] ->
  gives co p q (repeat [] (length q - 1) ++ [[cp]]) [] /\ forall r, unspell dec p (q ++ r) = (do s <- unspell dec [] r; Ok (cp :: s)).
Proof.
  intros He. destruct (Hown cp w He) as (Hne & Hw & Hp). induction q as [|b q IH]; intros p E Hq; [congruence|].
  destruct q as [|b' q].
  - cbn [length Nat.sub repeat app]. split.
    + econstructor; [|constructor]. cbn [co word_coding co_step]. rewrite <- E, Hw. reflexivity.
    + intros r. cbn [unspell]. rewrite <- E, Hw. reflexivity.
  - assert (E' : w = (p ++ [b]) ++ b' :: q) by (rewrite <- app_assoc; exact E).
    assert (Hm : dec (p ++ [b]) = WMore).
    { apply (Hp _ _ E'); [|discriminate]. destruct p; discriminate. }
    destruct (IH (p ++ [b]) E' ltac:(discriminate)) as [Hg Hu]. split.
    + cbn [length Nat.sub repeat app]. econstructor; [cbn [co word_coding co_step]; rewrite Hm; reflexivity|].
      cbn [length Nat.sub] in Hg. rewrite Nat.sub_0_r in Hg. exact Hg.
    + intros r. change ((b :: b' :: q) ++ r) with (b :: (b' :: q) ++ r). cbn [unspell]. rewrite Hm. apply Hu.
Qed.

Lemma word_gives t : forall bs, spell enc t = Ok bs ->
  (exists outs, gives co [] bs outs [] /\ concat outs = t)
  /\ (forall bs0, spell enc (t ++ [0]) = Ok bs0 -> exists outs, gives co [] bs0 (outs ++ [[0]]) [] /\ concat outs = t)
  /\ forall r, unspell dec [] (bs ++ r) = (do s <- unspell dec [] r; Ok (t ++ s)).
Proof.
  induction t as [|cp t IH]; intros bs Hs.
  - injection Hs as <-. split; [exists []; split; [constructor|reflexivity]|]. split.
    + intros bs0 H0. cbn [app spell] in H0. destruct (enc 0) as [w|] eqn:He; [|discriminate]. cbn [bind] in H0.
      injection H0 as <-. rewrite app_nil_r. destruct (word_from 0 w He w [] eq_refl) as [Hg _]; [apply (Hown 0 w He)|].
      exists (repeat [] (length w - 1)). split; [exact Hg|apply concat_silent].
    + intros r. cbn [app]. destruct (unspell dec [] r); reflexivity.
  - cbn [spell] in Hs. destruct (enc cp) as [w|] eqn:He; [|discriminate].
    destruct (spell enc t) as [bs1| |] eqn:Hs1; try discriminate. cbn [bind] in Hs. injection Hs as <-.
    destruct (IH bs1 eq_refl) as ((outs & Hg & Hc) & Hz & Hu).
    destruct (word_from cp w He w [] eq_refl) as [Hgw Huw]; [apply (Hown cp w He)|].
    split; [|split].
    + eexists. split; [eapply gives_app; [exact Hgw|exact Hg]|]. rewrite !concat_app, concat_silent, Hc. reflexivity.
    + intros bs0 H0. cbn [app spell] in H0. rewrite He in H0. destruct (spell enc (t ++ [0])) as [b1| |] eqn:H1; try discriminate.
      cbn [bind] in H0. injection H0 as <-. destruct (Hz b1 eq_refl) as (outs1 & Hg1 & Hc1).
      eexists (_ ++ outs1). split; [rewrite <- app_assoc; eapply gives_app; [exact Hgw|exact Hg1]|].
      rewrite !concat_app, concat_silent, Hc1. reflexivity.
    + intros r. rewrite <- app_assoc, Huw, Hu. destruct (unspell dec [] r); reflexivity.
Qed.

Lemma spell_prefix t : forall bs, spell enc (t ++ [0]) = Ok bs -> exists bs', spell enc t = Ok bs'.
Proof.
  induction t as [|cp t IH]; intros bs H; [exists []; reflexivity|].
  cbn [app spell] in *. destruct (enc cp); [|discriminate]. destruct (spell enc (t ++ [0])) as [b| |] eqn:E; try discriminate.
  destruct (IH b eq_refl) as [b' ->]. cbn [bind]. eauto.
Qed.

Lemma words_decode t bs : spell enc t = Ok bs -> unspell dec [] bs = Ok t.
Proof.
  intros H. destruct (word_gives t bs H) as (_ & _ & Hu). specialize (Hu []). rewrite app_nil_r in Hu. rewrite Hu. cbn. rewrite app_nil_r. reflexivity.
Qed.

Lemma words_undone c pad ctx d ctx' dl t : c_size c = SNone -> no_limit c dl -> without_nul t ->
  undoes (x_stringz c co pad) ctx d ctx' dl (VStr t) (VStr t).
Proof.
  intros Hc Hl Hn b out pre suf Hd Hse.
  destruct (co_encode co (t ++ [0])) as [bs|e|] eqn:He.
  - cbn [co word_coding co_encode] in He. destruct (spell_prefix t bs He) as [bs' Hb].
    destruct (word_gives t bs' Hb) as (_ & Hz & _). destruct (Hz bs He) as (outs & Hg & Hco).
    refine (found_undoes c co pad ctx d ctx' dl t bs outs [] Hc Hl He Hg _ Hco b out pre suf Hd Hse).
    apply (concat_nul outs t Hco Hn).
  - unfold x_stringz in Hd. cbn [u_dump] in Hd. rewrite He in Hd. discriminate.
  - unfold x_stringz in Hd. cbn [u_dump] in Hd. rewrite He in Hd. discriminate.
Qed.
End Words.

(** ** String *)

Lemma of_size_expected c co z d n : of_size c d n -> x_get_expected_size c co z d = Ok n.
Proof. unfold of_size, x_get_expected_size. destruct (c_size c); [contradiction|intros ->; reflexivity|intros ->; reflexivity]. Qed.

Lemma string_dump_iff c co pad ctx d t n out : of_size c d n ->
  u_dump (x_string c co pad) (VStr t) ctx d = (out, Ok tt)
  <-> exists bs, co_encode co t = Ok bs /\ (zlen bs = n /\ out = bs
        \/ zlen bs < n /\ exists b, pad = Some b /\ out = bs ++ repeat b (Z.to_nat (n - zlen bs))).
Proof.
  intros Hs. unfold x_string. cbn [u_dump]. rewrite (of_size_expected c co false d n Hs). unfold x_encode_and_resize.
  destruct (co_encode co t) as [bs|e|] eqn:He; cbn [bind].
  2,3: split; [intros H; discriminate|intros (? & ? & _); discriminate].
  destruct (0 <? zlen bs - n) eqn:H1; [split; [intros H; discriminate|intros (b & [= <-] & [[H _]|[H _]]); lia]|].
  destruct (zlen bs - n <? 0) eqn:H2.
  - destruct pad as [b|].
    + cbn. rewrite ?app_nil_r. replace (- (zlen bs - n)) with (n - zlen bs) by lia. split.
      * intros [= <-]. exists bs. split; [reflexivity|]. right. split; [lia|]. eauto.
      * intros (b' & [= <-] & [[H _]|(_ & b0 & [= <-] & ->)]); [lia|reflexivity].
    + split; [intros H; discriminate|]. intros (b' & [= <-] & [[H _]|(_ & b0 & H & _)]); [lia|discriminate].
  - cbn. rewrite ?app_nil_r. split.
    + intros [= <-]. exists bs. split; [reflexivity|]. left. split; [lia|reflexivity].
    + intros (b' & [= <-] & [[_ ->]|[H _]]); [reflexivity|lia].
Qed.

Lemma string_load c co pad ctx d n bs pre suf : of_size c d n -> zlen bs = n ->
  u_load (x_string c co pad) ctx d (at_data pre bs suf)
  = (after_data pre bs suf, match co_decode co bs with Ok t => Ok (VStr t) | Raise e => Raise e | OOF => OOF end).
Proof.
  intros Hs Hn. unfold x_string. cbn [u_load]. rewrite (of_size_expected c co false d n Hs). unfold read_exact_size, lbind.
  rewrite <- Hn. rewrite (read_app _ bs suf (rest_at pre bs suf)). rewrite Z.ltb_irrefl. rewrite advance_at.
  unfold llift, lret. destruct (co_decode co bs); reflexivity.
Qed.

Lemma string_undone c co pad ctx d ctx' dl t bs n : of_size c d n -> of_size c dl n -> co_encode co t = Ok bs -> zlen bs = n ->
  co_decode co bs = Ok t -> undoes (x_string c co pad) ctx d ctx' dl (VStr t) (VStr t).
Proof.
  intros Hs Hs' He Hn Hd b out pre suf Hb Hse. apply (string_dump_iff c co pad ctx d t n b Hs) in Hb.
  destruct Hb as (b' & He' & Hb). rewrite He in He'. injection He' as <-. destruct Hb as [[_ ->]|[H _]]; [|lia].
  assert (out = bs) as ->.
  { destruct Hse as [[_ ->]|(size & Hm & [[_ ->]|[Hlt _]])]; auto. exfalso.
    unfold must_have in Hm. unfold of_size in Hs. cbn [x_string u_conf] in Hm. destruct (c_size c); [contradiction|lia|].
    rewrite Hs in Hm. injection Hm as <-. lia. }
  rewrite (string_load c co pad ctx' dl n bs pre suf Hs' Hn). rewrite Hd. reflexivity.
Qed.

(** ** Tables *)

Lemma starts_refl a : starts a a.
Proof. exists []. rewrite app_nil_r. reflexivity. Qed.

Lemma prefix_free_in t : prefix_free t -> forall e, In e t -> snd e <> [] /\
  forall e', In e' t -> starts (snd e) (snd e') \/ fst e = fst e' -> e = e'.
Proof.
  induction t as [|a t IH]; intros Hp e Hi; [contradiction|]. destruct Hp as (Hne & Ha & Hp).
  destruct Hi as [<-|Hi].
  - split; [exact Hne|]. intros e' [<-|Hi'] Hs; [reflexivity|]. destruct (Ha _ Hi') as (H1 & H2 & H3). exfalso. destruct Hs as [Hs|Hs]; [auto|congruence].
  - destruct (IH Hp e Hi) as [Hn Hu]. split; [exact Hn|]. intros e' [<-|Hi'] Hs; [|auto].
    destruct (Ha _ Hi) as (H1 & H2 & H3). exfalso. destruct Hs as [Hs|Hs]; [auto|congruence].
Qed.

Lemma begins_iff p w : begins p w = true <-> starts p w.
Proof.
  unfold begins. rewrite bytes_eqb_iff. split.
  - intros H. exists (skipn (length p) w). rewrite <- H at 1. symmetry. apply firstn_skipn.
  - intros [r ->]. rewrite firstn_app, Nat.sub_diag, firstn_all. cbn. apply app_nil_r.
Qed.

Lemma table_own t : prefix_free t -> own_bytes (table_enc t) (table_dec t).
Proof.
  intros Hp cp w He. unfold table_enc in He. destruct (find _ t) as [e|] eqn:Hf; [|discriminate]. injection He as <-.
  apply find_some in Hf. destruct Hf as [Hi Hc]. apply Z.eqb_eq in Hc. destruct (prefix_free_in t Hp e Hi) as [Hn Hu].
  split; [exact Hn|]. split.
  - unfold table_dec. destruct (find (fun e' => bytes_eqb (snd e') (snd e)) t) as [e'|] eqn:Hf'.
    + apply find_some in Hf'. destruct Hf' as [Hi' He']. apply bytes_eqb_iff in He'.
      assert (Hee : e = e') by (apply Hu; [exact Hi'|left; rewrite He'; apply starts_refl]).
      rewrite <- Hee, Hc. reflexivity.
    + exfalso. pose proof (find_none _ _ Hf' e Hi) as H. cbn beta in H. rewrite (proj2 (bytes_eqb_iff _ _) eq_refl) in H. discriminate.
  - intros p q E Hpn Hqn. unfold table_dec.
    destruct (find (fun e' => bytes_eqb (snd e') p) t) as [e'|] eqn:Hf'.
    + exfalso. apply find_some in Hf'. destruct Hf' as [Hi' He']. apply bytes_eqb_iff in He'.
      destruct (prefix_free_in t Hp e' Hi') as [_ Hu']. assert (e' = e) as ->.
      { apply Hu'; [exact Hi|]. left. exists q. rewrite He'. exact E. }
      rewrite He' in E. apply Hqn. destruct q as [|x q]; [reflexivity|]. apply (f_equal (@length Z)) in E. rewrite app_length in E. cbn in E. lia.
    + replace (existsb _ t) with true; [reflexivity|]. symmetry. apply existsb_exists. exists e. split; [exact Hi|].
      apply begins_iff. exists q. exact E.
Qed.

(** ** "utf-7" *)

Lemma b64_inverse v : 0 <= v < 64 -> b64_value (b64_char v) = Some v.
Proof.
  intros H. assert (Hall : forallb (fun i => match b64_value (b64_char (Z.of_nat i)) with Some x => x =? Z.of_nat i | None => false end) (seq 0 64) = true)
    by (vm_compute; reflexivity).
  rewrite forallb_forall in Hall. specialize (Hall (Z.to_nat v)). rewrite Z2Nat.id in Hall by lia.
  assert (Hi : In (Z.to_nat v) (seq 0 64)) by (apply in_seq; lia). specialize (Hall Hi).
  destruct (b64_value (b64_char v)); [|discriminate]. f_equal. lia.
Qed.

Definition opened (st : u7_state) : u7_state := match st with U7Plus => U7Shift 0 0 None [] | _ => st end.

Lemma digit_step st v bits buf sur out : 0 <= v < 64 -> opened st = U7Shift bits buf sur out ->
  co_step utf7 st (b64_char v) = Ok ([], u7_digit bits buf sur out v).
Proof.
  intros Hv Ho. cbn [utf7 co_step]. pose proof (b64_inverse v Hv) as Hb. destruct st as [| |b1 f1 s1 o1]; cbn [opened] in Ho; [discriminate| |];
    injection Ho as <- <- <- <-; cbn [u7_step]; rewrite Hb; [|reflexivity].
  destruct (b64_char v =? 45) eqn:E; [|reflexivity]. apply Z.eqb_eq in E. rewrite E in Hb. discriminate.
Qed.

(** The decoder after all that the encoder wrote for the units [us], of which the encoder keeps
    the last [b] bits, of value [p]. *)
Definition synced (b p : Z) (us : list Z) (st : u7_state) : Prop :=
  b = 0 /\ p = 0 /\ opened st = U7Shift 0 0 (fst (fold_left u7_unit us (None, []))) (snd (fold_left u7_unit us (None, [])))
  \/ exists us' u, us = us' ++ [u] /\ 0 <= u < 65536
     /\ let so := fold_left u7_unit us' (None, []) in
        (b = 4 /\ p = u mod 16 /\ st = U7Shift 12 (u / 16) (fst so) (snd so)
         \/ b = 2 /\ p = u mod 4 /\ st = U7Shift 14 (u / 4) (fst so) (snd so)).

Ltac arith := Z.div_mod_to_equations; lia.

Lemma digit_open bits buf sur out v : opened (u7_digit bits buf sur out v) = u7_digit bits buf sur out v.
Proof. unfold u7_digit. destruct (16 <=? bits + 6); [|reflexivity]. destruct (u7_unit (sur, out) _). reflexivity. Qed.

Lemma push_synced b p us st u : 0 <= u < 65536 -> synced b p us st ->
  exists st', gives utf7 st (fst (u7_push b p u)) (repeat [] (length (fst (u7_push b p u)))) st'
    /\ synced (fst (snd (u7_push b p u))) (snd (snd (u7_push b p u))) (us ++ [u]) st'
    /\ fst (u7_push b p u) <> [] /\ opened st' = st'.
Proof.
  intros Hu [(-> & -> & Ho)|(us' & u0 & -> & Hu0 & [(-> & -> & ->)|(-> & -> & ->)])].
  - assert (E : u7_push 0 0 u = ([b64_char (u / 1024 mod 64); b64_char (u / 16 mod 64)], (4, u mod 16))) by reflexivity.
    rewrite E. cbn [fst snd length repeat]. set (so := fold_left u7_unit us (None, [])) in *.
    eexists. split; [|split; [|split; [discriminate|]]].
    + econstructor; [eapply digit_step; [arith|exact Ho]|].
      econstructor; [|constructor].
      apply (fun x H => digit_step _ x 6 (0 * 64 + u / 1024 mod 64) (fst so) (snd so) H); [arith|reflexivity].
    + right. exists us, u. split; [reflexivity|]. split; [exact Hu|]. left. fold so. split; [reflexivity|]. split; [reflexivity|].
      unfold u7_digit. change (16 <=? 6 + 6) with false. cbv iota zeta. f_equal. arith.
    + apply digit_open.
  - set (p := u0 mod 16). set (v := p * 65536 + u).
    assert (Hp : 0 <= p < 16) by (unfold p; arith). assert (Hp' : u0 = 16 * (u0 / 16) + p) by (unfold p; arith).
    assert (E : u7_push 4 p u = ([b64_char (v / 16384 mod 64); b64_char (v / 256 mod 64); b64_char (v / 4 mod 64)], (2, v mod 4))) by reflexivity.
    rewrite E. cbn [fst snd length repeat]. set (so := fold_left u7_unit us' (None, [])).
    assert (Hf : fold_left u7_unit (us' ++ [u0]) (None, []) = u7_unit so u0) by (rewrite fold_left_app; reflexivity).
    assert (H1 : u7_digit 12 (u0 / 16) (fst so) (snd so) (v / 16384 mod 64)
                 = U7Shift 2 (u / 16384) (fst (u7_unit so u0)) (snd (u7_unit so u0))).
    { unfold u7_digit. change (16 <=? 12 + 6) with true. change (2 ^ (12 + 6 - 16)) with 4. cbv iota zeta.
      replace ((u0 / 16 * 64 + v / 16384 mod 64) / 4) with u0 by (unfold v; arith).
      replace ((u0 / 16 * 64 + v / 16384 mod 64) mod 4) with (u / 16384) by (unfold v; arith).
      rewrite <- surjective_pairing. destruct (u7_unit so u0); reflexivity. }
    eexists. split; [|split; [|split; [discriminate|]]].
    + econstructor; [apply (fun x H => digit_step _ x 12 (u0 / 16) (fst so) (snd so) H); [arith|reflexivity]|]. rewrite H1.
      econstructor; [apply (fun x H => digit_step _ x 2 (u / 16384) (fst (u7_unit so u0)) (snd (u7_unit so u0)) H); [arith|reflexivity]|].
      econstructor; [|constructor].
      apply (fun x H => digit_step _ x 8 (u / 16384 * 64 + v / 256 mod 64) (fst (u7_unit so u0)) (snd (u7_unit so u0)) H); [arith|reflexivity].
    + right. exists (us' ++ [u0]), u. split; [reflexivity|]. split; [exact Hu|]. right. rewrite Hf. split; [reflexivity|].
      split; [unfold v; arith|].
      unfold u7_digit. change (16 <=? 8 + 6) with false. cbv iota zeta. f_equal. unfold v. arith.
    + apply digit_open.
  - set (p := u0 mod 4). set (v := p * 65536 + u).
    assert (Hp : 0 <= p < 4) by (unfold p; arith). assert (Hp' : u0 = 4 * (u0 / 4) + p) by (unfold p; arith).
    assert (E : u7_push 2 p u = ([b64_char (v / 4096 mod 64); b64_char (v / 64 mod 64); b64_char (v / 1 mod 64)], (0, v mod 1))) by reflexivity.
    rewrite E. cbn [fst snd length repeat]. set (so := fold_left u7_unit us' (None, [])).
    assert (Hf : fold_left u7_unit (us' ++ [u0]) (None, []) = u7_unit so u0) by (rewrite fold_left_app; reflexivity).
    assert (H1 : u7_digit 14 (u0 / 4) (fst so) (snd so) (v / 4096 mod 64)
                 = U7Shift 4 (u / 4096) (fst (u7_unit so u0)) (snd (u7_unit so u0))).
    { unfold u7_digit. change (16 <=? 14 + 6) with true. change (2 ^ (14 + 6 - 16)) with 16. cbv iota zeta.
      replace ((u0 / 4 * 64 + v / 4096 mod 64) / 16) with u0 by (unfold v; arith).
      replace ((u0 / 4 * 64 + v / 4096 mod 64) mod 16) with (u / 4096) by (unfold v; arith).
      rewrite <- surjective_pairing. destruct (u7_unit so u0); reflexivity. }
    eexists. split; [|split; [|split; [discriminate|]]].
    + econstructor; [apply (fun x H => digit_step _ x 14 (u0 / 4) (fst so) (snd so) H); [arith|reflexivity]|]. rewrite H1.
      econstructor; [apply (fun x H => digit_step _ x 4 (u / 4096) (fst (u7_unit so u0)) (snd (u7_unit so u0)) H); [arith|reflexivity]|].
      econstructor; [|constructor].
      apply (fun x H => digit_step _ x 10 (u / 4096 * 64 + v / 64 mod 64) (fst (u7_unit so u0)) (snd (u7_unit so u0)) H); [arith|reflexivity].
    + left. split; [reflexivity|]. split; [apply Z.mod_1_r|].
      assert (Hl : fold_left u7_unit ((us' ++ [u0]) ++ [u]) (None, []) = u7_unit (u7_unit so u0) u) by (rewrite fold_left_app, Hf; reflexivity).
      rewrite Hl. unfold u7_digit. change (16 <=? 10 + 6) with true. change (2 ^ (10 + 6 - 16)) with 1. cbv iota zeta.
      rewrite !Z.div_1_r, !Z.mod_1_r. replace ((u / 4096 * 64 + v / 64 mod 64) * 64 + v mod 64) with u by (unfold v; arith).
      rewrite <- surjective_pairing. destruct (u7_unit (u7_unit so u0) u); reflexivity.
    + apply digit_open.
Qed.

Lemma repeat_app {A} (x : A) a b : repeat x a ++ repeat x b = repeat x (a + b).
Proof. induction a; cbn; congruence. Qed.

Lemma push_all_synced us0 : forall b p us st, Forall (fun u => 0 <= u < 65536) us0 -> synced b p us st -> us0 <> [] ->
  exists st', gives utf7 st (fst (u7_push_all b p us0)) (repeat [] (length (fst (u7_push_all b p us0)))) st'
    /\ synced (fst (snd (u7_push_all b p us0))) (snd (snd (u7_push_all b p us0))) (us ++ us0) st' /\ opened st' = st'.
Proof.
  induction us0 as [|u us0 IH]; intros b p us st Hu Hs Hne; [congruence|]. inversion Hu as [|? ? Hu0 Hus]; subst.
  cbn [u7_push_all]. destruct (push_synced b p us st u Hu0 Hs) as (st1 & Hg & Hs1 & _ & Ho).
  destruct (u7_push b p u) as [out [b1 p1]]. cbn [fst snd] in *.
  destruct us0 as [|u1 us1].
  - cbn [u7_push_all fst snd]. rewrite app_nil_r. exists st1. auto.
  - destruct (IH b1 p1 (us ++ [u]) st1 Hus Hs1 ltac:(discriminate)) as (st2 & Hg2 & Hs2 & Ho2).
    destruct (u7_push_all b1 p1 (u1 :: us1)) as [out' st']. cbn [fst snd] in *.
    exists st2. rewrite <- app_assoc in Hs2. split; [|auto]. rewrite app_length, <- repeat_app. eapply gives_app; eauto.
Qed.

(** The end of a section: everything but the closing character has been read. *)
Lemma flush_synced b p us st : synced b p us st -> opened st = st -> exists bits,
  gives utf7 st (u7_flush b p) (repeat [] (length (u7_flush b p)))
    (U7Shift bits 0 (fst (fold_left u7_unit us (None, []))) (snd (fold_left u7_unit us (None, []))))
  /\ 0 <= bits < 6.
Proof.
  intros [(-> & -> & Ho)|(us' & u & -> & Hu & [(-> & -> & ->)|(-> & -> & ->)])] Hst.
  - rewrite Hst in Ho. rewrite Ho. exists 0. split; [constructor|lia].
  - exists 2. split; [|lia]. set (so := fold_left u7_unit us' (None, [])).
    assert (Hf : fold_left u7_unit (us' ++ [u]) (None, []) = u7_unit so u) by (rewrite fold_left_app; reflexivity). rewrite Hf.
    change (u7_flush 4 (u mod 16)) with [b64_char (u mod 16 * 4)]. cbn [length repeat].
    assert (H1 : u7_digit 12 (u / 16) (fst so) (snd so) (u mod 16 * 4) = U7Shift 2 0 (fst (u7_unit so u)) (snd (u7_unit so u))).
    { unfold u7_digit. change (16 <=? 12 + 6) with true. change (2 ^ (12 + 6 - 16)) with 4. cbv iota zeta.
      replace ((u / 16 * 64 + u mod 16 * 4) / 4) with u by arith. replace ((u / 16 * 64 + u mod 16 * 4) mod 4) with 0 by arith.
      rewrite <- surjective_pairing. destruct (u7_unit so u); reflexivity. }
    rewrite <- H1. econstructor; [apply (fun x H => digit_step _ x 12 (u / 16) (fst so) (snd so) H); [arith|reflexivity]|constructor].
  - exists 4. split; [|lia]. set (so := fold_left u7_unit us' (None, [])).
    assert (Hf : fold_left u7_unit (us' ++ [u]) (None, []) = u7_unit so u) by (rewrite fold_left_app; reflexivity). rewrite Hf.
    change (u7_flush 2 (u mod 4)) with [b64_char (u mod 4 * 16)]. cbn [length repeat].
    assert (H1 : u7_digit 14 (u / 4) (fst so) (snd so) (u mod 4 * 16) = U7Shift 4 0 (fst (u7_unit so u)) (snd (u7_unit so u))).
    { unfold u7_digit. change (16 <=? 14 + 6) with true. change (2 ^ (14 + 6 - 16)) with 16. cbv iota zeta.
      replace ((u / 4 * 64 + u mod 4 * 16) / 16) with u by arith. replace ((u / 4 * 64 + u mod 4 * 16) mod 16) with 0 by arith.
      rewrite <- surjective_pairing. destruct (u7_unit so u); reflexivity. }
    rewrite <- H1. econstructor; [apply (fun x H => digit_step _ x 14 (u / 4) (fst so) (snd so) H); [arith|reflexivity]|constructor].
Qed.

Lemma units_fold cp out : unicode cp -> fold_left u7_unit (u7_units cp) (None, out) = (None, out ++ [cp]).
Proof.
  intros [H1 H2]. unfold u7_units. destruct (cp <? 65536) eqn:E; cbn [fold_left]; unfold u7_unit.
  - replace ((55296 <=? cp) && (cp <=? 56319)) with false by lia. reflexivity.
  - pose proof (Z.mod_pos_bound (cp - 65536) 1024 ltac:(lia)) as Hm.
    assert (Hd : 0 <= (cp - 65536) / 1024 < 1024) by arith. set (q := (cp - 65536) / 1024) in *. set (r := (cp - 65536) mod 1024) in *.
    replace ((55296 <=? 55296 + q) && (55296 + q <=? 56319)) with true by lia.
    replace ((56320 <=? 56320 + r) && (56320 + r <=? 57343)) with true by lia. do 2 f_equal.
    unfold q, r. f_equal. arith.
Qed.

Lemma units_range cp : unicode cp -> Forall (fun u => 0 <= u < 65536) (u7_units cp) /\ u7_units cp <> [].
Proof.
  intros [H1 H2]. unfold u7_units. destruct (cp <? 65536) eqn:E; split; try discriminate.
  - constructor; [lia|constructor].
  - pose proof (Z.mod_pos_bound (cp - 65536) 1024 ltac:(lia)). assert (Hd : 0 <= (cp - 65536) / 1024 < 1024) by arith.
    constructor; [lia|constructor; [lia|constructor]].
Qed.

Lemma sec_fold sec : Forall unicode sec -> forall out, fold_left u7_unit (flat_map u7_units sec) (None, out) = (None, out ++ sec).
Proof.
  induction sec as [|cp sec IH]; intros H out; [cbn; rewrite app_nil_r; reflexivity|]. inversion H; subst.
  cbn [flat_map]. rewrite fold_left_app, units_fold by assumption. rewrite IH by assumption. rewrite <- app_assoc. reflexivity.
Qed.

(** The state of the encoder and of the decoder, and the text the decoder keeps. *)
Definition tracks (sh : option (Z * Z)) (sec : list Z) (st : u7_state) : Prop :=
  match sh with
  | None => sec = [] /\ st = U7Direct
  | Some (b, p) => sec <> [] /\ Forall unicode sec /\ synced b p (flat_map u7_units sec) st /\ opened st = st
  end.

Lemma direct_as_is cp : u7_direct cp = true <-> as_is cp.
Proof. unfold u7_direct, as_is. lia. Qed.

Lemma close_any b p sec st : tracks (Some (b, p)) sec st -> exists bits,
  gives utf7 st (u7_flush b p) (repeat [] (length (u7_flush b p))) (U7Shift bits 0 None sec) /\ 0 <= bits < 6.
Proof.
  intros (Hne & Hu & Hs & Ho). destruct (flush_synced _ _ _ _ Hs Ho) as (bits & Hg & Hb).
  rewrite (sec_fold sec Hu []) in Hg. exists bits. auto.
Qed.

Lemma close_dash b p sec st : tracks (Some (b, p)) sec st ->
  gives utf7 st (u7_flush b p ++ [45]) (repeat [] (length (u7_flush b p)) ++ [sec]) U7Direct.
Proof.
  intros Ht. destruct (close_any b p sec st Ht) as (bits & Hg & Hb). eapply gives_app; [exact Hg|].
  econstructor; [|constructor]. cbn [utf7 co_step u7_step]. change (b64_value 45) with (@None Z). cbv iota.
  replace (6 <=? bits) with false by lia. reflexivity.
Qed.

Lemma direct_step cp : as_is cp -> co_step utf7 U7Direct cp = Ok ([cp], U7Direct).
Proof.
  intros H. unfold as_is in H. cbn [utf7 co_step u7_step]. replace (cp =? 43) with false by lia.
  unfold u7_decodes. replace ((0 <=? cp) && (cp <=? 127) && negb (cp =? 43)) with true by lia. reflexivity.
Qed.

(** A character. *)
Definition u7_char (sh : option (Z * Z)) (cp : Z) : list Z * option (Z * Z) :=
  match sh with
  | None =>
    if cp =? 43 then ([43; 45], None)
    else if u7_direct cp then ([cp], None)
    else let '(out, st) := u7_push_all 0 0 (u7_units cp) in (43 :: out, Some st)
  | Some (bits, p) =>
    if u7_direct cp then
      (u7_flush bits p ++ (if match b64_value cp with Some _ => true | None => cp =? 45 end then [45] else []) ++ [cp], None)
    else let '(out, st) := u7_push_all bits p (u7_units cp) in (out, Some st)
  end.

Lemma encode_char_app sh cp s : u7_encode sh (cp :: s) = fst (u7_char sh cp) ++ u7_encode (snd (u7_char sh cp)) s.
Proof.
  cbn [u7_encode]. unfold u7_char. destruct sh as [[bits p]|].
  - destruct (u7_direct cp); cbn [fst snd]; [rewrite <- !app_assoc; reflexivity|]. destruct (u7_push_all bits p (u7_units cp)). reflexivity.
  - destruct (cp =? 43); [reflexivity|]. destruct (u7_direct cp); [reflexivity|]. destruct (u7_push_all 0 0 (u7_units cp)). reflexivity.
Qed.

Lemma char_tracks sh sec st cp : unicode cp -> tracks sh sec st -> exists outs sec' st',
  gives utf7 st (fst (u7_char sh cp)) outs st' /\ tracks (snd (u7_char sh cp)) sec' st' /\ concat outs ++ sec' = sec ++ [cp]
  /\ (snd (u7_char sh cp) <> None -> concat outs = []).
Proof.
  intros Hc Ht. destruct (units_range cp Hc) as [Hr Hne]. unfold u7_char. destruct sh as [[b p]|].
  - destruct (u7_direct cp) eqn:Hd; cbn [fst snd].
    + apply direct_as_is in Hd. destruct (match b64_value cp with Some _ => true | None => cp =? 45 end) eqn:Hb.
      * exists ((repeat [] (length (u7_flush b p)) ++ [sec]) ++ [[cp]]), [], U7Direct. split; [|split; [|split; [|congruence]]].
        { rewrite app_assoc. eapply gives_app; [apply close_dash; exact Ht|]. econstructor; [apply direct_step; exact Hd|constructor]. }
        { split; reflexivity. }
        { rewrite !concat_app, concat_silent. cbn. rewrite !app_nil_r. reflexivity. }
      * destruct (close_any b p sec st Ht) as (bits & Hg & Hbits). exists (repeat [] (length (u7_flush b p)) ++ [sec ++ [cp]]), [], U7Direct.
        split; [|split; [|split; [|congruence]]].
        { cbn [app]. eapply gives_app; [exact Hg|]. econstructor; [|constructor]. cbn [utf7 co_step u7_step].
          destruct (b64_value cp); [discriminate|]. replace (6 <=? bits) with false by lia. cbn [orb negb Z.eqb]. rewrite Hb.
          unfold as_is in Hd. unfold u7_decodes. replace ((0 <=? cp) && (cp <=? 127) && negb (cp =? 43)) with true by lia. reflexivity. }
        { split; reflexivity. }
        { rewrite !concat_app, concat_silent. cbn. rewrite !app_nil_r. reflexivity. }
    + destruct Ht as (Hsec & Hu & Hs & Ho). destruct (push_all_synced _ b p _ _ Hr Hs Hne) as (st' & Hg & Hs' & Ho').
      destruct (u7_push_all b p (u7_units cp)) as [out [b1 p1]]. cbn [fst snd] in *.
      exists (repeat [] (length out)), (sec ++ [cp]), st'. split; [exact Hg|]. split; [|split; [rewrite concat_silent; reflexivity|intros _; apply concat_silent]].
      split; [destruct sec; discriminate|]. split; [apply Forall_app; auto|]. split; [|exact Ho'].
      rewrite flat_map_app. cbn [flat_map]. rewrite app_nil_r. exact Hs'.
  - destruct Ht as [-> ->]. destruct (cp =? 43) eqn:Hp; cbn [fst snd].
    + apply Z.eqb_eq in Hp. subst cp. exists [[]; [43]], [], U7Direct. split; [|split; [split; reflexivity|split; [reflexivity|congruence]]].
      econstructor; [reflexivity|]. econstructor; [reflexivity|]. constructor.
    + destruct (u7_direct cp) eqn:Hd; cbn [fst snd].
      * apply direct_as_is in Hd. exists [[cp]], [], U7Direct. split; [|split; [split; reflexivity|split; [reflexivity|congruence]]].
        econstructor; [apply direct_step; exact Hd|constructor].
      * assert (Hs : synced 0 0 [] U7Plus) by (left; auto).
        destruct (push_all_synced _ 0 0 _ _ Hr Hs Hne) as (st' & Hg & Hs' & Ho').
        destruct (u7_push_all 0 0 (u7_units cp)) as [out [b1 p1]]. cbn [fst snd] in *.
        exists ([] :: repeat [] (length out)), [cp], st'. split; [econstructor; [reflexivity|exact Hg]|].
        split; [|split; [cbn [concat app]; rewrite concat_silent; reflexivity|intros _; cbn [concat app]; apply concat_silent]].
        split; [discriminate|]. split; [auto|]. split; [|exact Ho'].
        cbn [flat_map]. rewrite app_nil_r. exact Hs'.
Qed.

Fixpoint u7_text (sh : option (Z * Z)) (t : list Z) : list Z * option (Z * Z) :=
  match t with
  | [] => ([], sh)
  | cp :: t' => let '(bs, sh') := u7_text (snd (u7_char sh cp)) t' in (fst (u7_char sh cp) ++ bs, sh')
  end.

Lemma encode_text_app t : forall sh s, u7_encode sh (t ++ s) = fst (u7_text sh t) ++ u7_encode (snd (u7_text sh t)) s.
Proof.
  induction t as [|cp t IH]; intros sh s; [reflexivity|]. cbn [app]. rewrite encode_char_app, IH. cbn [u7_text].
  destruct (u7_text (snd (u7_char sh cp)) t). cbn [fst snd]. rewrite app_assoc. reflexivity.
Qed.

Lemma text_tracks t : forall sh sec st, Forall unicode t -> tracks sh sec st -> exists outs sec' st',
  gives utf7 st (fst (u7_text sh t)) outs st' /\ tracks (snd (u7_text sh t)) sec' st' /\ concat outs ++ sec' = sec ++ t.
Proof.
  induction t as [|cp t IH]; intros sh sec st Hu Ht.
  - exists [], sec, st. split; [constructor|]. split; [exact Ht|]. rewrite app_nil_r. reflexivity.
  - inversion Hu as [|? ? Hc Hut]; subst. destruct (char_tracks sh sec st cp Hc Ht) as (o1 & sec1 & st1 & Hg1 & Ht1 & E1 & _).
    destruct (IH _ _ _ Hut Ht1) as (o2 & sec2 & st2 & Hg2 & Ht2 & E2). cbn [u7_text].
    destruct (u7_text (snd (u7_char sh cp)) t) as [bs sh']. cbn [fst snd] in *.
    exists (o1 ++ o2), sec2, st2. split; [eapply gives_app; eauto|]. split; [exact Ht2|].
    rewrite concat_app, <- app_assoc, E2, app_assoc, E1, <- app_assoc. reflexivity.
Qed.

Lemma end_tracks sh sec st : tracks sh sec st -> exists outs,
  gives utf7 st (u7_encode sh []) outs U7Direct /\ concat outs = sec
  /\ (sh <> None -> exists n, outs = repeat [] n ++ [sec]).
Proof.
  destruct sh as [[b p]|]; intros Ht.
  - exists (repeat [] (length (u7_flush b p)) ++ [sec]). split; [apply close_dash; exact Ht|]. split; [|eauto].
    rewrite concat_app, concat_silent. cbn. apply app_nil_r.
  - destruct Ht as [-> ->]. exists []. split; [constructor|]. split; [reflexivity|congruence].
Qed.

Lemma gives_decode st bs outs st' : gives utf7 st bs outs st' ->
  u7_decode st bs = match u7_stop st' with Ok o => Ok (concat outs ++ o) | Raise e => Raise e | OOF => OOF end.
Proof.
  intros H. induction H as [st|st b out st1 bs outs st2 Hs Hg IH]; cbn [u7_decode].
  - destruct (u7_stop st); reflexivity.
  - cbn [utf7 co_step] in Hs. rewrite Hs. cbn [bind snd fst]. rewrite IH. destruct (u7_stop st2); cbn [bind concat]; rewrite <- ?app_assoc; reflexivity.
Qed.

Lemma utf7_decodes t : Forall unicode t -> u7_decode U7Direct (u7_encode None t) = Ok t.
Proof.
  intros Hu. destruct (text_tracks t None [] U7Direct Hu (conj eq_refl eq_refl)) as (o1 & sec & st & Hg & Ht & E).
  destruct (end_tracks _ _ _ Ht) as (o2 & Hg2 & E2 & _).
  pose proof (encode_text_app t None []) as Ha. rewrite app_nil_r in Ha. rewrite Ha.
  rewrite (gives_decode _ _ _ _ (gives_app _ _ _ _ _ _ _ _ Hg Hg2)). cbn [u7_stop]. rewrite app_nil_r, concat_app, E2, E. reflexivity.
Qed.

Lemma text_snoc t : forall sh cp, snd (u7_text sh (t ++ [cp])) = snd (u7_char (snd (u7_text sh t)) cp).
Proof.
  induction t as [|x t IH]; intros sh cp; cbn [app u7_text snd fst].
  - reflexivity.
  - specialize (IH (snd (u7_char sh x)) cp). destruct (u7_text (snd (u7_char sh x)) (t ++ [cp])), (u7_text (snd (u7_char sh x)) t). exact IH.
Qed.

Lemma char_none sh cp : snd (u7_char sh cp) = None <-> as_is cp \/ cp = 43 /\ sh = None.
Proof.
  rewrite <- direct_as_is. unfold u7_char. destruct sh as [[b p]|].
  - destruct (u7_direct cp); cbn [snd]; [tauto|]. destruct (u7_push_all b p (u7_units cp)). cbn [snd]. split; [discriminate|].
    intros [H|[_ H]]; discriminate.
  - destruct (cp =? 43) eqn:E; cbn [snd]; [split; [right; split; [lia|reflexivity]|reflexivity]|].
    destruct (u7_direct cp); cbn [snd]; [tauto|]. destruct (u7_push_all 0 0 (u7_units cp)). cbn [snd]. split; [discriminate|].
    intros [H|[H _]]; [discriminate|lia].
Qed.

Lemma plain_end_iff t : snd (u7_text None t) = None <-> plain_end t.
Proof.
  induction t as [|cp t IH] using rev_ind; [split; [constructor|reflexivity]|]. rewrite text_snoc, char_none. split.
  - intros [H|[-> H]]; [apply plain_char; exact H|apply plain_plus, IH, H].
  - intros H. inversion H as [E|t0 c0 Hc E|t0 Ht E].
    + destruct t; discriminate.
    + apply app_inj_tail in E. destruct E as [_ <-]. left. exact Hc.
    + apply app_inj_tail in E. destruct E as [<- <-]. right. split; [reflexivity|]. apply IH, Ht.
Qed.

Lemma concat_nil_all outs : concat outs = [] -> Forall (fun o => o = @nil Z) outs.
Proof.
  induction outs as [|o outs IH]; intros H; [constructor|]. cbn [concat] in H. apply app_eq_nil in H. destruct H as [-> H]. constructor; auto.
Qed.

Lemma nul_unicode : unicode 0.
Proof. unfold unicode. lia. Qed.

Lemma utf7_found t : Forall unicode t -> plain_end t ->
  exists outs, gives utf7 U7Direct (u7_encode None (t ++ [0])) (outs ++ [[0]]) U7Direct /\ concat outs = t.
Proof.
  intros Hu Hp. apply plain_end_iff in Hp.
  destruct (text_tracks t None [] U7Direct Hu (conj eq_refl eq_refl)) as (o1 & sec & st & Hg & Ht & E). rewrite Hp in Ht.
  destruct (char_tracks _ _ _ 0 nul_unicode Ht) as (o2 & sec2 & st2 & Hg2 & Ht2 & E2 & Hs2). rewrite encode_text_app, Hp, encode_char_app.
  assert (Hsh : snd (u7_char None 0) <> None) by (intros H; apply char_none in H; unfold as_is in H; lia).
  destruct Ht as [-> ->]. specialize (Hs2 Hsh). rewrite Hs2 in E2. cbn [app] in E2. subst sec2.
  destruct (end_tracks _ _ _ Ht2) as (o3 & Hg3 & _ & Ho3). destruct (Ho3 Hsh) as [n ->].
  exists (o1 ++ o2 ++ repeat [] n). split.
  - rewrite <- !app_assoc. eapply gives_app; [exact Hg|]. eapply gives_app; [exact Hg2|exact Hg3].
  - rewrite !concat_app, Hs2, concat_silent. rewrite !app_nil_r in *. exact E.
Qed.

Lemma utf7_missed t : Forall unicode t -> without_nul t -> ~ plain_end t ->
  exists outs, gives utf7 U7Direct (u7_encode None (t ++ [0])) outs U7Direct /\ concat outs = t ++ [0] /\ ~ In [0] outs.
Proof.
  intros Hu Hn Hp. rewrite <- plain_end_iff in Hp.
  destruct (text_tracks t None [] U7Direct Hu (conj eq_refl eq_refl)) as (o1 & sec & st & Hg & Ht & E).
  rewrite encode_text_app, encode_char_app. set (sh := snd (u7_text None t)) in *.
  destruct (char_tracks _ _ _ 0 nul_unicode Ht) as (o2 & sec2 & st2 & Hg2 & Ht2 & E2 & Hs2).
  assert (Hsh : snd (u7_char sh 0) <> None) by (intros H; apply char_none in H; unfold as_is in H; lia).
  assert (Hsec : sec <> []) by (destruct sh as [[b p]|]; [apply Ht|congruence]).
  specialize (Hs2 Hsh). rewrite Hs2 in E2. cbn [app] in E2. subst sec2.
  destruct (end_tracks _ _ _ Ht2) as (o3 & Hg3 & _ & Ho3). destruct (Ho3 Hsh) as [n ->].
  exists (o1 ++ o2 ++ repeat [] n ++ [sec ++ [0]]). split; [|split].
  - eapply gives_app; [exact Hg|]. eapply gives_app; [exact Hg2|exact Hg3].
  - rewrite !concat_app, Hs2, concat_silent. cbn [app concat]. rewrite app_nil_r, app_assoc, E. reflexivity.
  - rewrite !in_app_iff. intros [H|[H|[H|[H|[]]]]].
    + refine (concat_nul o1 (concat o1) eq_refl _ H). unfold without_nul in *. cbn [app] in E. rewrite <- E in Hn. apply Forall_app in Hn. apply Hn.
    + pose proof (concat_nil_all _ Hs2) as Hf. rewrite Forall_forall in Hf. specialize (Hf _ H). discriminate.
    + apply repeat_spec in H. discriminate.
    + destruct sec as [|x sec]; [congruence|]. destruct sec; discriminate.
Qed.

Lemma finds_app co st bs outs st1 : gives co st bs outs st1 -> ~ In [0] outs -> forall suf t n, finds co st (bs ++ suf) t n ->
  exists t1 n1, finds co st1 suf t1 n1 /\ t = concat outs ++ t1 /\ n = (length bs + n1)%nat.
Proof.
  intros H. induction H as [st|st b out st1 bs outs st2 Hs Hg IH]; intros Hn suf t n Hf.
  - exists t, n. auto.
  - cbn [app] in Hf. apply finds_cons in Hf. destruct Hf as (out' & st' & Hs' & Hf). rewrite Hs in Hs'. injection Hs' as <- <-.
    destruct Hf as [(-> & _)|(_ & t1 & n1 & Hf & -> & ->)]; [exfalso; apply Hn; left; reflexivity|].
    destruct (IH (fun Hi => Hn (or_intror Hi)) _ _ _ Hf) as (t2 & n2 & Hf2 & -> & ->).
    exists t2, n2. cbn [concat length]. rewrite <- app_assoc. auto.
Qed.

Lemma utf7_dumps c pad t ctx d : u_dump (x_stringz c utf7 pad) (VStr t) ctx d = (u7_encode None (t ++ [0]), Ok tt).
Proof. reflexivity. Qed.

Lemma utf7_undone c pad ctx d ctx' dl t : c_size c = SNone -> no_limit c dl -> Forall unicode t -> without_nul t -> plain_end t ->
  undoes (x_stringz c utf7 pad) ctx d ctx' dl (VStr t) (VStr t).
Proof.
  intros Hc Hl Hu Hn Hp. destruct (utf7_found t Hu Hp) as (outs & Hg & E).
  apply (found_undoes c utf7 pad ctx d ctx' dl t (u7_encode None (t ++ [0])) outs U7Direct Hc Hl eq_refl Hg); [|exact E].
  apply (concat_nul outs t E Hn).
Qed.

Lemma utf7_lost c pad ctx dl t pre suf s' v : no_limit c dl -> Forall unicode t -> without_nul t -> ~ plain_end t ->
  u_load (x_stringz c utf7 pad) ctx dl (at_data pre (u7_encode None (t ++ [0])) suf) = (s', Ok v) ->
  exists more, v = VStr (t ++ 0 :: more).
Proof.
  intros Hl Hu Hn Hp H. apply (stringz_iff c utf7 pad ctx dl None _ _ _ (no_limit_is c utf7 dl Hl)) in H.
  destruct H as (t1 & n & Hf & -> & _). cbn [allowed] in Hf. rewrite rest_at in Hf.
  destruct (utf7_missed t Hu Hn Hp) as (outs & Hg & E & Ho).
  destruct (finds_app _ _ _ _ _ Hg Ho _ _ _ Hf) as (t2 & n2 & _ & -> & _). exists t2. rewrite E, <- app_assoc. reflexivity.
Qed.

Lemma utf7_iff c pad ctx dl t pre suf : no_limit c dl -> Forall unicode t -> without_nul t ->
  u_load (x_stringz c utf7 pad) ctx dl (at_data pre (u7_encode None (t ++ [0])) suf)
  = (after_data pre (u7_encode None (t ++ [0])) suf, Ok (VStr t)) <-> plain_end t.
Proof.
  intros Hl Hu Hn. split.
  - intros H. destruct (snd (u7_text None t)) as [q|] eqn:E; [|apply plain_end_iff; exact E]. exfalso.
    assert (Hp : ~ plain_end t) by (intros Hp; apply plain_end_iff in Hp; congruence).
    destruct (utf7_lost c pad ctx dl t pre suf _ _ Hl Hu Hn Hp H) as [more Hm]. injection Hm as Hm.
    rewrite <- (app_nil_r t) in Hm at 1. apply app_inv_head in Hm. discriminate.
  - intros Hp. pose proof (utf7_undone c pad VNone [] ctx dl t (proj1 Hl) Hl Hu Hn Hp) as H.
    apply (H (u7_encode None (t ++ [0]))); [apply utf7_dumps|]. left. split; [apply Hl|reflexivity].
Qed.

(** At the end of the data. *)
Lemma loop_end co name : forall fuel st bs outs st1 nr acc s, gives co st bs outs st1 -> ~ In [0] outs -> rest s = bs -> (length bs < fuel)%nat ->
  x_loop fuel name co None nr st acc s
  = (advance s (length bs), do out <- co_stop co st1; if is_nul out then Ok (VStr (acc ++ concat outs)) else Raise (EDeserialization name)).
Proof.
  induction fuel as [|fuel IH]; intros st bs outs st1 nr acc s Hg Hn Hr Hf; [lia|]. cbn [x_loop].
  pose proof (iter_window None nr s) as Hw. cbn [window] in Hw. rewrite Hr in Hw. destruct bs as [|b bs].
  - rewrite Hw. inversion Hg; subst. cbn [length concat]. rewrite advance_0, app_nil_r. reflexivity.
  - destruct Hw as [-> Hw]. apply gives_cons_inv in Hg. destruct Hg as (out & st2 & outs1 & -> & Hs & Hg). rewrite Hs.
    destruct (is_nul out) eqn:E; [apply is_nul_iff in E; exfalso; apply Hn; left; exact E|].
    rewrite (IH st2 bs outs1 st1 (nr + 1) (acc ++ out) (advance s 1) Hg (fun Hi => Hn (or_intror Hi)) Hw) by (cbn [length] in Hf; lia).
    rewrite advance_advance. cbn [concat length]. rewrite app_assoc. reflexivity.
Qed.

Lemma utf7_raises c pad ctx dl t pre : no_limit c dl -> Forall unicode t -> without_nul t -> ~ plain_end t ->
  u_load (x_stringz c utf7 pad) ctx dl (at_data pre (u7_encode None (t ++ [0])) [])
  = (after_data pre (u7_encode None (t ++ [0])) [], Raise (EDeserialization (c_name c))).
Proof.
  intros Hl Hu Hn Hp. destruct (utf7_missed t Hu Hn Hp) as (outs & Hg & E & Ho).
  destruct (no_limit_is c utf7 dl Hl) as [nm Hx]. unfold x_stringz. cbn [u_load]. rewrite Hx. cbn [is_UndefinedSizeError].
  rewrite (loop_end utf7 (c_name c) _ U7Direct (u7_encode None (t ++ [0])) outs U7Direct 0 [] _ Hg Ho).
  - rewrite advance_at. reflexivity.
  - rewrite rest_at. apply app_nil_r.
  - rewrite rest_at, app_nil_r. lia.
Qed.

Lemma undone_field eqv f ctx d ctx' dl t out pre suf :
  undoes f ctx d ctx' dl (VStr t) (VStr t) -> shows_up f ctx' dl true -> accepts (u_conf f) (VStr t) ->
  c_const (u_conf f) = VUndefined -> c_null (u_conf f) = VUndefined ->
  u_to_stream f (VStr t) ctx d = (out, Ok tt) ->
  u_from_stream eqv f ctx' dl (at_data pre out suf) = (after_data pre out suf, Ok (VStr t)).
Proof.
  intros Hu Hp Ha Hc Hn Ht. apply (field_roundtrip eqv f ctx d ctx' dl (VStr t) (VStr t) out pre suf); [|exact Ht].
  apply restores_value; auto; [repeat split; discriminate|discriminate].
Qed.

Fixpoint prefix_freeb (t : list (Z * list Z)) : bool :=
  match t with
  | [] => true
  | e :: t' => negb (bytes_eqb (snd e) [])
               && forallb (fun e' => negb (fst e' =? fst e) && negb (begins (snd e) (snd e')) && negb (begins (snd e') (snd e))) t'
               && prefix_freeb t'
  end.

Lemma prefix_freeb_ok t : prefix_freeb t = true -> prefix_free t.
Proof.
  induction t as [|e t IH]; intros H; [exact I|]. cbn [prefix_freeb] in H. apply andb_prop in H. destruct H as [H Ht].
  apply andb_prop in H. destruct H as [Hn Ha]. cbn [prefix_free]. split; [|split; [|apply IH, Ht]].
  - intros E. rewrite E in Hn. discriminate.
  - intros e' Hi. rewrite forallb_forall in Ha. specialize (Ha e' Hi). apply andb_prop in Ha. destruct Ha as [Ha H3].
    apply andb_prop in Ha. destruct Ha as [H1 H2]. split; [|split].
    + intros E. rewrite E, Z.eqb_refl in H1. discriminate.
    + intros Hs. apply begins_iff in Hs. rewrite Hs in H2. discriminate.
    + intros Hs. apply begins_iff in Hs. rewrite Hs in H3. discriminate.
Qed.
