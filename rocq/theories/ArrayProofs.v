(** Arrays (C39-C41). *)
From Verif Require Import Tac PyIntProofs StreamProofs.
From Verif Require Export FuelProofs.

Lemma dumps_to_mono E n m f v ctx d bs : (n <= m)%nat ->
  field_to_stream E n f v ctx d = (bs, Ok tt) -> field_to_stream E m f v ctx d = (bs, Ok tt).
Proof.
  intros Hle H. destruct (field_to_stream_mono E n m f v ctx d Hle) as [Ho|Ho].
  - rewrite H in Ho. discriminate.
  - congruence.
Qed.

Lemma loads_to_mono E n m f ctx d s s' v : (n <= m)%nat ->
  field_from_stream E n f ctx d s = (s', Ok v) -> field_from_stream E m f ctx d s = (s', Ok v).
Proof.
  intros Hle H. destruct (field_from_stream_mono E n m f ctx d Hle s) as [Ho|Ho].
  - rewrite H in Ho. discriminate.
  - congruence.
Qed.

Lemma load_raise_mono E n m f ctx d s s' e : (n <= m)%nat ->
  field_from_stream E n f ctx d s = (s', Raise e) -> field_from_stream E m f ctx d s = (s', Raise e).
Proof.
  intros Hle H. destruct (field_from_stream_mono E n m f ctx d Hle s) as [Ho|Ho].
  - rewrite H in Ho. discriminate.
  - congruence.
Qed.

Lemma loads_to_fun E f ctx d s s1 v1 s2 v2 :
  loads_to E f ctx d s s1 v1 -> loads_to E f ctx d s s2 v2 -> s1 = s2 /\ v1 = v2.
Proof.
  intros [n Hn] [m Hm].
  apply (loads_to_mono E n (Nat.max n m)) in Hn; [|lia].
  apply (loads_to_mono E m (Nat.max n m)) in Hm; [|lia]. split; congruence.
Qed.

Lemma dumps_to_fun E f v ctx d b1 b2 :
  dumps_to E f v ctx d b1 -> dumps_to E f v ctx d b2 -> b1 = b2.
Proof.
  intros [n Hn] [m Hm].
  apply (dumps_to_mono E n (Nat.max n m)) in Hn; [|lia].
  apply (dumps_to_mono E m (Nat.max n m)) in Hm; [|lia]. congruence.
Qed.

Lemma forall2_impl {A B} (P Q : A -> B -> Prop) l l' : (forall a b, P a b -> Q a b) ->
  Forall2 P l l' -> Forall2 Q l l'.
Proof. intros H. induction 1; constructor; auto. Qed.

Lemma parts_common_fuel E comp ctx d l parts :
  Forall2 (fun v bs => dumps_to E comp v ctx d bs) l parts ->
  exists n, Forall2 (fun v bs => field_to_stream E n comp v ctx d = (bs, Ok tt)) l parts.
Proof.
  induction 1 as [|v bs l parts [n Hn] _ [m Hm]].
  - exists 0%nat. constructor.
  - exists (Nat.max n m). constructor.
    + apply (dumps_to_mono E n); auto. lia.
    + eapply forall2_impl; [|exact Hm]. intros. apply (dumps_to_mono E m); auto. lia.
Qed.

(** ** Dumping *)
Lemma dump_items_ok dump1 l : forall out,
  dump_items dump1 l = (out, Ok tt)
  <-> exists parts, Forall2 (fun v bs => dump1 v = (bs, Ok tt)) l parts /\ out = concat parts.
Proof.
  induction l as [|v l IH]; intros out; cbn [dump_items].
  - unfold dret. split.
    + intros [= <-]. exists []. auto.
    + intros (parts & Hp & ->). inversion Hp. auto.
  - split.
    + intros H. apply dbind_ok_inv in H. destruct H as (o1 & [] & o2 & H1 & H2 & ->).
      apply IH in H2. destruct H2 as (parts & Hp & ->). exists (o1 :: parts). split; auto.
    + intros (parts & Hp & ->). inversion Hp as [|? o1 ? ps H1 H2]; subst.
      rewrite H1. cbn [dbind concat].
      assert (H3 : dump_items dump1 l = (concat ps, Ok tt)) by (apply IH; eauto). rewrite H3. auto.
Qed.

(** The number of elements a count allows. *)
Definition count_allows (ne : option count) (k : Z) : Prop :=
  match ne with Some (CountInt n) => k = n | Some CountOther => False | None => True end.

Lemma dump_unsized_ok dump1 name ne l : forall nw out, 0 <= nw ->
  match ne with Some (CountInt n) => nw <= n | _ => True end ->
  (dump_unsized dump1 name ne nw l = (out, Ok tt)
   <-> count_allows ne (nw + zlen l)
       /\ exists parts, Forall2 (fun v bs => dump1 v = (bs, Ok tt)) l parts /\ out = concat parts).
Proof.
  induction l as [|v l IH]; intros nw out H0 Hne; cbn [dump_unsized].
  - unfold zlen, count_allows. cbn [length]. split.
    + destruct ne as [[n|]|]; cbn [count_above dlift]; [|discriminate|].
      * rewrite dbind_ok. destruct (nw <? n) eqn:Hlt; [discriminate|].
        unfold dret; intros [= <-]. split; [lia|]. exists []; auto.
      * unfold dret; intros [= <-]. split; [auto|]. exists []; auto.
    + intros (Hc & parts & Hp & ->). inversion Hp. destruct ne as [[n|]|]; [|contradiction|auto].
      cbn [count_above dlift]. rewrite dbind_ok. replace (nw <? n) with false by lia. auto.
  - assert (Hz : zlen (v :: l) = zlen l + 1) by (unfold zlen; cbn [length]; lia). rewrite Hz.
    assert (Hl : 0 <= zlen l) by (unfold zlen; lia).
    replace (nw + (zlen l + 1)) with (nw + 1 + zlen l) by lia.
    destruct (match ne with Some c => count_is c nw | None => false end) eqn:Hfull.
    + split; [discriminate|]. destruct ne as [[n|]|]; try discriminate. cbn [count_is] in Hfull.
      cbn [count_allows]. intros [Hc _]. lia.
    + assert (Hne' : match ne with Some (CountInt n) => nw + 1 <= n | _ => True end).
      { destruct ne as [[n|]|]; auto. cbn [count_is] in Hfull. lia. }
      split.
      * intros H. apply dbind_ok_inv in H. destruct H as (o1 & [] & o2 & H1 & H2 & ->).
        apply IH in H2; [|lia|auto].
        destruct H2 as (Hc & parts & Hp & ->). split; [auto|].
        exists (o1 :: parts). auto.
      * intros (Hc & parts & Hp & ->). inversion Hp as [|? o1 ? ps H1 H2]; subst.
        rewrite H1. cbn [dbind concat].
        assert (H3 : dump_unsized dump1 name ne (nw + 1) l = (concat ps, Ok tt)).
        { apply IH; [lia|auto|]. eauto. }
        rewrite H3. auto.
Qed.

Lemma count_cases cnt d :
  (exists m, counted cnt d m /\ get_final_element_count cnt d = Ok (Some (CountInt m)))
  \/ (uncounted cnt d /\ get_final_element_count cnt d = Ok None)
  \/ exists r, get_final_element_count cnt d = r /\ (r = Ok (Some CountOther) \/ exists e, r = Raise e)
     /\ (forall m, ~ counted cnt d m) /\ ~ uncounted cnt d.
Proof.
  destruct cnt as [|m|nm|].
  - right; left. split; [left|]; auto.
  - left. exists m. split; [left|]; auto.
  - cbn [get_final_element_count]. destruct (dget d nm) as [v|] eqn:Hd.
    + assert (Hno : v <> VNone -> (forall m, v <> VInt m) ->
         (forall m, ~ counted (CntRef nm) d m) /\ ~ uncounted (CntRef nm) d).
      { intros H1 H2. split; [intros m|]; intros [H|(x & Hx & Hg)]; try discriminate;
          injection Hx as <-; [apply (H2 m)|apply H1]; congruence. }
      destruct v; try (right; right; eexists; split; [reflexivity|split; [eauto|apply Hno; discriminate]]).
      * right; left. split; auto. right. eauto.
      * left. exists z. split; auto. right. eauto.
    + right; right. eexists. split; [reflexivity|]. split; [right; eexists; reflexivity|]. split; [intros m|]; intros [H|(x & Hx & Hg)];
        try discriminate; injection Hx as <-; congruence.
  - right; right. eexists. split; [reflexivity|]. split; [right; eexists; reflexivity|]. split; [intros m|]; intros [H|(x & Hx & Hg)]; discriminate.
Qed.

Lemma counted_fun cnt d m m' : counted cnt d m -> counted cnt d m' -> m = m'.
Proof. intros [->|(x & -> & H)] [E1|(y & E1 & H')]; congruence. Qed.

Lemma counted_get cnt d m : counted cnt d m -> get_final_element_count cnt d = Ok (Some (CountInt m)).
Proof. intros [->|(x & -> & H)]; cbn [get_final_element_count]; [auto|rewrite H; auto]. Qed.

Lemma uncounted_get cnt d : uncounted cnt d -> get_final_element_count cnt d = Ok None.
Proof. intros [->|(x & -> & H)]; cbn [get_final_element_count]; [auto|rewrite H; auto]. Qed.

(** The length an array may have. *)
Definition length_ok (cnt : countspec) (d : dict) (k : Z) : Prop :=
  counted cnt d k \/ uncounted cnt d.

Lemma array_dump_list dump1 name cnt l d out :
  array_dump dump1 name cnt (VList l) d = (out, Ok tt)
  <-> length_ok cnt d (zlen l)
      /\ exists parts, Forall2 (fun v bs => dump1 v = (bs, Ok tt)) l parts /\ out = concat parts.
Proof.
  unfold array_dump, length_ok. cbn [sized_items].
  destruct (count_cases cnt d) as [(m & Hc & ->)|[(Hu & ->)|(r & -> & Hr & Hn & Hn')]].
  - rewrite dbind_ok. cbn [count_is]. destruct (zlen l =? m) eqn:Hm; cbn [negb].
    + rewrite dump_items_ok. assert (m = zlen l) by lia. subst m. tauto.
    + split; [discriminate|]. intros [[Hk|Hu] _].
      * pose proof (counted_fun _ _ _ _ Hc Hk). lia.
      * apply uncounted_get in Hu. apply counted_get in Hc. congruence.
  - rewrite dbind_ok. rewrite dump_items_ok. tauto.
  - split.
    + destruct Hr as [->|[e ->]]; [rewrite dbind_ok|rewrite dbind_raise]; discriminate.
    + intros [[Hk|Hu] _]; [destruct (Hn _ Hk)|contradiction].
Qed.

Lemma array_dump_gen dump1 name cnt l d out : (forall m, counted cnt d m -> 0 <= m) ->
  array_dump dump1 name cnt (VGen l) d = (out, Ok tt)
  <-> length_ok cnt d (zlen l)
      /\ exists parts, Forall2 (fun v bs => dump1 v = (bs, Ok tt)) l parts /\ out = concat parts.
Proof.
  intros Hpos. unfold array_dump, length_ok. cbn [sized_items].
  destruct (count_cases cnt d) as [(m & Hc & ->)|[(Hu & ->)|(r & -> & Hr & Hn & Hn')]].
  - rewrite dbind_ok, dump_unsized_ok by (auto; lia). cbn [count_allows]. split.
    + intros [Hm Hp]. split; auto. left. replace (zlen l) with m by lia. auto.
    + intros [[Hk|Hu] Hp]; split; auto.
      * pose proof (counted_fun _ _ _ _ Hc Hk). lia.
      * apply uncounted_get in Hu. apply counted_get in Hc. congruence.
  - rewrite dbind_ok, dump_unsized_ok by (auto; lia). cbn [count_allows]. tauto.
  - split.
    + destruct Hr as [->|[e ->]]; [rewrite dbind_ok, dump_unsized_ok by (auto; lia); intros [[] _]
        |rewrite dbind_raise; discriminate].
    + intros [[Hk|Hu] _]; [destruct (Hn _ Hk)|contradiction].
Qed.

Lemma sized_write_fits g c comp cnt halt bs out d :
  (forall name, c_size c = SRef name -> g = match dget d name with
     | Some (VInt n) => Ok n | Some _ => Raise ETypeErr | None => Raise (EMissingRequired (Some name)) end) ->
  sized_write g c (KArray comp cnt halt) bs = (out, Ok tt) <-> out = bs /\ fits_size c d bs.
Proof.
  intros Hg. unfold sized_write, fits_size. destruct (c_size c) as [|m|nm] eqn:Hs.
  - rewrite dbind_ok. replace (0 <? zlen bs - zlen bs) with false by lia.
    replace (zlen bs - zlen bs <? 0) with false by lia. unfold dwrite. cbn. split; [intros [= <-]; auto|].
    intros [-> _]. auto.
  - rewrite dbind_ok. cbv zeta. cbn [add_padding]. rewrite dbind_raise.
    destruct (0 <? zlen bs - m) eqn:H1; [|destruct (zlen bs - m <? 0) eqn:H2].
    + split; [discriminate|]. intros [_ H]. lia.
    + split; [discriminate|]. intros [_ H]. lia.
    + unfold dwrite. split; [intros [= <-]; split; auto; lia|]. intros [-> _]. auto.
  - rewrite (Hg nm eq_refl). destruct (dget d nm) as [v|] eqn:Hd.
    2: { rewrite dbind_raise. split; [discriminate|]. intros [_ H]. discriminate. }
    assert (Hne : (forall m, v <> VInt m) -> (([], @Raise unit ETypeErr) = (out, Ok tt) <-> out = bs /\ Some v = Some (VInt (zlen bs)))).
    { intros H. split; [discriminate|]. intros [_ [= H']]. destruct (H _ H'). }
    destruct v; try (rewrite dbind_raise; apply Hne; discriminate).
    rewrite dbind_ok. cbv zeta. cbn [add_padding]. rewrite dbind_raise.
    destruct (0 <? zlen bs - z) eqn:H1; [|destruct (zlen bs - z <? 0) eqn:H2].
    + split; [discriminate|]. intros [_ [= H]]. lia.
    + split; [discriminate|]. intros [_ [= H]]. lia.
    + unfold dwrite. split; [intros [= <-]; split; auto; do 2 f_equal; lia|]. intros [-> _]. auto.
Qed.

(** Field.to_stream on an array given a list-like value. *)
Lemma array_field_dump E n c comp cnt halt v ctx d out : (exists l, v = VList l \/ v = VGen l) ->
  field_to_stream E (S n) (Field c (KArray comp cnt halt)) v ctx d = (out, Ok tt)
  <-> accepts c v /\ fits_size c d out
      /\ array_dump (fun x => field_to_stream E n comp x ctx d) (c_name c) cnt v d = (out, Ok tt).
Proof.
  intros [l Hl].
  assert (Hd : is_default v = false /\ is_undefined v = false /\ is_none v = false)
    by (destruct Hl; subst; auto). destruct Hd as (Hd & Hu & Hn).
  unfold field_to_stream at 1, field_to_stream_with, to_stream_with. rewrite Hd, dbind_ok, Hu, Hd, Hn.
  cbn [orb conf kind].
  split.
  - intros H. apply dbind_dlift_inv in H. destruct H as ([] & Hv & H).
    split; [apply run_accepts; auto|]. cbn [do_dump kind] in H.
    change (name_of (Field c (KArray comp cnt halt))) with (c_name c) in H.
    change (fun x => field_to_stream_with (do_dump E n) comp x ctx d)
      with (fun x => field_to_stream E n comp x ctx d) in H.
    destruct (array_dump _ (c_name c) cnt v d) as [bs r].
    apply dbind_dlift_inv in H. destruct H as ([] & -> & H).
    change (sized_write (ges (do_dump E (S n)) (Field c (KArray comp cnt halt)) d) c
              (KArray comp cnt halt) bs = (out, Ok tt)) in H.
    apply (sized_write_fits _ _ _ _ _ _ _ d) in H.
    + destruct H as [-> H]. auto.
    + intros nm Hs. unfold ges, get_expected_size_with. cbn [conf]. rewrite Hs. reflexivity.
  - intros (Ha & Hf & H). rewrite (accepts_run _ _ Ha), dbind_ok. cbn [do_dump kind].
    change (name_of (Field c (KArray comp cnt halt))) with (c_name c).
    change (fun x => field_to_stream_with (do_dump E n) comp x ctx d)
      with (fun x => field_to_stream E n comp x ctx d).
    rewrite H, dbind_ok.
    change (sized_write (ges (do_dump E (S n)) (Field c (KArray comp cnt halt)) d) c
              (KArray comp cnt halt) out = (out, Ok tt)).
    apply (sized_write_fits _ _ _ _ _ _ _ d); auto.
    intros nm Hs. unfold ges, get_expected_size_with. cbn [conf]. rewrite Hs. reflexivity.
Qed.

(** The element list, without fuel. *)
Lemma array_dumps_to E c comp cnt halt v ctx d out l :
  v = VList l \/ (v = VGen l /\ forall m, counted cnt d m -> 0 <= m) ->
  dumps_to E (Field c (KArray comp cnt halt)) v ctx d out
  <-> accepts c v /\ length_ok cnt d (zlen l)
      /\ exists parts, Forall2 (fun x bs => dumps_to E comp x ctx d bs) l parts
           /\ out = concat parts /\ fits_size c d out.
Proof.
  intros Hv.
  assert (Hl : exists l, v = VList l \/ v = VGen l) by (exists l; destruct Hv as [|[]]; auto).
  assert (Hiff : forall n, array_dump (fun x => field_to_stream E n comp x ctx d) (c_name c) cnt v d
        = (out, Ok tt) <-> length_ok cnt d (zlen l)
      /\ exists parts, Forall2 (fun x bs => field_to_stream E n comp x ctx d = (bs, Ok tt)) l parts
           /\ out = concat parts).
  { intros n. destruct Hv as [->|[-> Hp]]; [apply array_dump_list|apply array_dump_gen; auto]. }
  split.
  - intros [n H]. apply (dumps_to_mono E n (S n)) in H; [|lia].
    apply array_field_dump in H; auto. destruct H as (Ha & Hf & H). apply Hiff in H.
    destruct H as (Hlen & parts & Hp & ->). split; auto. split; auto. exists parts. repeat split; auto.
    eapply forall2_impl; [|exact Hp]. intros. exists n. auto.
  - intros (Ha & Hlen & parts & Hp & -> & Hf). apply parts_common_fuel in Hp. destruct Hp as [n Hp].
    exists (S n). apply array_field_dump; auto. split; auto. split; auto. apply Hiff. eauto.
Qed.

Lemma array_field_raise E n c comp cnt halt v ctx d out e : (exists l, v = VList l \/ v = VGen l) ->
  accepts c v ->
  array_dump (fun x => field_to_stream E n comp x ctx d) (c_name c) cnt v d = (out, Raise e) ->
  field_to_stream E (S n) (Field c (KArray comp cnt halt)) v ctx d = ([], Raise e).
Proof.
  intros [l Hl] Ha H. unfold field_to_stream at 1, field_to_stream_with.
  rewrite to_stream_data by (auto; destruct Hl; subst; auto). cbn [conf kind].
  cbn [do_dump kind]. change (name_of (Field c (KArray comp cnt halt))) with (c_name c).
  change (fun x => field_to_stream_with (do_dump E n) comp x ctx d)
      with (fun x => field_to_stream E n comp x ctx d).
  rewrite H. auto.
Qed.

Lemma array_wrong_length E c comp cnt halt l m ctx d :
  counted cnt d m -> zlen l <> m -> accepts c (VList l) ->
  dump_raises E (Field c (KArray comp cnt halt)) (VList l) ctx d
    (EArraySize (c_name c) m (Some (zlen l))).
Proof.
  intros Hc Hm Ha. exists 1%nat. eapply array_field_raise with (out := []); eauto.
  unfold array_dump. rewrite (counted_get _ _ _ Hc), dbind_ok. cbn [sized_items].
  cbn [count_is array_size_error]. replace (zlen l =? m) with false by lia. auto.
Qed.

(** A generator with at least [k] elements that dump, [k] more being wanted. *)
Lemma dump_unsized_many dump1 name n l1 v l2 : forall nw parts, 0 <= nw -> zlen l1 = n - nw ->
  Forall2 (fun v bs => dump1 v = (bs, Ok tt)) l1 parts ->
  dump_unsized dump1 name (Some (CountInt n)) nw (l1 ++ v :: l2)
  = (concat parts, Raise (EArraySize name n (Some (n + 1)))).
Proof.
  induction l1 as [|x l1 IH]; intros nw parts H0 Hn Hp; inversion Hp as [|? o1 ? ps H1 H2]; subst; clear Hp.
  - cbn [app dump_unsized]. unfold zlen in Hn. cbn [length] in Hn. replace nw with n by lia.
    cbn [count_is array_size_error]. rewrite Z.eqb_refl. auto.
  - cbn [app dump_unsized]. assert (Hz : zlen (x :: l1) = zlen l1 + 1) by (unfold zlen; cbn [length]; lia).
    rewrite Hz in Hn. cbn [count_is]. replace (nw =? n) with false by (unfold zlen in *; lia).
    rewrite H1. cbn [dbind concat].
    erewrite IH; [reflexivity|lia|lia|auto].
Qed.

Lemma dump_unsized_few dump1 name n l : forall nw parts, 0 <= nw -> nw + zlen l < n ->
  Forall2 (fun v bs => dump1 v = (bs, Ok tt)) l parts ->
  dump_unsized dump1 name (Some (CountInt n)) nw l
  = (concat parts, Raise (EArraySize name n (Some (nw + zlen l)))).
Proof.
  induction l as [|x l IH]; intros nw parts H0 Hn Hp; inversion Hp as [|? o1 ? ps H1 H2]; subst; clear Hp.
  - cbn [dump_unsized]. unfold zlen in *. cbn [length] in *. cbn [count_above dlift]. rewrite dbind_ok.
    replace (nw <? n) with true by lia. cbn [array_size_error].
    unfold draise. cbn [concat]. do 4 f_equal. lia.
  - cbn [dump_unsized]. assert (Hz : zlen (x :: l) = zlen l + 1) by (unfold zlen; cbn [length]; lia).
    rewrite Hz in *. cbn [count_is]. replace (nw =? n) with false by (unfold zlen in *; lia).
    rewrite H1. cbn [dbind concat]. rewrite IH with (parts := ps) by (auto; lia).
    do 4 f_equal. lia.
Qed.

Lemma generator_too_long E c comp cnt halt l1 x l2 m ctx d parts :
  counted cnt d m -> zlen l1 = m -> accepts c (VGen (l1 ++ x :: l2)) ->
  Forall2 (fun v bs => dumps_to E comp v ctx d bs) l1 parts ->
  dump_raises E (Field c (KArray comp cnt halt)) (VGen (l1 ++ x :: l2)) ctx d
    (EArraySize (c_name c) m (Some (m + 1))).
Proof.
  intros Hc Hm Ha Hp. apply parts_common_fuel in Hp. destruct Hp as [n Hp]. exists (S n).
  eapply array_field_raise; eauto.
  unfold array_dump. rewrite (counted_get _ _ _ Hc), dbind_ok. cbn [sized_items].
  eapply dump_unsized_many; eauto; lia.
Qed.

Lemma generator_too_short E c comp cnt halt l m ctx d parts :
  counted cnt d m -> zlen l < m -> accepts c (VGen l) ->
  Forall2 (fun v bs => dumps_to E comp v ctx d bs) l parts ->
  dump_raises E (Field c (KArray comp cnt halt)) (VGen l) ctx d
    (EArraySize (c_name c) m (Some (zlen l))).
Proof.
  intros Hc Hm Ha Hp. apply parts_common_fuel in Hp. destruct Hp as [n Hp]. exists (S n).
  eapply array_field_raise; eauto.
  unfold array_dump. rewrite (counted_get _ _ _ Hc), dbind_ok. cbn [sized_items].
  eapply dump_unsized_few; eauto; lia.
Qed.

(** Elements after number [m + 1] are never looked at. *)
Lemma dump_unsized_unread dump1 name n l1 : forall nw l2 l2', nw <= n -> n < nw + zlen l1 ->
  dump_unsized dump1 name (Some (CountInt n)) nw (l1 ++ l2) = dump_unsized dump1 name (Some (CountInt n)) nw (l1 ++ l2').
Proof.
  induction l1 as [|x l1 IH]; intros nw l2 l2' H0 Hn.
  - unfold zlen in Hn. cbn [length] in Hn. lia.
  - cbn [app dump_unsized]. assert (Hz : zlen (x :: l1) = zlen l1 + 1) by (unfold zlen; cbn [length]; lia).
    cbn [count_is]. destruct (nw =? n) eqn:He; auto. rewrite IH with (l2' := l2') by lia. auto.
Qed.

Lemma generator_unread E n c comp cnt halt l1 l2 l2' m ctx d :
  counted cnt d m -> 0 <= m -> m + 1 <= zlen l1 -> c_validators c = [] ->
  field_to_stream E n (Field c (KArray comp cnt halt)) (VGen (l1 ++ l2)) ctx d
  = field_to_stream E n (Field c (KArray comp cnt halt)) (VGen (l1 ++ l2')) ctx d.
Proof.
  intros Hc H0 Hm Hv. unfold field_to_stream, field_to_stream_with.
  rewrite !to_stream_data; auto; try (unfold accepts; cbn [conf]; rewrite Hv; constructor).
  destruct n as [|n]; auto. cbn [do_dump kind]. unfold array_dump.
  rewrite (counted_get _ _ _ Hc), !dbind_ok. cbn [sized_items].
  rewrite (dump_unsized_unread _ _ m l1 0 l2 l2') by lia. auto.
Qed.

Lemma dump_unsized_negative dump1 name n l : forall nw parts, n < 0 -> 0 <= nw ->
  Forall2 (fun v bs => dump1 v = (bs, Ok tt)) l parts ->
  dump_unsized dump1 name (Some (CountInt n)) nw l = (concat parts, Ok tt).
Proof.
  induction l as [|x l IH]; intros nw parts Hn H0 Hp; inversion Hp as [|? o1 ? ps H1 H2]; subst; clear Hp; cbn [dump_unsized].
  - cbn [count_above dlift]. rewrite dbind_ok. replace (nw <? n) with false by lia. auto.
  - cbn [count_is]. replace (nw =? n) with false by lia. rewrite H1. cbn [dbind concat]. rewrite IH with (parts := ps); auto. lia.
Qed.

Lemma generator_negative E c comp cnt halt l m ctx d parts :
  counted cnt d m -> m < 0 -> accepts c (VGen l) -> c_size c = SNone ->
  Forall2 (fun v bs => dumps_to E comp v ctx d bs) l parts ->
  dumps_to E (Field c (KArray comp cnt halt)) (VGen l) ctx d (concat parts).
Proof.
  intros Hc Hm Ha Hs Hp. apply parts_common_fuel in Hp. destruct Hp as [n Hp]. exists (S n).
  apply array_field_dump; eauto. split; auto. split; [unfold fits_size; rewrite Hs; auto|].
  unfold array_dump. rewrite (counted_get _ _ _ Hc), dbind_ok. cbn [sized_items].
  apply dump_unsized_negative; auto; lia.
Qed.

(** ** Loading *)
Lemma present_load_iff E n c k ctx d s s' v : always_present c -> c_null c = VUndefined ->
  c_const c = VUndefined ->
  field_from_stream E n (Field c k) ctx d s = (s', Ok v)
  <-> do_load E n (Field c k) ctx d s = (s', Ok v) /\ accepts c v.
Proof.
  intros Hp Hn Hc. unfold field_from_stream, field_from_stream_with.
  rewrite from_stream_present by (cbn; auto). unfold checked. cbn [conf].
  destruct (do_load E n (Field c k) ctx d s) as [s1 [w|e|]].
  - rewrite Hc. cbn [is_undefined negb bind].
    split.
    + intros H. destruct (run_validators (c_validators c) w) as [[]|e|] eqn:Hr; try discriminate.
      cbn [bind] in H. split; auto. apply run_accepts. congruence.
    + intros [[= -> ->] Ha]. rewrite (accepts_run _ _ Ha). auto.
  - split; [discriminate|]. intros [H _]. discriminate.
  - split; [discriminate|]. intros [H _]. discriminate.
Qed.

Lemma present_load_oof E n c k ctx d s : always_present c -> c_null c = VUndefined ->
  snd (do_load E n (Field c k) ctx d s) = OOF ->
  snd (field_from_stream E n (Field c k) ctx d s) = OOF.
Proof.
  intros Hp Hn H. unfold field_from_stream, field_from_stream_with.
  rewrite from_stream_present by (cbn; auto). unfold checked.
  destruct (do_load E n (Field c k) ctx d s) as [s1 [w|e|]]; discriminate || auto.
Qed.

Lemma halt_counted cnt nm ctx d s values m : counted cnt d m ->
  array_halt cnt None nm ctx d s values = Ok (m <=? zlen values, values).
Proof.
  intros Hc. unfold array_halt, should_halt.
  destruct cnt as [|k|name|]; try (rewrite (counted_get _ _ _ Hc); auto).
  destruct Hc as [Hc|(x & Hc & _)]; discriminate.
Qed.

Lemma halt_uncounted nm ctx d s values :
  array_halt CntNone None nm ctx d s values
  = Ok (match rest s with [] => true | _ => false end, values).
Proof. unfold array_halt, should_halt. destruct (rest s); auto. Qed.

Lemma zlen_nonneg {A} (l : list A) : 0 <= zlen l.
Proof. unfold zlen. lia. Qed.
Lemma zlen_app {A} (a b : list A) : zlen (a ++ b) = zlen a + zlen b.
Proof. unfold zlen. rewrite app_length. lia. Qed.

Lemma array_load_counted_sound E n comp cnt nm ctx d m : counted cnt d m ->
  forall fuel values s s' v,
  array_load fuel (array_halt cnt None nm ctx d) (field_from_stream E n comp ctx d) values s
    = (s', Ok v) ->
  exists vs, v = VList (values ++ vs) /\ zlen (values ++ vs) = Z.max m (zlen values)
    /\ elements E comp ctx d vs s s'.
Proof.
  intros Hc. induction fuel as [|fuel IH]; intros values s s' v H; [discriminate|].
  cbn [array_load] in H. rewrite (halt_counted _ _ _ _ _ _ _ Hc) in H.
  destruct (m <=? zlen values) eqn:Hm.
  - injection H as <- <-. exists []. rewrite app_nil_r. split; [auto|]. split; [lia|constructor].
  - destruct (field_from_stream E n comp ctx d s) as [s1 [w|e|]] eqn:Hl; try discriminate.
    apply IH in H. destruct H as (vs & -> & Hz & Hel).
    assert (Hld : loads_to E comp ctx d s s1 w) by (exists n; auto).
    destruct (is_not_present w) eqn:Hnp.
    + destruct w; try discriminate Hnp. exists vs. split; [auto|]. split; [auto|].
      eapply elements_skip; eauto. intros ->. rewrite app_nil_r in Hz. lia.
    + exists (w :: vs). rewrite <- app_assoc in *. cbn [app] in *. split; [auto|]. split.
      * rewrite Hz, zlen_app. cbn. lia.
      * eapply elements_take; eauto. intros ->. discriminate.
Qed.

Lemma array_load_counted_complete E comp cnt nm ctx d m vs s s' : counted cnt d m ->
  elements E comp ctx d vs s s' ->
  exists k, forall fuel n values, (k <= fuel)%nat -> (k <= n)%nat ->
    (if vs then m <= zlen values else zlen values + zlen vs = m) ->
  array_load fuel (array_halt cnt None nm ctx d) (field_from_stream E n comp ctx d) values s
    = (s', Ok (VList (values ++ vs))).
Proof.
  intros Hc. induction 1 as [s|s s1 s' v vs Hl Hnp Hel IH|s s1 s' vs Hl Hne Hel IH].
  - exists 1%nat. intros [|fuel] n values Hf Hn Hz; [lia|]. cbn [array_load].
    rewrite (halt_counted _ _ _ _ _ _ _ Hc). replace (m <=? zlen values) with true by lia.
    rewrite app_nil_r. auto.
  - destruct Hl as [k1 Hl], IH as [k2 IH]. exists (S (Nat.max k1 k2)).
    intros [|fuel] n values Hf Hn Hz; [lia|]. cbn [array_load].
    rewrite (halt_counted _ _ _ _ _ _ _ Hc).
    assert (Hz' : zlen values + (zlen vs + 1) = m) by (rewrite <- Hz; unfold zlen; cbn [length]; lia).
    pose proof (zlen_nonneg vs).
    replace (m <=? zlen values) with false by lia.
    rewrite (loads_to_mono E k1 n _ _ _ _ _ _ ltac:(lia) Hl).
    replace (is_not_present v) with false by (destruct v; auto; contradiction).
    rewrite IH; [rewrite <- app_assoc; auto|lia|lia|].
    rewrite zlen_app. change (zlen [v]) with 1. destruct vs; [unfold zlen in *; cbn [length] in *; lia|lia].
  - destruct Hl as [k1 Hl], IH as [k2 IH]. exists (S (Nat.max k1 k2)).
    intros [|fuel] n values Hf Hn Hz; [lia|]. cbn [array_load].
    rewrite (halt_counted _ _ _ _ _ _ _ Hc).
    destruct vs as [|x vs]; [contradiction|].
    replace (m <=? zlen values) with false by (unfold zlen in *; cbn [length] in *; lia).
    rewrite (loads_to_mono E k1 n _ _ _ _ _ _ ltac:(lia) Hl). cbn [is_not_present].
    rewrite IH; auto; lia.
Qed.

Lemma array_loads_counted E c comp cnt ctx d m s s' v : always_present c ->
  c_null c = VUndefined -> c_const c = VUndefined -> counted cnt d m ->
  loads_to E (Field c (KArray comp cnt None)) ctx d s s' v
  <-> accepts c v /\ exists vs, v = VList vs /\ zlen vs = Z.max m 0 /\ elements E comp ctx d vs s s'.
Proof.
  intros Hp Hn Hk Hc. split.
  - intros [n H]. apply present_load_iff in H; auto. destruct H as [H Ha]. split; auto.
    destruct n as [|n]; [discriminate|]. cbn [do_load kind] in H.
    change (field_from_stream_with E (do_load E n) n comp ctx d)
      with (field_from_stream E n comp ctx d) in H.
    apply (array_load_counted_sound _ _ _ _ _ _ _ m Hc) in H. destruct H as (vs & -> & Hz & Hel).
    exists vs. auto.
  - intros (Ha & vs & -> & Hz & Hel).
    destruct (array_load_counted_complete E comp cnt (c_name c) ctx d m vs s s' Hc Hel) as [k Hk'].
    exists (S k). apply present_load_iff; auto. split; auto. cbn [do_load kind].
    change (field_from_stream_with E (do_load E k) k comp ctx d)
      with (field_from_stream E k comp ctx d).
    change (name_of (Field c (KArray comp cnt None))) with (c_name c).
    apply (Hk' k k []); auto. destruct vs; unfold zlen in *; cbn [length] in *; lia.
Qed.

Lemma array_load_end_sound E n comp nm ctx d :
  forall fuel values s s' v,
  array_load fuel (array_halt CntNone None nm ctx d) (field_from_stream E n comp ctx d) values s
    = (s', Ok v) ->
  exists vs, v = VList (values ++ vs) /\ elements_to_end E comp ctx d vs s s'.
Proof.
  induction fuel as [|fuel IH]; intros values s s' v H; [discriminate|].
  cbn [array_load] in H. rewrite halt_uncounted in H.
  destruct (rest s) eqn:Hr.
  - injection H as <- <-. exists []. rewrite app_nil_r. split; [auto|]. constructor; auto.
  - assert (Hne : rest s <> []) by (rewrite Hr; discriminate).
    destruct (field_from_stream E n comp ctx d s) as [s1 [w|e|]] eqn:Hl; try discriminate.
    apply IH in H. destruct H as (vs & -> & Hel).
    assert (Hld : loads_to E comp ctx d s s1 w) by (exists n; auto).
    destruct (is_not_present w) eqn:Hnp.
    + destruct w; try discriminate Hnp. exists vs. split; [auto|]. eapply to_end_skip; eauto.
    + exists (w :: vs). rewrite <- app_assoc in *. cbn [app] in *. split; [auto|].
      eapply to_end_take; eauto. intros ->. discriminate.
Qed.

Lemma array_load_end_complete E comp nm ctx d vs s s' :
  elements_to_end E comp ctx d vs s s' ->
  exists k, forall fuel n values, (k <= fuel)%nat -> (k <= n)%nat ->
  array_load fuel (array_halt CntNone None nm ctx d) (field_from_stream E n comp ctx d) values s
    = (s', Ok (VList (values ++ vs))).
Proof.
  induction 1 as [s Hr|s s1 s' v vs Hr Hl Hnp Hel IH|s s1 s' vs Hr Hl Hel IH].
  - exists 1%nat. intros [|fuel] n values Hf Hn; [lia|]. cbn [array_load].
    rewrite halt_uncounted, Hr, app_nil_r. auto.
  - destruct Hl as [k1 Hl], IH as [k2 IH]. exists (S (Nat.max k1 k2)).
    intros [|fuel] n values Hf Hn; [lia|]. cbn [array_load].
    rewrite halt_uncounted. destruct (rest s); [contradiction|].
    rewrite (loads_to_mono E k1 n _ _ _ _ _ _ ltac:(lia) Hl).
    replace (is_not_present v) with false by (destruct v; auto; contradiction).
    rewrite IH by lia. rewrite <- app_assoc. reflexivity.
  - destruct Hl as [k1 Hl], IH as [k2 IH]. exists (S (Nat.max k1 k2)).
    intros [|fuel] n values Hf Hn; [lia|]. cbn [array_load].
    rewrite halt_uncounted. destruct (rest s); [contradiction|].
    rewrite (loads_to_mono E k1 n _ _ _ _ _ _ ltac:(lia) Hl). cbn [is_not_present].
    rewrite IH by lia. auto.
Qed.

Lemma array_loads_end E c comp ctx d s s' v : always_present c ->
  c_null c = VUndefined -> c_const c = VUndefined ->
  loads_to E (Field c (KArray comp CntNone None)) ctx d s s' v
  <-> accepts c v /\ exists vs, v = VList vs /\ elements_to_end E comp ctx d vs s s'.
Proof.
  intros Hp Hn Hk. split.
  - intros [n H]. apply present_load_iff in H; auto. destruct H as [H Ha]. split; auto.
    destruct n as [|n]; [discriminate|]. cbn [do_load kind] in H.
    change (field_from_stream_with E (do_load E n) n comp ctx d)
      with (field_from_stream E n comp ctx d) in H.
    apply array_load_end_sound in H. destruct H as (vs & -> & Hel). exists vs. auto.
  - intros (Ha & vs & -> & Hel).
    destruct (array_load_end_complete E comp (c_name c) ctx d vs s s' Hel) as [k Hk'].
    exists (S k). apply present_load_iff; auto. split; auto. cbn [do_load kind].
    change (field_from_stream_with E (do_load E k) k comp ctx d)
      with (field_from_stream E k comp ctx d).
    change (name_of (Field c (KArray comp CntNone None))) with (c_name c).
    apply (Hk' k k []); auto.
Qed.

Lemma elements_end E comp ctx d vs s s' : elements_to_end E comp ctx d vs s s' -> rest s' = [].
Proof. induction 1; auto. Qed.

(** ** Termination and divergence (C41) *)
Lemma finished_mono E n m f ctx d s : (n <= m)%nat ->
  snd (field_from_stream E n f ctx d s) <> OOF ->
  field_from_stream E m f ctx d s = field_from_stream E n f ctx d s.
Proof.
  intros Hle H. destruct (field_from_stream_mono E n m f ctx d Hle s) as [Ho|Ho]; congruence.
Qed.

Lemma array_load_mono_ok fuel halt load1 : forall values s s' r,
  array_load fuel halt load1 values s = (s', r) -> r <> OOF ->
  forall fuel' load2, (fuel <= fuel')%nat ->
    (forall s, snd (load1 s) <> OOF -> load2 s = load1 s) ->
  array_load fuel' halt load2 values s = (s', r).
Proof.
  induction fuel as [|fuel IH]; intros values s s' r H Hr fuel' load2 Hle Hl.
  - cbn in H. congruence.
  - destruct fuel' as [|fuel']; [lia|]. cbn [array_load] in *.
    destruct (halt s values) as [[[|] vs]|e|]; auto.
    pose proof (Hl s) as Hs. destruct (load1 s) as [s1 [w|e|]]; [| |congruence];
      rewrite Hs by (cbn; discriminate); auto. apply IH; auto. lia.
Qed.

(** The measure: bytes left, or elements and bytes left. *)
Lemma array_terminates E comp ctx d halt (measure : stream -> list value -> nat) :
  (forall s, load_finishes E comp ctx d s) ->
  (forall s values, halt s values = Ok (true, values) \/ halt s values = Ok (false, values)
                    \/ exists e, halt s values = Raise e) ->
  (forall s s1 v values, halt s values = Ok (false, values) ->
     loads_to E comp ctx d s s1 v ->
     (measure s1 (if is_not_present v then values else values ++ [v]) < measure s values)%nat) ->
  forall k s values, (measure s values <= k)%nat ->
  exists n, forall fuel m, (n <= fuel)%nat -> (n <= m)%nat ->
    snd (array_load fuel halt (field_from_stream E m comp ctx d) values s) <> OOF.
Proof.
  intros Hf Hh Hm. induction k as [|k IH]; intros s values Hk.
  - destruct (Hh s values) as [H|[H|[e H]]].
    + exists 1%nat. intros [|fuel] m Hle _; [lia|]. cbn [array_load]. rewrite H. discriminate.
    + destruct (Hf s) as [n Hn]. exists (S n). intros [|fuel] m Hle Hle'; [lia|].
      cbn [array_load]. rewrite H. rewrite (finished_mono E n m) by (auto; lia).
      destruct (field_from_stream E n comp ctx d s) as [s1 [v|e|]] eqn:Hl; cbn in *; try congruence.
      assert (measure s1 (if is_not_present v then values else values ++ [v]) < measure s values)%nat
        by (apply (Hm s s1 v values H); exists n; exact Hl). lia.
    + exists 1%nat. intros [|fuel] m Hle _; [lia|]. cbn [array_load]. rewrite H. discriminate.
  - destruct (Hh s values) as [H|[H|[e H]]].
    + exists 1%nat. intros [|fuel] m Hle _; [lia|]. cbn [array_load]. rewrite H. discriminate.
    + destruct (Hf s) as [n Hn].
      destruct (field_from_stream E n comp ctx d s) as [s1 [v|e|]] eqn:Hl; cbn in Hn; try congruence.
      * assert (measure s1 (if is_not_present v then values else values ++ [v]) < measure s values)%nat
          by (apply (Hm s s1 v values H); exists n; exact Hl).
        destruct (IH s1 (if is_not_present v then values else values ++ [v])) as [n2 Hn2]; [lia|].
        exists (S (Nat.max n n2)). intros [|fuel] m Hle Hle'; [lia|].
        cbn [array_load]. rewrite H. rewrite (finished_mono E n m); [|lia|rewrite Hl; discriminate].
        rewrite Hl. apply Hn2; lia.
      * exists (S n). intros [|fuel] m Hle Hle'; [lia|]. cbn [array_load]. rewrite H.
        rewrite (finished_mono E n m); [|lia|rewrite Hl; discriminate]. rewrite Hl. discriminate.
    + exists 1%nat. intros [|fuel] m Hle _; [lia|]. cbn [array_load]. rewrite H. discriminate.
Qed.

Lemma array_field_finishes E c comp cnt ctx d s (measure : stream -> list value -> nat) :
  always_present c -> c_null c = VUndefined -> c_const c = VUndefined ->
  (forall v, run_validators (c_validators c) v <> OOF) ->
  (forall s, load_finishes E comp ctx d s) ->
  (forall s s1 v values, array_halt cnt None (c_name c) ctx d s values = Ok (false, values) ->
     loads_to E comp ctx d s s1 v ->
     (measure s1 (if is_not_present v then values else values ++ [v]) < measure s values)%nat) ->
  load_finishes E (Field c (KArray comp cnt None)) ctx d s.
Proof.
  intros Hp Hn Hc Hv Hf Hm.
  destruct (array_terminates E comp ctx d (array_halt cnt None (c_name c) ctx d) measure Hf)
    with (k := measure s []) (s := s) (values := @nil value) as [n Hn']; auto.
  - intros s0 values. unfold array_halt, should_halt.
    destruct cnt as [|z|nm|]; cbn [get_final_element_count bind].
    + destruct (rest s0); auto.
    + cbn [count_at_most bind]. destruct (z <=? zlen values); auto.
    + destruct (dget d nm) as [w|]; [destruct w|]; cbn [count_at_most bind]; eauto.
      destruct (z <=? zlen values); auto.
    + eauto.
  - exists (S n). unfold field_from_stream, field_from_stream_with.
    rewrite from_stream_present by (cbn; auto). unfold checked. cbn [do_load kind conf].
    change (field_from_stream_with E (do_load E n) n comp ctx d)
      with (field_from_stream E n comp ctx d).
    change (name_of (Field c (KArray comp cnt None))) with (c_name c).
    specialize (Hn' n n (le_n _) (le_n _)).
    destruct (array_load n _ _ [] s) as [s' [v|e|]]; cbn in *; try congruence.
    rewrite Hc. cbn [is_undefined negb bind]. specialize (Hv v).
    destruct (run_validators (c_validators c) v) as [[]|e|]; cbn; congruence.
Qed.

(** Reading moves forward, so "consumes a byte" is "the position changed". *)
Lemma loads_to_forward E f ctx d s s' v : loads_to E f ctx d s s' v -> forward s s'.
Proof.
  intros [n H]. eapply field_load_forward; eauto.
Qed.

Lemma validators_finish c v : (forall check, In check (c_validators c) -> check v <> OOF) ->
  run_validators (c_validators c) v <> OOF.
Proof.
  generalize (c_validators c) as vs. induction vs as [|f vs IH]; intros H; cbn [run_validators].
  - discriminate.
  - assert (Hf : f v <> OOF) by (apply H; left; auto).
    destruct (f v) as [[]|e|]; cbn [bind]; try congruence. apply IH. intros; apply H; right; auto.
Qed.

(** Uncounted: every component load consumes a byte. *)
Lemma uncounted_terminates E c comp ctx d s :
  always_present c -> c_null c = VUndefined -> c_const c = VUndefined ->
  (forall check v, In check (c_validators c) -> check v <> OOF) ->
  (forall s, load_finishes E comp ctx d s) ->
  (forall s s1 v, loads_to E comp ctx d s s1 v -> (s_pos s < s_pos s1)%nat) ->
  load_finishes E (Field c (KArray comp CntNone None)) ctx d s.
Proof.
  intros Hp Hn Hc Hv Hf Hm.
  apply array_field_finishes with (measure := fun s _ => (length (rest s))); auto.
  { intros v. apply validators_finish. eauto. }
  intros s0 s1 v values Hh Hl. rewrite halt_uncounted in Hh.
  pose proof (Hm _ _ _ Hl). pose proof (loads_to_forward _ _ _ _ _ _ _ Hl) as (Hd & _ & Hmax).
  destruct (rest s0) as [|b r] eqn:Hr; [discriminate|]. rewrite <- Hr. unfold rest in *.
  rewrite !skipn_length, Hd.
  assert (Hlen : (s_pos s0 < length (s_data s0))%nat).
  { pose proof (f_equal (@length Z) Hr) as Hl'. rewrite skipn_length in Hl'. cbn [length] in Hl'. lia. }
  lia.
Qed.

(** Counted: every component load yields an element (or consumes a byte). *)
Lemma counted_terminates E c comp cnt ctx d m s :
  always_present c -> c_null c = VUndefined -> c_const c = VUndefined -> counted cnt d m ->
  (forall check v, In check (c_validators c) -> check v <> OOF) ->
  (forall s, load_finishes E comp ctx d s) ->
  (forall s s1 v, loads_to E comp ctx d s s1 v ->
     v <> VNotPresent \/ (s_pos s < s_pos s1 <= length (s_data s))%nat) ->
  load_finishes E (Field c (KArray comp cnt None)) ctx d s.
Proof.
  intros Hp Hn Hc Hcnt Hv Hf Hm.
  apply array_field_finishes with
    (measure := fun s values => (length (rest s) + (Z.to_nat (m - zlen values)))%nat); auto.
  { intros v. apply validators_finish. eauto. }
  intros s0 s1 v values Hh Hl. rewrite (halt_counted _ _ _ _ _ _ _ Hcnt) in Hh.
  pose proof (Hm _ _ _ Hl) as Hv'. pose proof (loads_to_forward _ _ _ _ _ _ _ Hl) as (Hd & Hle & Hmax).
  assert (Hlt : zlen values < m) by (destruct (m <=? zlen values) eqn:Hx; [discriminate|lia]).
  unfold rest. rewrite !skipn_length, Hd.
  destruct (is_not_present v) eqn:Hnp.
  - destruct v; try discriminate Hnp. destruct Hv' as [Hv'|Hv']; [contradiction|]. lia.
  - rewrite zlen_app. change (zlen [v]) with 1. lia.
Qed.

(** A component that is not there (and whose stand-in value is NOT_PRESENT) never fills a
    positive count. *)
Lemma array_load_stuck halt load1 values s v fuel :
  halt s values = Ok (false, values) -> load1 s = (s, Ok v) -> is_not_present v = true ->
  snd (array_load fuel halt load1 values s) = OOF.
Proof.
  intros Hh Hl Hv. induction fuel as [|fuel IH]; auto. cbn [array_load]. rewrite Hh, Hl, Hv. auto.
Qed.

Lemma absent_component_diverges E c comp cnt ctx d m s :
  always_present c -> c_null c = VUndefined -> counted cnt d m -> 0 < m ->
  run_dict d (c_present (conf comp) ctx (Some s)) = Ok false -> c_npv (conf comp) = VNotPresent ->
  load_diverges E (Field c (KArray comp cnt None)) ctx d s.
Proof.
  intros Hp Hn Hcnt Hm Habs Hnpv n. apply present_load_oof; auto.
  destruct n as [|n]; auto. cbn [do_load kind].
  apply array_load_stuck with (v := VNotPresent); auto.
  - rewrite (halt_counted _ _ _ _ _ _ _ Hcnt). change (zlen (@nil value)) with 0.
    replace (m <=? 0) with false by lia. auto.
  - unfold field_from_stream_with, from_stream_with. rewrite Habs, Hnpv. auto.
Qed.

Lemma array_load_spin halt load1 s fuel : (forall values, halt s values = Ok (false, values)) ->
  (exists v, load1 s = (s, Ok v)) \/ snd (load1 s) = OOF ->
  forall values, snd (array_load fuel halt load1 values s) = OOF.
Proof.
  intros Hh Hl. induction fuel as [|fuel IH]; intros values; auto. cbn [array_load]. rewrite Hh.
  destruct Hl as [[v ->]|Ho]; auto. destruct (load1 s) as [s1 [v|e|]]; discriminate || auto.
Qed.

Lemma zero_byte_component_diverges E c comp ctx d s v :
  always_present c -> c_null c = VUndefined -> rest s <> [] ->
  loads_to E comp ctx d s s v ->
  load_diverges E (Field c (KArray comp CntNone None)) ctx d s.
Proof.
  intros Hp Hn Hr [k Hk] n. apply present_load_oof; auto.
  destruct n as [|n]; auto. cbn [do_load kind].
  apply array_load_spin.
  - intros values. rewrite halt_uncounted. destruct (rest s); auto. contradiction.
  - change (field_from_stream_with E (do_load E n) n comp ctx d s)
      with (field_from_stream E n comp ctx d s).
    destruct (Nat.le_gt_cases k n) as [Hle|Hgt].
    + left. exists v. eapply loads_to_mono; eauto.
    + destruct (field_from_stream_mono E n k comp ctx d ltac:(lia) s) as [Ho|Ho].
      * right. rewrite Ho. auto.
      * left. exists v. congruence.
Qed.

(** ** Counts that cannot be determined *)
Lemma count_unknown E n c comp name ctx d s : always_present c -> c_null c = VUndefined ->
  let load cnt := field_from_stream E (S (S n)) (Field c (KArray comp cnt None)) ctx d s in
  (dget d name = None -> load (CntRef name) = (s, Raise (EFieldReference name)))
  /\ (dget d name = Some VNone -> load (CntRef name) = (s, Raise (EUndefinedSize (c_name c))))
  /\ (forall v, dget d name = Some v -> v <> VNone -> (forall z, v <> VInt z) ->
      load (CntRef name) = (s, Raise ETypeErr))
  /\ load CntUnnamed = (s, Raise (EConfig None)).
Proof.
  intros Hp Hn load. subst load. unfold field_from_stream, field_from_stream_with, from_stream_with.
  cbn [conf]. rewrite Hp. unfold allow_null. rewrite Hn. cbn [is_undefined negb].
  unfold lbind. cbn [do_load kind array_load]. unfold array_halt, should_halt. cbn [get_final_element_count].
  split; [|split; [|split]]; [intros ->; reflexivity|intros ->; reflexivity| |reflexivity].
  intros v -> Hv Hz. destruct v; try reflexivity; [destruct (Hv eq_refl)|destruct (Hz z eq_refl)].
Qed.

Lemma count_unknown_dump E n c comp halt name l ctx d : accepts c (VList l) ->
  let dump cnt := field_to_stream E (S n) (Field c (KArray comp cnt halt)) (VList l) ctx d in
  (dget d name = None -> dump (CntRef name) = ([], Raise (EFieldReference name)))
  /\ (forall v, dget d name = Some v -> v <> VNone -> (forall z, v <> VInt z) ->
      dump (CntRef name) = ([], Raise ETypeErr))
  /\ dump CntUnnamed = ([], Raise (EConfig None)).
Proof.
  intros Ha dump. subst dump. unfold field_to_stream, field_to_stream_with, to_stream_with.
  cbn [conf kind is_default is_undefined is_none orb]. rewrite !dbind_ok, (accepts_run _ _ Ha), dbind_ok.
  cbn [do_dump kind]. unfold array_dump. cbn [get_final_element_count].
  split; [|split]; [intros ->; reflexivity| |reflexivity].
  intros v -> Hv Hz. destruct v; try reflexivity; [destruct (Hv eq_refl)|destruct (Hz z eq_refl)].
Qed.
