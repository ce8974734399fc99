(** Proofs about naive datetimes in local time zones. *)
From Coq Require Import String ZArith List Lia Bool.
From Verif Require Import FieldProofs PyIntProofs StreamProofs VarintsMore LeafProofs TimeProofs.
From Verif Require Export SpecZone.
Import ListNotations.
Open Scope Z_scope.

Lemma wall_ok zone u : year_ok (u + zone u) = true -> wall zone u = Ok (u + zone u).
Proof. intros H. unfold wall. cbv zeta. rewrite H. reflexivity. Qed.

(** The reading [t] with one change of clocks. *)
Definition solved (T p q t : Z) (fold : bool) : Z :=
  if t <? T + Z.min p q then t - p
  else if T + Z.max p q <=? t then t - q
  else t - if fold then q else p.

Lemma wall_near zone x T p q u : one_change zone x T p q -> far_from_ends x ->
  x - 3 * day <= u <= x + 3 * day -> wall zone u = Ok (u + if u <? T then p else q).
Proof.
  intros [Hz Hp Hq Hb] Hf Hu. rewrite wall_ok; rewrite (Hz u Hu); auto.
  unfold year_ok, far_from_ends, day in *. apply andb_true_intro.
  destruct (u <? T); split; apply Z.leb_le; lia.
Qed.

Ltac split_ifs := repeat match goal with
  | |- context [if (?a <? ?b) then _ else _] => destruct (Z.ltb_spec a b)
  | |- context [if (?a <=? ?b) then _ else _] => destruct (Z.leb_spec a b)
  | |- context [if (?a =? ?b) then _ else _] => destruct (Z.eqb_spec a b)
  end.

Definition reads_near (zone : Z -> Z) (T p q t : Z) : Prop :=
  forall u, t - 2 * day <= u <= t + 2 * day -> wall zone u = Ok (u + if u <? T then p else q).

Lemma near_wall zone t T p q : one_change zone t T p q -> far_from_ends t -> reads_near zone T p q t.
Proof. intros Hc Hf u Hu. apply (wall_near zone t); auto. unfold day in *. lia. Qed.

Lemma near_instant zone u T p q : one_change zone u T p q -> far_from_ends u -> reads_near zone T p q (u + zone u).
Proof.
  intros Hc Hf v Hv. pose proof Hc as [Hz Hp Hq _]. apply (wall_near zone u); auto.
  rewrite (Hz u) in Hv by (unfold day; lia). unfold day in *. destruct (u <? T); lia.
Qed.

Lemma wall_to_instant_solved zone T p q t fold : reads_near zone T p q t ->
  - day < p < day -> - day < q < day -> p - q <= day ->
  wall_to_instant zone t fold = Ok (solved T p q t fold).
Proof.
  intros W Hp Hq Hb. unfold reads_near, day in *.
  unfold wall_to_instant. rewrite (W t) by lia. cbn [bind]. cbv zeta.
  set (a := t + (if t <? T then p else q) - t).
  assert (Ha : t < T /\ a = p \/ T <= t /\ a = q).
  { unfold a. destruct (Z.ltb_spec t T); lia. }
  clearbody a. rewrite (W (t - a)) by lia. cbn [bind].
  set (t1 := t - a + (if t - a <? T then p else q)).
  assert (H1 : t - a < T /\ t1 = t - a + p \/ T <= t - a /\ t1 = t - a + q).
  { unfold t1. destruct (Z.ltb_spec (t - a) T); lia. }
  clearbody t1. unfold solved.
  assert (F : forall b, b = p \/ b = q -> wall zone (t - b) = Ok (t - b + if t - b <? T then p else q)).
  { intros b Hb'. apply W. lia. }
  assert (Wd : wall zone (if fold then t - a + 86400 else t - a - 86400)
    = Ok ((if fold then t - a + 86400 else t - a - 86400)
          + if (if fold then t - a + 86400 else t - a - 86400) <? T then p else q)).
  { apply W. destruct fold; lia. }
  destruct (Z.eqb_spec t1 t) as [E1|E1].
  - rewrite Wd. cbn [bind].
    set (u2 := if fold then t - a + 86400 else t - a - 86400) in *.
    assert (H2 : u2 < T /\ u2 + (if u2 <? T then p else q) - u2 = p
              \/ T <= u2 /\ u2 + (if u2 <? T then p else q) - u2 = q).
    { destruct (Z.ltb_spec u2 T); lia. }
    set (b := u2 + (if u2 <? T then p else q) - u2) in *. clearbody b. clear Wd.
    assert (Hu2 : u2 = if fold then t - a + 86400 else t - a - 86400) by reflexivity.
    clearbody u2.
    destruct (Z.eqb_spec a b) as [Eab|Eab].
    + f_equal. destruct fold; split_ifs; lia.
    + rewrite (F b) by lia. cbn [bind].
      destruct (Z.ltb_spec (t - b) T); destruct fold; split_ifs; f_equal; lia.
  - clear Wd. rewrite (F (t1 - (t - a))) by lia. cbn [bind].
    destruct (Z.ltb_spec (t - (t1 - (t - a))) T); destruct fold; split_ifs; f_equal; lia.
Qed.

(** What is loaded. *)
Definition reads_before (zone : Z -> Z) (T p q u : Z) : Prop :=
  forall v, u - day <= v <= u -> zone v = (if v <? T then p else q) /\ wall zone v = Ok (v + zone v).

Lemma change_reads zone x T p q u : one_change zone x T p q -> far_from_ends x -> x - day <= u <= x + day ->
  reads_before zone T p q u.
Proof.
  intros Hc Hf Hu v Hv. pose proof Hc as [Hz _ _ _].
  assert (Hx : x - 3 * day <= v <= x + 3 * day) by (unfold day in *; lia).
  split; [auto|]. rewrite (Hz v Hx). apply (wall_near zone x); auto.
Qed.

Lemma loaded_fold zone T p q u : reads_before zone T p q u -> p - q <= day ->
  exists fold, wall zone u = Ok (u + zone u) /\ wall zone (u - 86400) = Ok (u - 86400 + zone (u - 86400))
    /\ (let transition := u + zone u - (u - 86400 + zone (u - 86400)) - 86400 in
        if transition <? 0 then do again <- wall zone (u + transition); Ok (again =? u + zone u) else Ok false)
       = Ok fold
    /\ (fold = true <-> u >= T /\ u + q - p < T)
    /\ solved T p q (u + zone u) fold = u.
Proof.
  intros Hr Hb. unfold reads_before, day in *.
  assert (Hz : forall v, u - 86400 <= v <= u -> zone v = if v <? T then p else q) by (intros; apply Hr; auto).
  assert (W : forall v, u - 86400 <= v <= u -> wall zone v = Ok (v + zone v)) by (intros; apply Hr; auto).
  rewrite (W u), (W (u - 86400)) by lia.
  rewrite (Hz u), (Hz (u - 86400)) by lia. cbv zeta. unfold solved.
  destruct (Z.ltb_spec u T); [|destruct (Z.ltb_spec (u - 86400) T)].
  - exists false. split; [reflexivity|]. split; [reflexivity|].
    replace (u - 86400 <? T) with true by lia. split; [split_ifs; [lia|reflexivity]|].
    split; [split; [discriminate|lia]|]. split_ifs; lia.
  - replace (u + q - (u - 86400 + p) - 86400) with (q - p) by lia.
    destruct (Z.ltb_spec (q - p) 0).
    + rewrite W, Hz by lia. cbn [bind]. eexists. split; [reflexivity|]. split; [reflexivity|]. split; [reflexivity|].
      destruct (Z.ltb_spec (u + (q - p)) T).
      * replace (u + (q - p) + p =? u + q) with true by lia. split; [split; [lia|auto]|]. split_ifs; lia.
      * replace (u + (q - p) + q =? u + q) with false by lia. split; [split; [discriminate|lia]|]. split_ifs; lia.
    + exists false. do 3 (split; [reflexivity|]). split; [split; [discriminate|lia]|]. split_ifs; lia.
  - exists false. do 2 (split; [reflexivity|]). split; [split_ifs; [lia|reflexivity]|].
    split; [split; [discriminate|lia]|]. split_ifs; lia.
Qed.

Lemma fold_again zone T p q u : reads_before zone T p q u -> p - q <= day ->
  (u >= T /\ u + q - p < T) <-> exists u', u - day <= u' < u /\ shows zone u' (u + zone u).
Proof.
  intros Hr Hb. unfold reads_before, shows, day in *.
  assert (Hz : forall v, u - 86400 <= v <= u -> zone v = if v <? T then p else q) by (intros; apply Hr; auto).
  split.
  - intros [H1 H2]. exists (u + q - p). split; [lia|]. rewrite !Hz by lia. split_ifs; lia.
  - intros (u' & Hu & Hs). rewrite !Hz in Hs by lia. revert Hs. split_ifs; lia.
Qed.

Lemma solved_stands zone T p q t fold u0 : one_change zone t T p q -> t - day <= u0 <= t + day ->
  shows zone u0 t -> stands_for zone t fold (solved T p q t fold).
Proof.
  intros [Hz Hp Hq Hb] Hu0 H0. unfold stands_for, shows, solved, day in *. rewrite Hz in H0 by lia.
  assert (Hs : forall u', t - 86400 <= u' <= t + 86400 -> u' + zone u' = t ->
    u' < T /\ u' = t - p \/ T <= u' /\ u' = t - q).
  { intros u' Hu' H'. rewrite Hz in H' by lia. revert H'. split_ifs; lia. }
  split; [|split].
  - revert H0. destruct fold; split_ifs; intros; rewrite Hz by lia; split_ifs; lia.
  - destruct fold; split_ifs; lia.
  - intros u' Hu' H'. specialize (Hs u' Hu' H'). revert H0. destruct fold; split_ifs; lia.
Qed.

Lemma solved_gap zone T p q t fold : one_change zone t T p q ->
  (forall u, t - day <= u <= t + day -> ~ shows zone u t) ->
  T + p <= t < T + q /\ solved T p q t fold = t - if fold then q else p.
Proof.
  intros [Hz Hp Hq Hb] Hno. unfold shows, solved, day in *.
  pose proof (Hno (t - p) ltac:(lia)) as H1. pose proof (Hno (t - q) ltac:(lia)) as H2.
  rewrite Hz in H1, H2 by lia. revert H1 H2. destruct fold; split_ifs; lia.
Qed.

(** Dumping is dumping the instant where the clock shows UTC. *)
Lemma stands_unique zone t fold u u' : stands_for zone t fold u -> stands_for zone t fold u' -> u = u'.
Proof.
  intros (H1 & H2 & H3) (H1' & H2' & H3'). specialize (H3 u' H2' H1'). specialize (H3' u H2 H1).
  destruct fold; lia.
Qed.

Lemma micro_split u f : 0 <= f < 1000000 -> (u * 1000000 + f) / 1000000 = u /\ (u * 1000000 + f) mod 1000000 = f.
Proof.
  intros Hf. split.
  - symmetry. apply Z.div_unique with f; lia.
  - symmetry. apply Z.mod_unique with u; lia.
Qed.

Lemma to_int_instant zone r t f fold u : 0 <= f < 1000000 -> wall_to_instant zone t fold = Ok u ->
  is_datetime false (u * 1000000 + f) ->
  naive_to_int zone r (t * 1000000 + f, fold) = time_to_int r (u * 1000000 + f) false.
Proof.
  intros Hf Hw Hd. apply datetime_range in Hd. unfold naive_to_int, time_to_int, naive_timestamp, py_timestamp.
  replace (u * 1000000 + f <? first_datetime_us false) with false by (symmetry; apply Z.ltb_ge; apply Hd).
  destruct (micro_split t f Hf) as [-> ->]. destruct (micro_split u f Hf) as [-> ->].
  rewrite Hw. reflexivity.
Qed.

Lemma dump_instant zone c r tz sg e g t f fold u : 0 <= f < 1000000 -> wall_to_instant zone t fold = Ok u ->
  is_datetime false (u * 1000000 + f) ->
  naive_dump zone c r sg e g (t * 1000000 + f, fold) = leaf_dump c (KTime r tz sg e) g (VTime (u * 1000000 + f) false).
Proof.
  intros Hf Hw Hd. unfold naive_dump. cbn [leaf_dump]. rewrite (to_int_instant zone r t f fold u); auto.
Qed.

Lemma far_datetime x u f : far_from_ends x -> x - 2 * day <= u <= x + 2 * day -> 0 <= f < 1000000 ->
  is_datetime false (u * 1000000 + f).
Proof. unfold far_from_ends, is_datetime, day. lia. Qed.

Lemma solved_near T p q t fold : - day < p < day -> - day < q < day ->
  t - day <= solved T p q t fold <= t + day.
Proof. intros Hp Hq. unfold solved. destruct fold; split_ifs; lia. Qed.

Lemma zoned_dump zone c r tz sg e g t f fold u : regular zone t -> far_from_ends t -> 0 <= f < 1000000 ->
  stands_for zone t fold u ->
  naive_dump zone c r sg e g (t * 1000000 + f, fold) = leaf_dump c (KTime r tz sg e) g (VTime (u * 1000000 + f) false).
Proof.
  intros (T & p & q & Hc) Hf Hm Hu. pose proof Hc as [_ Hp Hq Hb].
  pose proof Hu as (Hs & Hd & _).
  pose proof (solved_stands zone T p q t fold u Hc Hd Hs) as Hu'.
  rewrite (stands_unique _ _ _ _ _ Hu Hu'). apply dump_instant; auto.
  - apply wall_to_instant_solved; auto. apply near_wall; auto.
  - apply (far_datetime t); auto. pose proof (solved_near T p q t fold Hp Hq). unfold day in *. lia.
Qed.

Lemma gap_dump zone c r tz sg e g t f (fold : bool) T p q : one_change zone t T p q -> far_from_ends t ->
  0 <= f < 1000000 -> (forall u, t - day <= u <= t + day -> ~ shows zone u t) ->
  let u := t - if fold then q else p in
  naive_dump zone c r sg e g (t * 1000000 + f, fold) = leaf_dump c (KTime r tz sg e) g (VTime (u * 1000000 + f) false)
  /\ shows zone u (if fold then t - (q - p) else t + (q - p)).
Proof.
  intros Hc Hf Hm Hno u. pose proof Hc as [Hz Hp Hq Hb].
  destruct (solved_gap zone T p q t fold Hc Hno) as [Ht Hs].
  assert (Hn : t - day <= u <= t + day) by (unfold u, day in *; destruct fold; lia).
  split.
  - apply dump_instant; auto.
    + unfold u. rewrite <- Hs. apply wall_to_instant_solved; auto. apply near_wall; auto.
    + apply (far_datetime t); auto. unfold day in *. lia.
  - unfold shows. rewrite Hz by (unfold day in *; lia). unfold u. destruct fold; split_ifs; lia.
Qed.

(** Loading is showing on the clock what is loaded in UTC. *)
Definition on_clock (zone : Z -> Z) (us : Z) : Z := us + zone (us / 1000000) * 1000000.

Lemma clock_split zone us :
  on_clock zone us = (us / 1000000 + zone (us / 1000000)) * 1000000 + us mod 1000000.
Proof. unfold on_clock. pose proof (Z.div_mod us 1000000 ltac:(lia)). lia. Qed.

Lemma time_t_years aware us : (first_datetime_us aware <=? us) && (us <=? max_datetime_us) = true ->
  time_t_ok (us / 1000000) = true.
Proof.
  unfold first_datetime_us, min_datetime_us, max_datetime_us, time_t_ok. intros H.
  pose proof (Z.mul_div_le us 1000000 ltac:(lia)). pose proof (Z.mul_succ_div_gt us 1000000 ltac:(lia)).
  destruct aware; lia.
Qed.

Lemma fromtimestamp_clock zone T p q x us : py_fromtimestamp x false = Ok us ->
  reads_before zone T p q (us / 1000000) -> p - q <= day ->
  exists fold, naive_fromtimestamp zone x = Ok (on_clock zone us, fold)
    /\ (fold = true <-> exists u', us / 1000000 - day <= u' < us / 1000000
          /\ shows zone u' (us / 1000000 + zone (us / 1000000)))
    /\ solved T p q (us / 1000000 + zone (us / 1000000)) fold = us / 1000000.
Proof.
  intros H Hr Hb. destruct x as [n d]. unfold py_fromtimestamp, naive_fromtimestamp in *.
  destruct (opt_res (rnd64 (rmul (Z.rem n d, d) (1000000, 1)))) as [fus|e|]; cbn [bind] in *; try discriminate.
  cbv zeta in *. set (x := Z.quot n d * 1000000 + round_half_even_signed fus) in *. clearbody x.
  destruct ((first_datetime_us false <=? x) && (x <=? max_datetime_us)) eqn:Hok;
    [|destruct (time_t_ok (x / 1000000)); discriminate].
  injection H as ->. rewrite (time_t_years false us Hok). cbn [bind].
  destruct (loaded_fold zone T p q (us / 1000000) Hr Hb) as (fold & H1 & H2 & H3 & H4 & H5).
  exists fold. rewrite H1. cbn [bind]. rewrite H2. cbn [bind]. cbv zeta in H3. rewrite H3. cbn [bind].
  split; [rewrite clock_split; reflexivity|]. split; [|exact H5].
  rewrite H4. apply fold_again; auto.
Qed.

Lemma zoned_load zone c r sg e g g0 s s' us : leaf_load c (KTime r false sg e) g g0 s = (s', Ok (VTime us false)) ->
  regular zone (us / 1000000) -> far_from_ends (us / 1000000) ->
  exists fold, naive_load zone r sg e g s = (s', Ok (on_clock zone us, fold))
    /\ (fold = true <-> exists u', us / 1000000 - day <= u' < us / 1000000
          /\ shows zone u' (us / 1000000 + zone (us / 1000000)))
    /\ forall c' tz sg' e' g', naive_dump zone c' r sg' e' g' (on_clock zone us, fold)
         = leaf_dump c' (KTime r tz sg' e') g' (VTime us false).
Proof.
  intros H (T & p & q & Hc) Hf. pose proof Hc as [Hz Hp Hq Hb]. cbn [leaf_load] in H.
  unfold naive_load, lbind, llift, lret in *. destruct g as [n|x|]; try discriminate.
  destruct (read_int n sg e s) as [s2 [z|x|]]; try discriminate.
  assert (Ht : time_of_int r false z = Ok us) by (destruct (time_of_int r false z); congruence).
  assert (Hs : s2 = s') by (destruct (time_of_int r false z); congruence). subst s2. clear H.
  unfold time_of_int, naive_of_int in *.
  match type of Ht with bind ?m _ = _ => destruct m as [x|x|]; cbn [bind] in *; try discriminate end.
  assert (Hr : reads_before zone T p q (us / 1000000)).
  { apply (change_reads zone (us / 1000000)); auto. unfold day. lia. }
  destruct (fromtimestamp_clock zone T p q x us Ht Hr Hb) as (fold & -> & Hfold & Hsol).
  exists fold. split; [reflexivity|]. split; [exact Hfold|]. intros c' tz sg' e' g'.
  assert (Hm : 0 <= us mod 1000000 < 1000000) by (apply Z.mod_pos_bound; lia).
  assert (Hus : us / 1000000 * 1000000 + us mod 1000000 = us).
  { pose proof (Z.div_mod us 1000000 ltac:(lia)). lia. }
  rewrite clock_split, (dump_instant zone c' r tz sg' e' g' _ _ fold (us / 1000000)); auto; [rewrite Hus; auto| |].
  - rewrite (wall_to_instant_solved zone T p q); auto; [rewrite Hsol; auto|]. apply near_instant; auto.
  - rewrite Hus. rewrite <- Hus. apply (far_datetime (us / 1000000)); auto. unfold day. lia.
Qed.

(** Whole seconds. *)
Lemma zoned_seconds zone c sg e n t fold u : regular zone t -> far_from_ends t -> stands_for zone t fold u ->
  0 <= n -> int_range sg n u ->
  exists bs fold', naive_dump zone c ResS sg e (Ok n) (t * 1000000, fold) = (bs, Ok tt) /\ zlen bs = n
    /\ (fold' = true <-> exists u', u - day <= u' < u /\ shows zone u' t)
    /\ forall pre suf, naive_load zone ResS sg e (Ok n) (at_data pre bs suf)
         = (after_data pre bs suf, Ok (t * 1000000, fold')).
Proof.
  intros Hreg Hf Hu Hn Hi. pose proof Hreg as (T & p & q & Hc). pose proof Hc as [Hz Hp Hq Hb].
  pose proof Hu as (Hs & Hd & _).
  pose proof (zoned_dump zone c ResS false sg e (Ok n) t 0 fold u Hreg Hf ltac:(lia) Hu) as Hdump.
  rewrite !Z.add_0_r in Hdump. rewrite Hdump. cbn [leaf_dump].
  assert (Hdt : is_datetime false (u * 1000000)).
  { rewrite <- (Z.add_0_r (u * 1000000)). apply (far_datetime t); auto; [unfold day in *; lia|lia]. }
  apply datetime_range in Hdt. rewrite (to_int_seconds u false Hdt). cbn [dlift dbind app].
  destruct (py_to_bytes u n e sg) as [bs|x|] eqn:Hbs.
  2,3: exfalso; revert Hbs; unfold py_to_bytes; replace (n <? 0) with false by lia;
    rewrite (proj2 (fits_range sg n u) Hi); discriminate.
  destruct (py_to_bytes_ok _ _ _ _ _ Hbs) as (_ & _ & Hl & _).
  assert (Hr : reads_before zone T p q u) by (apply (change_reads zone t); auto).
  assert (Hx : exists x, time_of_int ResS false u = py_fromtimestamp x false
     /\ naive_of_int zone ResS u = naive_fromtimestamp zone x).
  { pose proof (of_int_seconds u false Hdt) as Ho. unfold time_of_int, naive_of_int in *.
    destruct (opt_res (rnd64 (u, 1))) as [x|x|]; try discriminate. exists x. auto. }
  destruct Hx as (x & Hx & Hx'). rewrite (of_int_seconds u false Hdt) in Hx. symmetry in Hx.
  assert (Hdiv : u * 1000000 / 1000000 = u) by (apply Z.div_mul; lia).
  destruct (fromtimestamp_clock zone T p q x (u * 1000000) Hx) as (fold' & Hl' & Hfold & _); auto.
  { rewrite Hdiv. auto. }
  rewrite Hdiv in Hfold. unfold on_clock in Hl'. rewrite Hdiv in Hl'.
  replace (u * 1000000 + zone u * 1000000) with (t * 1000000) in Hl' by (unfold shows in Hs; lia).
  exists bs, fold'. unfold write_int, dlift, dwrite, dbind. rewrite Hbs. split; [reflexivity|]. split; [exact Hl|].
  split; [unfold shows in Hs; rewrite <- Hs; exact Hfold|].
  intros pre suf. unfold naive_load, lbind, llift. subst n.
  rewrite (read_int_ok _ bs suf) by apply rest_at. rewrite (py_from_to_bytes _ _ _ _ _ Hbs), Hx', Hl'.
  rewrite advance_at. reflexivity.
Qed.

(** With UTC as the local zone this is the model used everywhere else. *)
Lemma utc_dump c r tz sg e g us : min_datetime_us <= us <= max_datetime_us ->
  naive_dump (fun _ => 0) c r sg e g (us, false) = leaf_dump c (KTime r tz sg e) g (VTime us false).
Proof.
  intros Hus. unfold naive_dump. cbn [leaf_dump]. f_equal. f_equal.
  unfold naive_to_int, time_to_int, naive_timestamp, py_timestamp.
  assert (Hlo : -62135596800 <= us / 1000000) by (apply Z.div_le_lower_bound; unfold min_datetime_us in *; lia).
  assert (Hhi : us / 1000000 <= 253402300799).
  { apply Z.lt_succ_r. apply Z.div_lt_upper_bound; unfold max_datetime_us in *; lia. }
  assert (W : forall u, wall (fun _ => 0) u = if year_ok u then Ok u else Raise (year_error u)).
  { intros u. unfold wall. rewrite Z.add_0_r. reflexivity. }
  set (t := us / 1000000) in *. unfold wall_to_instant.
  assert (Hy : year_ok t = true) by (unfold year_ok; lia).
  rewrite (W t), Hy. cbn [bind]. cbv zeta. rewrite Z.sub_diag, Z.sub_0_r, (W t), Hy. cbn [bind].
  rewrite Z.eqb_refl, (W (t - 86400)). unfold year_ok at 1.
  replace (t - 86400 <=? 253402300799) with true by lia. unfold t in *. clear t.
  destruct (Z.leb_spec (-62135596800) (us / 1000000 - 86400)) as [Hd|Hd]; cbn [andb bind].
  - rewrite Z.sub_diag. cbn [Z.eqb bind].
    replace (us <? first_datetime_us false) with false; [reflexivity|].
    symmetry. apply Z.ltb_ge. unfold first_datetime_us, min_datetime_us.
    pose proof (Z.mul_div_le us 1000000 ltac:(lia)). lia.
  - replace (year_error (us / 1000000 - 86400)) with EValueErr.
    2:{ unfold year_error. replace (_ && _) with true; [reflexivity|]. symmetry. apply andb_true_iff. lia. }
    replace (us <? first_datetime_us false) with true; [reflexivity|].
    symmetry. apply Z.ltb_lt. unfold first_datetime_us, min_datetime_us.
    pose proof (Z.mul_succ_div_gt us 1000000 ltac:(lia)). lia.
Qed.

Lemma utc_fromtimestamp x : naive_fromtimestamp (fun _ => 0) x = (do us <- py_fromtimestamp x false; Ok (us, false)).
Proof.
  destruct x as [n d]. unfold naive_fromtimestamp, py_fromtimestamp.
  destruct (opt_res (rnd64 (rmul (Z.rem n d, d) (1000000, 1)))) as [fus|e|]; cbn [bind]; try reflexivity.
  cbv zeta. set (us := Z.quot n d * 1000000 + round_half_even_signed fus). clearbody us.
  unfold wall, year_ok. rewrite !Z.add_0_r. cbv zeta.
  pose proof (Z.mul_div_le us 1000000 ltac:(lia)). pose proof (Z.mul_succ_div_gt us 1000000 ltac:(lia)).
  pose proof (Z.div_mod us 1000000 ltac:(lia)).
  unfold first_datetime_us, min_datetime_us, max_datetime_us.
  destruct (time_t_ok (us / 1000000)) eqn:Ht; cbn [bind].
  2:{ replace (_ && _) with false; [reflexivity|]. unfold time_t_ok in Ht. symmetry. apply andb_false_iff. lia. }
  clear Ht.
  destruct (Z.leb_spec (-62135596800 + 86400) (us / 1000000)), (Z.leb_spec (us / 1000000) 253402300799).
  - replace (-62135596800 <=? us / 1000000) with true by lia. cbn [andb bind].
    replace (-62135596800 <=? us / 1000000 - 86400) with true by lia.
    replace (us / 1000000 - 86400 <=? 253402300799) with true by lia. cbn [andb bind].
    replace (us / 1000000 - (us / 1000000 - 86400) - 86400 <? 0) with false by lia. cbn [bind].
    replace ((-62135596800000000 + 86400000000 <=? us) && (us <=? 253402300799999999)) with true by lia.
    cbn [bind]. do 2 f_equal. lia.
  - replace (us <=? 253402300799999999) with false by lia. rewrite !andb_false_r. reflexivity.
  - replace (-62135596800000000 + 86400000000 <=? us) with false by lia. cbn [andb bind].
    destruct (Z.leb_spec (-62135596800) (us / 1000000)); cbn [andb bind]; [|reflexivity].
    replace (-62135596800 <=? us / 1000000 - 86400) with false by lia. cbn [andb bind]. unfold year_error.
    replace (-67768040609740800 <=? us / 1000000) with true by lia.
    replace (us / 1000000 <=? 67768036191676799) with true by lia.
    replace (-67768040609740800 <=? us / 1000000 - 86400) with true by lia.
    replace (us / 1000000 - 86400 <=? 67768036191676799) with true by lia. reflexivity.
  - replace (us <=? 253402300799999999) with false by lia. rewrite !andb_false_r. reflexivity.
Qed.

Lemma utc_load c r sg e g g0 s : leaf_load c (KTime r false sg e) g g0 s
  = let '(s', x) := naive_load (fun _ => 0) r sg e g s in (s', do w <- x; Ok (VTime (fst w) false)).
Proof.
  cbn [leaf_load]. unfold naive_load, lbind, llift, lret. destruct g as [n|x|]; try reflexivity.
  destruct (read_int n sg e s) as [s2 [z|x|]]; try reflexivity.
  unfold naive_of_int, time_of_int.
  match goal with |- context [bind ?m (fun x => py_fromtimestamp x false)] => destruct m as [x|x|]; cbn [bind]; try reflexivity end.
  rewrite utc_fromtimestamp. destruct (py_fromtimestamp x false); reflexivity.
Qed.

Lemma utc_dump_range c r tz sg e g us : -62135596800 * 1000000 <= us < 253402300800 * 1000000 ->
  naive_dump (fun _ => 0) c r sg e g (us, false) = leaf_dump c (KTime r tz sg e) g (VTime us false).
Proof. intros H. apply utc_dump. unfold min_datetime_us, max_datetime_us. lia. Qed.
