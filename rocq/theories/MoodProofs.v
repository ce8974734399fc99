(** Proofs about callables that change their minds (C98). *)
From Coq Require Import Lia.
From Verif Require Import Tac FieldProofs FieldMore StructProofs ToDictProofs DumpErrors.
From Verif Require Export SpecMoods.

(** ** Callables that do not *)
Section Steady.
Variable E : env.
Variable same : nat -> fconf -> fconf.
Hypothesis Hsame : forall t c, same t c = c.

(** The result does not depend on the time. *)
Definition gives {A} (m : timed A) (r : res A) : Prop := forall t, snd (m t) = r.

Lemma gives_ret {A} (r : res A) : gives (tret r) r.
Proof. intros t. reflexivity. Qed.

Lemma gives_bind {A B} (m : timed A) (k : A -> timed B) r k' : gives m r -> (forall a, gives (k a) (k' a)) -> gives (tdo x <- m; k x) (do x <- r; k' x).
Proof.
  intros Hm Hk t. unfold tbind. specialize (Hm t). destruct (m t) as [t' [a|e|]]; cbn [snd] in Hm; subst r; cbn [bind snd]; [apply Hk|reflexivity|reflexivity].
Qed.

Lemma gives_run_q {A} mem get get' keys (q : query A) : (forall name, gives (get name) (get' name)) -> gives (t_run_q mem get keys q) (run_q mem get' keys q).
Proof.
  intros Hg. induction q as [a|e|name k IH|name k IH|k IH]; cbn [t_run_q run_q]; try apply gives_ret; try apply IH.
  intros t. specialize (Hg name t). destruct (get name t) as [t' [v|e|]]; cbn [snd] in Hg; rewrite <- Hg; [apply IH|apply IH|reflexivity].
Qed.

Lemma gives_compute mem get keys (runv : query value -> timed value) (runb : query bool -> timed bool) c ctx :
  (forall q, gives (runv q) (run_q mem get keys q)) -> (forall q, gives (runb q) (run_q mem get keys q)) ->
  gives (t_compute_value same runv runb c ctx) (run_q mem get keys (compute_value_for_dump c ctx)).
Proof.
  intros Hv Hb t. unfold compute_value_for_dump. rewrite run_qbind. unfold t_compute_value, tbind, call. rewrite Hsame.
  specialize (Hv (stored_or_fallback c) (S t)). destruct (runv (stored_or_fallback c) (S t)) as [t' [v|e|]]; cbn [snd] in Hv; rewrite <- Hv; [|reflexivity|reflexivity].
  destruct (is_not_present v); [reflexivity|]. rewrite run_qbind.
  rewrite Hsame. specialize (Hb (c_present c ctx None) (S t')). destruct (runb (c_present c ctx None) (S t')) as [t2 [p|e|]]; cbn [snd] in Hb; rewrite <- Hb; [|reflexivity|reflexivity].
  destruct p; [|reflexivity]. cbn [negb]. destruct (is_undefined v); reflexivity.
Qed.

Lemma gives_struct_get cid vals : forall n name, gives (t_struct_get E same n cid vals name) (struct_get E n cid vals name).
Proof.
  induction n as [|n IH]; intros name; cbn [t_struct_get struct_get]; destruct (assoc (comps E cid) name) as [f|]; try apply gives_ret;
    destruct (oget vals (name_of f)) as [v|]; try apply gives_ret.
  apply gives_compute; intros q; apply gives_run_q; auto.
Qed.

Lemma gives_run_struct {A} n cid vals (q : query A) : gives (t_run_struct E same n cid vals q) (run_struct E n cid vals q).
Proof. apply gives_run_q. apply gives_struct_get. Qed.

Lemma gives_methods n cid vals vs v : gives (t_run_method_validators E same n cid vals vs v) (run_method_validators E n cid vals vs v).
Proof. induction vs as [|q vs IH]; [apply gives_ret|]. cbn [t_run_method_validators run_method_validators]. apply gives_bind; [apply gives_run_struct|auto]. Qed.

Lemma gives_validate_fields n cid vals fvs : gives (t_validate_fields E same n cid vals fvs) (validate_fields E n cid vals fvs).
Proof.
  induction fvs as [|[name vs] fvs IH]; [apply gives_ret|]. cbn [t_validate_fields validate_fields].
  destruct (assoc (comps E cid) name) as [f|]; [|apply gives_ret].
  apply gives_bind; [apply gives_struct_get|]. intros v. apply gives_bind; [apply gives_ret|]. intros _.
  apply gives_bind; [apply gives_methods|auto].
Qed.

Lemma gives_struct_validators n cid vals vs : gives (t_run_struct_validators E same n cid vals vs) (run_struct_validators E n cid vals vs).
Proof. induction vs as [|q vs IH]; [apply gives_ret|]. cbn [t_run_struct_validators run_struct_validators]. apply gives_bind; [apply gives_run_struct|auto]. Qed.

Lemma gives_validate n cid vals : gives (t_validate_contents E same n cid vals) (validate_contents E n cid vals).
Proof. apply gives_bind; [apply gives_validate_fields|]. intros _. apply gives_struct_validators. Qed.

Lemma gives_possible n cid vals fs : forall dct, gives (t_possible_values E same n cid vals fs dct) (possible_values E n cid vals fs dct).
Proof.
  induction fs as [|[name f] fs IH]; intros dct; [apply gives_ret|]. cbn [t_possible_values possible_values]. intros t.
  pose proof (gives_compute _ _ _ (t_run_struct E same n cid vals) (t_run_struct E same n cid vals) (conf f) VNone
                (fun q => gives_run_struct n cid vals q) (fun q => gives_run_struct n cid vals q) t) as H.
  unfold run_struct at 1. destruct (t_compute_value _ _ _ _ _ t) as [t' [v|e|]]; cbn [snd] in H; rewrite <- H; [apply IH| |reflexivity].
  destruct (is_binobj_Error e); [apply IH|reflexivity].
Qed.

Lemma gives_map {A B} (k : A -> timed B) k' l : (forall a, gives (k a) (k' a)) -> gives (t_map k l) (mapM k' l).
Proof.
  intros Hk. induction l as [|x l IH]; [apply gives_ret|]. cbn [t_map mapM]. apply gives_bind; [auto|]. intros y.
  apply gives_bind; [auto|]. intros ys. apply gives_ret.
Qed.

Lemma t_run_dict_pure {A} d (q : query A) t : t_run_dict d q t = (t, run_dict d q).
Proof.
  unfold t_run_dict, run_dict. induction q as [a|e|name k IH|name k IH|k IH]; cbn [t_run_q run_q]; auto.
  unfold tret at 1. destruct (dget_res d name); auto.
Qed.

Lemma gives_dict_value d c ctx : gives (t_compute_value same (t_run_dict d) (t_run_dict d) c ctx) (run_dict d (compute_value_for_dump c ctx)).
Proof. apply gives_compute; intros q t; rewrite t_run_dict_pure; reflexivity. Qed.

Lemma gives_to_dict n cid vals keep : gives (t_to_dict E same n cid vals keep) (to_dict E n cid vals keep).
Proof.
  unfold t_to_dict, to_dict. apply gives_bind.
  - unfold t_to_dict_whatever_possible, to_dict_whatever_possible. apply gives_bind; [apply gives_possible|]. intros dct. cbv zeta.
    apply gives_bind; [|intros first; apply gives_ret]. apply gives_map. intros k. destruct (dget dct k); [apply gives_ret|].
    apply gives_bind; [apply gives_struct_get|]. intros v. apply gives_ret.
  - intros dct. apply gives_bind.
    + apply gives_map. intros nf. apply gives_bind; [apply gives_dict_value|]. intros v. apply gives_ret.
    + intros upd. cbv zeta. apply gives_bind; [apply gives_ret|]. intros d. apply gives_ret.
Qed.

Lemma steady_dump_fields n ctx d fs : forall t, t_dump_fields E same n fs ctx d t = dump_fields (do_dump E n) fs ctx d.
Proof.
  induction fs as [|[name f] fs IH]; intros t; [reflexivity|]. cbn [t_dump_fields dump_fields].
  pose proof (gives_dict_value d (conf f) ctx t) as H. destruct (t_compute_value _ _ _ _ _ t) as [t' r]. cbn [snd] in H. rewrite <- H.
  destruct r as [v|e|]; [|reflexivity|reflexivity]. rewrite !dbind_ok. rewrite IH. reflexivity.
Qed.

Lemma steady_struct n cid vals ctx t : t_struct_to_stream E same n cid vals ctx t = struct_to_stream E n cid vals ctx.
Proof.
  unfold t_struct_to_stream, struct_to_stream, struct_to_stream_with.
  pose proof (gives_bind _ (fun _ => t_to_dict E same n cid vals false) _ _ (gives_validate n cid vals) (fun _ => gives_to_dict n cid vals false) t) as H.
  destruct ((tdo _ <- t_validate_contents E same n cid vals; t_to_dict E same n cid vals false) t) as [t' r]. cbn [snd] in H. rewrite H. clear H.
  destruct (validate_contents E n cid vals) as [[]|e|]; cbn [bind]; [|reflexivity|reflexivity]. rewrite dbind_ok.
  destruct (to_dict E n cid vals false) as [all|e|]; [|reflexivity|reflexivity]. rewrite !dbind_ok. apply steady_dump_fields.
Qed.
End Steady.

(** ** Callables that do *)
Section Moody.
Variable E : env.
Variable mood : nat -> fconf -> fconf.
Hypothesis Hmood : moody mood.

Lemma tbind_ok {A B} (m : timed A) (k : A -> timed B) t t' b : (tdo x <- m; k x) t = (t', Ok b) -> exists t1 a, m t = (t1, Ok a) /\ k a t1 = (t', Ok b).
Proof. unfold tbind. destruct (m t) as [t1 [a|e|]]; intros H; try discriminate. eauto. Qed.

Lemma t_map_keys {B} (k : string * field -> timed (string * B)) l : (forall nf t t' r, k nf t = (t', Ok r) -> fst r = cname (snd nf)) ->
  forall t t' ys, t_map k l t = (t', Ok ys) -> map fst ys = map (fun nf => cname (snd nf)) l.
Proof.
  intros Hk. induction l as [|x l IH]; intros t t' ys H; cbn [t_map] in H.
  - injection H as _ <-. reflexivity.
  - apply tbind_ok in H as (t1 & y & Hy & H). apply tbind_ok in H as (t2 & ys' & Hys & H). injection H as _ <-.
    cbn [map]. rewrite (Hk _ _ _ _ Hy), (IH _ _ _ Hys). reflexivity.
Qed.

Lemma dmem_dset d k v x : dmem (dset d k v) x = (String.eqb k x || dmem d x)%bool.
Proof.
  unfold dmem. rewrite dget_dset. destruct (String.eqb k x); reflexivity.
Qed.

Lemma dmem_dupdate upd : forall d x, dmem (dupdate d upd) x = (dmem d x || dmem upd x)%bool.
Proof.
  induction upd as [|[k v] upd IH]; intros d x; [rewrite orb_false_r; reflexivity|].
  assert (Hc : dmem ((k, v) :: upd) x = (String.eqb k x || dmem upd x)%bool) by (unfold dmem; cbn [dget]; destruct (String.eqb k x); reflexivity).
  rewrite Hc. change (dupdate d ((k, v) :: upd)) with (dupdate (dset d k v) upd). rewrite IH, dmem_dset.
  destruct (String.eqb k x), (dmem d x), (dmem upd x); reflexivity.
Qed.

Lemma drop_keeps fs : forall d d' x, drop_discard fs d = Ok d' -> (forall f, In (x, f) fs -> c_discard (conf f) = false) ->
  bound fs -> dmem d x = true -> dmem d' x = true.
Proof.
  induction fs as [|[name f] fs IH]; intros d d' x H Hx Hb Hm; cbn [drop_discard] in H; [injection H as <-; auto|].
  assert (Hx' : forall g, In (x, g) fs -> c_discard (conf g) = false) by (intros g Hg; apply Hx; right; auto).
  pose proof (bound_tail _ _ Hb) as Hb'. rewrite (bound_cname _ name f Hb (or_introl eq_refl)) in H.
  destruct (c_discard (conf f)) eqn:Hd; [|eauto].
  destruct (dmem d name); [|discriminate]. eapply IH; eauto. rewrite dmem_ddel; auto.
  intros ->. rewrite (Hx f (or_introl eq_refl)) in Hd. discriminate.
Qed.

Lemma t_to_dict_has n cid vals t t' all : bound (comps E cid) -> t_to_dict E mood n cid vals false t = (t', Ok all) ->
  forall name f, In (name, f) (comps E cid) -> c_discard (conf f) = false -> dmem all name = true.
Proof.
  intros Hb H name f Hin Hdis. unfold t_to_dict in H. apply tbind_ok in H as (t1 & dct & _ & H). apply tbind_ok in H as (t2 & upd & Hu & H).
  apply tbind_ok in H as (t3 & d & Hd & H). unfold tret in Hd, H. injection Hd as _ Hd. injection H as _ H.
  apply dmem_in. rewrite (dicts_of_keys _ _ _ _ H). apply dmem_in. eapply drop_keeps; eauto.
  - intros g Hg. assert (g = f) as ->; [|auto]. destruct Hb as [Hnd _].
    clear - Hnd Hin Hg. induction (comps E cid) as [|[nm h] fs IH]; [destruct Hin|]. cbn [map fst] in Hnd. inversion Hnd; subst.
    destruct Hin as [Hi|Hi], Hg as [Hg|Hg]; try congruence.
    + injection Hi as -> ->. apply (in_map fst) in Hg. contradiction.
    + injection Hg as -> ->. apply (in_map fst) in Hi. contradiction.
    + auto.
  - rewrite dmem_dupdate. destruct (dmem dct name) eqn:Hm; [reflexivity|]. cbn [orb]. apply dmem_in. unfold dkeys.
    assert (Hk : map fst upd = map (fun nf => cname (snd nf)) (filter (fun nf => negb (dmem dct (cname (snd nf)))) (comps E cid))).
    { eapply t_map_keys; [|exact Hu]. intros nf s s' r Hr. apply tbind_ok in Hr as (s1 & v & _ & Hr). injection Hr as _ <-. reflexivity. }
    rewrite Hk. pose proof (bound_cname _ name f Hb Hin) as Hcn. apply in_map_iff. exists (name, f). split; [exact Hcn|].
    apply filter_In. split; [auto|]. cbn [snd]. rewrite Hcn, Hm. reflexivity.
Qed.

Lemma dumped_accepted n f v ctx d out : field_to_stream E n f v ctx d = (out, Ok tt) -> v <> VDefault -> accepts (conf f) v.
Proof.
  unfold field_to_stream, field_to_stream_with, to_stream_with. intros H Hv.
  replace (is_default v) with false in H by (destruct v; try reflexivity; congruence). rewrite dbind_ok in H.
  destruct (_ || _); [discriminate|]. destruct (run_validators (c_validators (conf f)) v) as [[]|e|] eqn:Hr; try discriminate.
  apply run_accepts; auto.
Qed.

Lemma moody_dump_fields n ctx all fs : bound fs -> (forall name f, In (name, f) fs -> c_discard (conf f) = false -> dmem all name = true) ->
  forall t out, t_dump_fields E mood n fs ctx all t = (out, Ok tt) ->
  exists parts, Forall2 (written_once E mood n ctx all) fs parts /\ out = concat parts.
Proof.
  induction fs as [|[name f] fs IH]; intros Hb Hall t out H; cbn [t_dump_fields] in H.
  - injection H as <-. exists []. split; [constructor|reflexivity].
  - assert (Hn : c_name (conf f) = Some name) by (destruct Hb as [_ Hb]; inversion Hb; auto).
    assert (Hs : c_discard (conf f) = false -> forall t, exists v, dget all name = Some v /\ run_dict all (stored_or_fallback (mood t (conf f))) = Ok v).
    { intros Hdis t0. specialize (Hall name f (or_introl eq_refl) Hdis). unfold dmem in Hall.
      destruct (dget all name) as [v|] eqn:Hg; [|discriminate]. exists v. split; [auto|].
      unfold stored_or_fallback. destruct (Hmood t0 (conf f)) as (-> & _). rewrite Hn. unfold run_dict. cbn [run_q]. unfold dmem. rewrite Hg. cbn [run_q].
      unfold dget_res. rewrite Hg. reflexivity. }
    destruct (t_compute_value mood (t_run_dict all) (t_run_dict all) (conf f) ctx t) as [t' r] eqn:Hc.
    destruct r as [v|e|]; try discriminate. rewrite dbind_ok in H. apply dbind_ok_inv in H as (o1 & [] & o2 & H1 & H2 & ->).
    destruct (IH (bound_tail _ _ Hb) (fun nm g Hi => Hall nm g (or_intror Hi)) _ _ H2) as (parts & Hf & ->).
    exists (o1 :: parts). split; [|reflexivity]. constructor; [|auto]. cbn [written_once].
    unfold t_compute_value, call in Hc. apply tbind_ok in Hc as (t1 & w & Hw & Hc). rewrite t_run_dict_pure in Hw. injection Hw as <- Hw.
    destruct (is_not_present w) eqn:Hnp.
    + injection Hc as _ <-. left. cbn [is_not_present] in H1. injection H1 as <-. split; [reflexivity|]. intros Hdis. left.
      destruct (Hs Hdis t) as (w' & Hg & Hw'). rewrite Hw' in Hw. injection Hw as ->. destruct w; try discriminate. auto.
    + apply tbind_ok in Hc as (t2 & p & Hp & Hc). rewrite t_run_dict_pure in Hp. injection Hp as <- Hp. destruct p; cbn [negb] in Hc.
      * destruct (is_undefined w); [discriminate|]. injection Hc as _ <-. rewrite Hnp in H1. right. exists w. split.
        -- intros Hdis. destruct (Hs Hdis t) as (w' & Hg & Hw'). rewrite Hw' in Hw. injection Hw as ->. auto.
        -- split; [|auto]. eapply dumped_accepted; eauto.
      * injection Hc as _ <-. left. cbn [is_not_present] in H1. injection H1 as <-. split; [reflexivity|]. intros Hdis. right. eauto.
Qed.

Lemma moody_struct n cid vals ctx t out : well_formed (cls E cid) -> t_struct_to_stream E mood n cid vals ctx t = (out, Ok tt) ->
  exists t1 t2 all parts, t_validate_contents E mood n cid vals t = (t1, Ok tt) /\ t_to_dict E mood n cid vals false t1 = (t2, Ok all)
    /\ Forall2 (written_once E mood n ctx all) (k_comps (cls E cid)) parts /\ out = concat parts.
Proof.
  intros (Hnd & Hnm & _) H. assert (Hb : bound (comps E cid)) by (split; auto). unfold t_struct_to_stream in H.
  destruct ((tdo _ <- t_validate_contents E mood n cid vals; t_to_dict E mood n cid vals false) t) as [t2 r] eqn:Hr.
  destruct r as [all|e|]; try discriminate. rewrite dbind_ok in H. apply tbind_ok in Hr as (t1 & [] & Hv & Ha).
  destruct (moody_dump_fields n ctx all (comps E cid) Hb (t_to_dict_has _ _ _ _ _ _ Hb Ha) _ _ H) as (parts & Hf & ->).
  exists t1, t2, all, parts. auto.
Qed.

(** *** Values that are set *)
Lemma stored_get n cid vals name f v : assoc (comps E cid) name = Some f -> c_name (conf f) = Some name -> dget vals name = Some v ->
  forall t, t_struct_get E mood n cid vals name t = (t, Ok v).
Proof. intros Hf Hn Hv t. destruct n; cbn [t_struct_get]; rewrite Hf; unfold name_of; rewrite Hn; cbn [oget]; rewrite Hv; reflexivity. Qed.

Definition holds (name : string) (v : value) (d : dict) : Prop := Forall (fun kv => fst kv = name -> snd kv = v \/ snd kv = VNotPresent) d.

Lemma holds_dset name v d k x : holds name v d -> (k = name -> x = v \/ x = VNotPresent) -> holds name v (dset d k x).
Proof.
  intros Hd Hx. induction Hd as [|[k' w] d Hw Hd IH]; cbn [dset]; [constructor; [exact Hx|constructor]|].
  destruct (String.eqb_spec k' k) as [->|]; constructor; auto.
Qed.

Lemma holds_ddel name v d k : holds name v d -> holds name v (ddel d k).
Proof. intros Hd. induction Hd as [|[k' w] d Hw Hd IH]; cbn [ddel]; [constructor|]. destruct (String.eqb k' k); [exact Hd|constructor; auto]. Qed.

Lemma holds_drop name v fs : forall d d', holds name v d -> drop_discard fs d = Ok d' -> holds name v d'.
Proof.
  induction fs as [|[nm f] fs IH]; intros d d' Hd H; cbn [drop_discard] in H; [injection H as <-; auto|].
  destruct (c_discard (conf f)); [|eauto]. destruct (dmem d (cname f)); [|discriminate]. eapply IH; [|exact H]. apply holds_ddel; auto.
Qed.

Lemma holds_dupdate name v upd : forall d, holds name v d -> holds name v upd -> holds name v (dupdate d upd).
Proof.
  induction upd as [|[k x] upd IH]; intros d Hd Hu; [exact Hd|]. change (dupdate d ((k, x) :: upd)) with (dupdate (dset d k x) upd).
  inversion Hu as [|? ? Hx Hu']; subst. apply IH; [|exact Hu']. apply holds_dset; auto.
Qed.

Section Stored.
Variables (n cid : nat) (vals : dict) (name : string) (f : field) (v : value).
Hypothesis Hi : instance_of E cid vals.
Hypothesis Hf : In (name, f) (comps E cid).
Hypothesis Hv : dget vals name = Some v.
Hypothesis Hu : v <> VUndefined.

Lemma stored_bound : bound (comps E cid).
Proof. apply well_formed_bound. apply Hi. Qed.

Lemma stored_mem : In name (struct_keys vals).
Proof. apply struct_keys_in; [apply Hi|]. eauto. Qed.

Lemma stored_here t : t_struct_get E mood n cid vals name t = (t, Ok v).
Proof. destruct (bound_assoc _ _ _ stored_bound Hf) as (Ha & Hn). eapply stored_get; eauto. Qed.

Lemma stored_possible fs : incl fs (comps E cid) -> forall d t t' d', holds name v d -> t_possible_values E mood n cid vals fs d t = (t', Ok d') -> holds name v d'.
Proof.
  induction fs as [|[nm g] fs IH]; intros Hincl d t t' d' Hd H; cbn [t_possible_values] in H; [injection H as _ <-; auto|].
  assert (Hincl' : incl fs (comps E cid)) by (intros x Hx; apply Hincl; right; auto).
  destruct (t_compute_value mood _ _ (conf g) VNone t) as [t1 [x|e|]] eqn:Hc; [| |discriminate].
  - eapply (IH Hincl'); [|exact H]. apply holds_dset; [auto|]. intros Hcn.
    assert (Hg : In (nm, g) (comps E cid)) by (apply Hincl; left; auto).
    pose proof (bound_cname _ _ _ stored_bound Hg) as Hnm. rewrite Hcn in Hnm. subst nm.
    destruct (bound_assoc _ _ _ stored_bound Hg) as (_ & Hn).
    unfold t_compute_value, call in Hc. apply tbind_ok in Hc as (t2 & w & Hw & Hc).
    assert (w = v) as ->.
    { unfold stored_or_fallback in Hw. destruct (Hmood t (conf g)) as (Hnm & _). rewrite Hnm, Hn in Hw. unfold t_run_struct in Hw. cbn [t_run_q] in Hw.
      rewrite (proj2 (struct_mem_in vals name) stored_mem) in Hw. cbn [t_run_q] in Hw. rewrite stored_here in Hw. cbn [t_run_q] in Hw.
      unfold tret in Hw. congruence. }
    destruct (is_not_present v); [unfold tret in Hc; right; congruence|].
    apply tbind_ok in Hc as (t3 & p & _ & Hc). destruct p; cbn [negb] in Hc; [|unfold tret in Hc; right; congruence].
    destruct (is_undefined v); unfold tret in Hc; [discriminate|left; congruence].
  - destruct (is_binobj_Error e); [|discriminate]. eapply (IH Hincl'); eauto.
Qed.

Lemma holds_get d x : holds name v d -> dget d name = Some x -> x = v \/ x = VNotPresent.
Proof.
  intros Hd H. rewrite dget_assoc in H. apply assoc_in in H. unfold holds in Hd. rewrite Forall_forall in Hd. apply (Hd _ H). reflexivity.
Qed.

Lemma stored_whatever t t' w : t_to_dict_whatever_possible E mood n cid vals t = (t', Ok w) -> holds name v w /\ In name (dkeys w).
Proof.
  intros H. unfold t_to_dict_whatever_possible in H. apply tbind_ok in H as (t1 & d & Hd & H). apply tbind_ok in H as (t2 & first & Hfst & H).
  unfold tret in H. injection H as _ <-. pose proof (stored_possible _ (incl_refl _) _ _ _ _ (Forall_nil _) Hd) as Hhd.
  assert (G : forall ks t t' l, t_map (fun k => match dget d k with Some x => tret (Ok (k, x)) | None => tdo x <- t_struct_get E mood n cid vals k; tret (Ok (k, x)) end) ks t = (t', Ok l) ->
    holds name v l /\ map fst l = ks).
  { induction ks as [|k ks IH]; intros s s' l Hl; cbn [t_map] in Hl; [injection Hl as _ <-; split; [constructor|auto]|].
    apply tbind_ok in Hl as (s1 & y & Hy & Hl). apply tbind_ok in Hl as (s2 & ys & Hys & Hl). injection Hl as _ <-.
    destruct (IH _ _ _ Hys) as (H1 & H2).
    destruct (dget d k) as [x|] eqn:Hk.
    - injection Hy as _ <-. split; [|cbn [map fst]; congruence]. constructor; [|exact H1]. cbn [fst snd]. intros Hkn. rewrite Hkn in Hk. exact (holds_get _ _ Hhd Hk).
    - apply tbind_ok in Hy as (s3 & x & Hx & Hy). injection Hy as _ <-. split; [|cbn [map fst]; congruence]. constructor; [|exact H1].
      cbn [fst snd]. intros Hkn. rewrite Hkn, stored_here in Hx. left. congruence. }
  destruct (G _ _ _ _ Hfst) as (H1 & H2). split.
  - apply Forall_app. split; [exact H1|]. unfold holds in Hhd. rewrite Forall_forall in *. intros x Hx. apply filter_In in Hx as [Hx _]. auto.
  - unfold dkeys. rewrite map_app, H2. apply in_or_app. left. apply stored_mem.
Qed.

Lemma stored_to_dict t t' all : c_discard (conf f) = false -> t_to_dict E mood n cid vals false t = (t', Ok all) ->
  dget all name = Some VNotPresent \/ exists v', recursive_to_dicts E n v = Ok v' /\ dget all name = Some v'.
Proof.
  intros Hdis H. pose proof (t_to_dict_has _ _ _ _ _ _ stored_bound H _ _ Hf Hdis) as Hhas.
  unfold t_to_dict in H. apply tbind_ok in H as (t1 & w & Hw & H). apply tbind_ok in H as (t2 & upd & Hup & H).
  apply tbind_ok in H as (t3 & d & Hd & H). unfold tret in Hd, H. injection Hd as _ Hd. injection H as _ H.
  destruct (stored_whatever _ _ _ Hw) as (H1 & H2). apply dmem_in in H2.
  assert (Hh : holds name v d).
  { eapply holds_drop; [|exact Hd]. apply holds_dupdate; [exact H1|].
    assert (Hk : map fst upd = map (fun nf => cname (snd nf)) (filter (fun nf => negb (dmem w (cname (snd nf)))) (comps E cid))).
    { eapply t_map_keys; [|exact Hup]. intros nf s s' r Hr. apply tbind_ok in Hr as (s1 & x & _ & Hr). injection Hr as _ <-. reflexivity. }
    unfold holds. rewrite Forall_forall. intros [k x] Hin. cbn [fst snd]. intros Hkn. exfalso.
    apply (in_map fst) in Hin. cbn [fst] in Hin. rewrite Hkn in Hin. rewrite Hk in Hin. apply in_map_iff in Hin as (nf & Hc & Hin). apply filter_In in Hin as [_ Hin].
    rewrite Hc, H2 in Hin. discriminate. }
  pose proof (dicts_of_get _ _ _ _ H name) as Hg. destruct (dget d name) as [x|] eqn:Hx.
  - destruct Hg as (x' & Hr & Hg). destruct (holds_get _ _ Hh Hx) as [Hxv|Hxv]; rewrite Hxv in Hr; [right; exists x'; auto|].
    left. clear - Hr Hg. destruct n; cbn [recursive_to_dicts] in Hr; [discriminate|]. congruence.
  - unfold dmem in Hhas. rewrite Hg in Hhas. discriminate.
Qed.

(** Every method validator of the field was given that value, and did not raise. *)
Lemma stored_validated t t' vs q : t_validate_contents E mood n cid vals t = (t', Ok tt) -> In (name, vs) (k_fvals (cls E cid)) -> In q vs ->
  exists s s', t_run_struct E mood n cid vals (q v) s = (s', Ok tt).
Proof.
  intros H Hin Hq. unfold t_validate_contents in H. apply tbind_ok in H as (t1 & [] & H & _). revert t t1 H Hin.
  induction (k_fvals (cls E cid)) as [|[nm us] fvs IH]; intros t t1 H Hin; [destruct Hin|]. cbn [t_validate_fields] in H.
  destruct (assoc (comps E cid) nm) as [g|] eqn:Ha; [|discriminate]. apply tbind_ok in H as (s1 & x & Hx & H).
  apply tbind_ok in H as (s2 & [] & _ & H). apply tbind_ok in H as (s3 & [] & Hm & H). destruct Hin as [Heq|Hin]; [|eauto].
  injection Heq as Hnm Hus. subst us. rewrite Hnm, stored_here in Hx. injection Hx as _ <-. clear - Hm Hq. revert s2 Hm.
  induction vs as [|u vs IH]; intros s2 Hm; [destruct Hq|]. cbn [t_run_method_validators] in Hm. apply tbind_ok in Hm as (s4 & [] & Hu & Hm).
  destruct Hq as [->|Hq]; eauto.
Qed.
End Stored.
End Moody.
