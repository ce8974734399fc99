(** Proofs about the number of calls (C100). *)
From Coq Require Import String Lia FinFun.
From Verif Require Import Tac FieldProofs StructProofs ToDictProofs MoodProofs.
From Verif Require Export SpecCosts.
Open Scope list_scope.

(** ** Exponentially many *)
Lemma xs_length k : String.length (xs k) = S k.
Proof. induction k as [|k IH]; cbn [xs String.length]; auto. Qed.

Lemma xs_inj : Injective xs.
Proof. intros a b H. apply (f_equal String.length) in H. rewrite !xs_length in H. lia. Qed.

Lemma chain_names m : map fst (chain m) = map xs (seq 0 m).
Proof. unfold chain. rewrite map_map. reflexivity. Qed.

Lemma chain_bound m : bound (chain m).
Proof.
  split.
  - rewrite chain_names. apply Injective_map_NoDup; [exact xs_inj|apply seq_NoDup].
  - unfold chain. apply Forall_forall. intros nf H. apply in_map_iff in H as (k & <- & _). destruct k; reflexivity.
Qed.

Lemma chain_well_formed m : well_formed (cls (chain_env m) 0).
Proof.
  destruct (chain_bound m) as [H1 H2]. split; [exact H1|]. split; [exact H2|]. cbn [cls chain_env nth class_of k_fvals k_comps]. rewrite map_map. cbn [fst]. apply incl_refl.
Qed.

Lemma chain_assoc m k : (k < m)%nat -> assoc (comps (chain_env m) 0) (xs k) = Some (link k).
Proof.
  intros H. apply bound_assoc; [exact (chain_bound m)|]. unfold comps. cbn [cls chain_env nth class_of k_comps]. unfold chain.
  apply in_map_iff. exists k. split; [reflexivity|]. apply in_seq. lia.
Qed.

Fixpoint cost (k : nat) : nat := match k with O => 2 | S k' => 2 + 2 * cost k' end.

Lemma chain_get m : forall k n t, (k < m)%nat -> (k < n)%nat ->
  t_struct_get (chain_env m) steadily n 0 [] (xs k) t = (t + cost k, Ok (VInt 0))%nat.
Proof.
  induction k as [|k IH]; intros [|n] t Hk Hn; try lia; cbn [t_struct_get]; rewrite (chain_assoc m _ Hk).
  - cbn [t_struct_get oget name_of link u8 conf with_compute byte basic c_name dget]. unfold t_compute_value, tbind, call, steadily.
    unfold stored_or_fallback, fallback_value. cbn. unfold tret. f_equal. lia.
  - cbn [t_struct_get oget name_of link u8 conf with_compute byte basic c_name dget]. unfold t_compute_value, tbind, call, steadily.
    unfold stored_or_fallback, fallback_value. cbn [link u8 conf with_compute byte basic c_name c_default c_compute is_undefined negb].
    cbn [t_run_q struct_mem struct_keys filter map existsb]. unfold twice. cbn [t_run_q].
    rewrite IH by lia. cbn [t_run_q]. rewrite IH by lia. cbn [t_run_q tret is_not_present c_present]. cbn. unfold tret. f_equal. lia.
Qed.

Lemma cost_exp k : (cost k + 2 = 2 ^ (k + 2))%nat.
Proof. induction k as [|k IH]; [reflexivity|]. cbn [cost Nat.add Nat.pow]. lia. Qed.

Lemma chain_fields m n : (m < n)%nat -> forall l t, (forall k, In k l -> (k < m)%nat) ->
  exists t', t_validate_fields (chain_env m) steadily n 0 [] (map (fun k => (xs k, [])) l) t = (t', Ok tt) /\ (t <= t')%nat /\ forall k, In k l -> (t + cost k <= t')%nat.
Proof.
  intros Hn. induction l as [|k l IH]; intros t Hl; [exists t; repeat split; auto; intros k []|]. cbn [map t_validate_fields].
  rewrite (chain_assoc m k) by (apply Hl; left; auto). unfold tbind at 1. rewrite chain_get by (pose proof (Hl k (or_introl eq_refl)); lia).
  destruct (IH (t + cost k)%nat) as (t' & Ht & Hle & Hc); [intros j Hj; apply Hl; right; auto|]. exists t'. split; [|split].
  - unfold tbind, tret. destruct k; cbn [link u8 conf with_compute byte basic c_validators run_validators t_run_method_validators tret]; unfold tret; exact Ht.
  - lia.
  - intros j [<-|Hj]; [exact Hle|]. specialize (Hc j Hj). lia.
Qed.

Lemma chain_slow m n t : (S m < n)%nat -> exists t', t_validate_contents (chain_env (S m)) steadily n 0 [] t = (t', Ok tt) /\ (t + 2 ^ (m + 2) <= t' + 2)%nat.
Proof.
  intros Hn. destruct (chain_fields (S m) n Hn (seq 0 (S m)) t) as (t' & Ht & _ & Hc); [intros k Hk; apply in_seq in Hk; lia|].
  exists t'. split.
  - unfold t_validate_contents. replace (k_fvals (cls (chain_env (S m)) 0)) with (map (fun k => (xs k, @nil (value -> query unit))) (seq 0 (S m))).
    + unfold tbind. rewrite Ht. reflexivity.
    + cbn [cls chain_env nth class_of k_fvals]. unfold chain. rewrite map_map. reflexivity.
  - specialize (Hc m). rewrite in_seq in Hc. specialize (Hc ltac:(lia)). pose proof (cost_exp m). lia.
Qed.

(** ** Few *)
Section Set_.
Variables (E : env) (mood : nat -> fconf -> fconf) (n cid : nat) (vals : dict).
Hypothesis Hmood : moody mood.
Hypothesis Hi : instance_of E cid vals.
Hypothesis Hset : all_set E cid vals.

(** It takes [k] calls at most. *)
Definition within {A} (k : nat) (m : timed A) : Prop := forall t, (t <= fst (m t) <= t + k)%nat.

Lemma within_ret {A} (r : res A) : within 0 (tret r).
Proof. intros t. cbn. lia. Qed.

Lemma within_bind {A B} k1 k2 (m : timed A) (k : A -> timed B) : within k1 m -> (forall a, within k2 (k a)) -> within (k1 + k2) (tdo x <- m; k x).
Proof.
  intros Hm Hk t. specialize (Hm t). unfold tbind. destruct (m t) as [t' [a|e|]]; cbn [fst] in *; [specialize (Hk a t')|..]; lia.
Qed.

Lemma within_more {A} k1 k2 (m : timed A) : within k1 m -> (k1 <= k2)%nat -> within k2 m.
Proof. intros Hm Hk t. specialize (Hm t). lia. Qed.

Lemma within_run_q {A} mem get keys (q : query A) : (forall name, within 0 (get name)) -> within 0 (t_run_q mem get keys q).
Proof.
  intros Hg. induction q as [a|e|name k IH|name k IH|k IH]; cbn [t_run_q]; try apply within_ret; auto.
  intros t. specialize (Hg name t). destruct (get name t) as [t' [v|e|]]; cbn [fst] in *; [specialize (IH (inl v) t')|specialize (IH (inr e) t')|]; lia.
Qed.

Lemma within_get name : within 0 (t_struct_get E mood n cid vals name).
Proof.
  pose proof (well_formed_bound _ (proj1 Hi)) as Hb. destruct (assoc (comps E cid) name) as [f|] eqn:Ha.
  - pose proof (assoc_in _ _ _ Ha) as Hin. destruct (Hset _ _ Hin) as (v & Hv & _). destruct (bound_assoc _ _ _ Hb Hin) as (_ & Hn).
    intros t. rewrite (stored_get E mood n cid vals name f v Ha Hn Hv). cbn. lia.
  - intros t. destruct n; cbn [t_struct_get]; rewrite Ha; cbn; lia.
Qed.

Lemma within_run_struct {A} (q : query A) : within 0 (t_run_struct E mood n cid vals q).
Proof. apply within_run_q. apply within_get. Qed.

Lemma within_call {A} (run : query A -> timed A) c q : (forall q, within 0 (run q)) -> within 1 (call mood run c q).
Proof. intros H t. unfold call. specialize (H (q (mood t c)) (S t)). lia. Qed.

Lemma within_compute (runv : query value -> timed value) (runb : query bool -> timed bool) c ctx :
  (forall q, within 0 (runv q)) -> (forall q, within 0 (runb q)) -> within 2 (t_compute_value mood runv runb c ctx).
Proof.
  intros Hv Hb. unfold t_compute_value. change 2%nat with (1 + 1)%nat. apply within_bind; [apply within_call; auto|]. intros v.
  destruct (is_not_present v); [eapply within_more; [apply within_ret|lia]|]. change 1%nat with (1 + 0)%nat. apply within_bind; [apply within_call; auto|]. intros p.
  destruct (negb p); [apply within_ret|]. destruct (is_undefined v); apply within_ret.
Qed.

Lemma within_validate : within 0 (t_validate_contents E mood n cid vals).
Proof.
  unfold t_validate_contents. change 0%nat with (0 + 0)%nat. apply within_bind.
  - induction (k_fvals (cls E cid)) as [|[name vs] fvs IH]; [apply within_ret|]. cbn [t_validate_fields]. destruct (assoc (comps E cid) name); [|apply within_ret].
    change 0%nat with (0 + (0 + (0 + 0)))%nat. apply within_bind; [apply within_get|]. intros v. apply within_bind; [apply within_ret|]. intros _.
    apply within_bind; [|auto]. induction vs as [|q vs IHv]; [apply within_ret|]. cbn [t_run_method_validators]. change 0%nat with (0 + 0)%nat.
    apply within_bind; [apply within_run_struct|auto].
  - intros _. induction (k_svals (cls E cid)) as [|q vs IH]; [apply within_ret|]. cbn [t_run_struct_validators]. change 0%nat with (0 + 0)%nat.
    apply within_bind; [apply within_run_struct|auto].
Qed.

Lemma within_possible fs : forall d, within (2 * length fs) (t_possible_values E mood n cid vals fs d).
Proof.
  induction fs as [|[nm f] fs IH]; intros d; [apply within_ret|]. cbn [t_possible_values length]. intros t.
  pose proof (within_compute (t_run_struct E mood n cid vals) (t_run_struct E mood n cid vals) (conf f) VNone (fun q => within_run_struct q) (fun q => within_run_struct q) t) as H.
  destruct (t_compute_value mood _ _ (conf f) VNone t) as [t' [v|e|]]; cbn [fst] in H |- *.
  - specialize (IH (dset d (cname f) v) t'). lia.
  - destruct (is_binobj_Error e); [specialize (IH d t'); lia|cbn [fst]; lia].
  - lia.
Qed.

Lemma within_map {A B} (k : A -> timed B) l : (forall a, within 0 (k a)) -> within 0 (t_map k l).
Proof.
  intros Hk. induction l as [|a l IH]; [apply within_ret|]. cbn [t_map]. change 0%nat with (0 + (0 + 0))%nat. apply within_bind; [auto|]. intros b.
  apply within_bind; [auto|]. intros. apply within_ret.
Qed.

Lemma within_whatever : within (2 * length (comps E cid)) (t_to_dict_whatever_possible E mood n cid vals).
Proof.
  unfold t_to_dict_whatever_possible. replace (2 * length (comps E cid))%nat with (2 * length (comps E cid) + (0 + 0))%nat by lia.
  apply within_bind; [apply within_possible|]. intros d. apply within_bind; [|intros; apply within_ret].
  apply within_map. intros k. destruct (dget d k); [apply within_ret|]. change 0%nat with (0 + 0)%nat. apply within_bind; [apply within_get|intros; apply within_ret].
Qed.

Lemma whatever_all t t' w : t_to_dict_whatever_possible E mood n cid vals t = (t', Ok w) -> filter (fun nf => negb (dmem w (cname (snd nf)))) (comps E cid) = [].
Proof.
  intros H. pose proof (well_formed_bound _ (proj1 Hi)) as Hb.
  assert (G : forall nf, In nf (comps E cid) -> negb (dmem w (cname (snd nf))) = false).
  { intros [name f] Hin. cbn [snd]. rewrite (bound_cname _ _ _ Hb Hin). destruct (Hset _ _ Hin) as (v & Hv & Hu).
    destruct (stored_whatever E mood Hmood n cid vals name f v Hi Hin Hv Hu _ _ _ H) as (_ & Hk). apply dmem_in in Hk. rewrite Hk. reflexivity. }
  revert G. induction (comps E cid) as [|nf fs IH]; intros G; [reflexivity|]. cbn [filter]. rewrite (G nf (or_introl eq_refl)). apply IH. intros x Hx. apply G. right. auto.
Qed.

Lemma within_to_dict : within (2 * length (comps E cid)) (t_to_dict E mood n cid vals false).
Proof.
  intros t. unfold t_to_dict, tbind. pose proof (within_whatever t) as H. destruct (t_to_dict_whatever_possible E mood n cid vals t) as [t' [w|e|]] eqn:Hw; cbn [fst] in *; try lia.
  unfold t_missing_values. rewrite (whatever_all _ _ _ Hw). cbn [t_map]. unfold tret. destruct (drop_discard _ _); cbn [fst]; lia.
Qed.

Lemma few : within (2 * length (comps E cid)) (tdo _ <- t_validate_contents E mood n cid vals; t_to_dict E mood n cid vals false).
Proof. change (2 * length (comps E cid))%nat with (0 + 2 * length (comps E cid))%nat. apply within_bind; [apply within_validate|]. intros _. apply within_to_dict. Qed.
End Set_.

Lemma few_written mood d c ctx t : (t <= fst (t_compute_value mood (t_run_dict d) (t_run_dict d) c ctx t) <= t + 2)%nat.
Proof. apply within_compute; intros q s; rewrite t_run_dict_pure; cbn; lia. Qed.

Lemma chain_count m : length (k_comps (cls (chain_env (S m)) 0)) = S m.
Proof. cbn [cls chain_env nth class_of k_comps]. unfold chain. rewrite map_length, seq_length. reflexivity. Qed.

Lemma chain_instance m : instance_of (chain_env (S m)) 0 [].
Proof. split; [apply chain_well_formed|]. split; [constructor|intros x []]. Qed.

Lemma chain_set : let vals := [(xs 0, VInt 1); (xs 1, VInt 2)] in
  instance_of (chain_env 2) 0 vals /\ all_set (chain_env 2) 0 vals
  /\ fst ((tdo _ <- t_validate_contents (chain_env 2) steadily 5 0 vals; t_to_dict (chain_env 2) steadily 5 0 vals false) 0%nat) = 4%nat.
Proof.
  intros vals. split; [|split].
  - split; [apply chain_well_formed|]. split; [|apply incl_refl].
    constructor; [intros [H|[]]; discriminate H|]. constructor; [intros []|constructor].
  - intros name f [H|[H|[]]]; injection H as <- _; [exists (VInt 1)|exists (VInt 2)]; split; try reflexivity; discriminate.
  - vm_compute. reflexivity.
Qed.
