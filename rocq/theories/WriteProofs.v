(** Proofs about writing to other streams (C96). *)
From Coq Require Import Lia.
From Verif Require Import Tac FieldProofs StructProofs.
From Verif Require Export SpecWrites.

Lemma wrun_reliable dev p : reliable dev -> forall i, wrun dev p i = (concat (fst (calls p)), snd (calls p)).
Proof.
  intros H. induction p as [r|bs k IH]; intros i; [reflexivity|]. cbn [wrun calls].
  destruct (H i bs) as (Hn & Hl). destruct (dev i bs) as [n o]. cbn [fst snd] in *. subst o.
  rewrite IH. destruct (calls k) as [l r]. cbn [fst snd concat]. rewrite firstn_all2 by auto. reflexivity.
Qed.

Lemma wrun_honest dev p : honest dev -> forall i,
  (wrun dev p i = (concat (fst (calls p)), snd (calls p)) /\ forall j bs, nth_error (fst (calls p)) j = Some bs -> snd (dev (i + j)%nat bs) = None)
  \/ exists pre bs post n e, fst (calls p) = pre ++ bs :: post
     /\ (forall j b, nth_error pre j = Some b -> snd (dev (i + j)%nat b) = None)
     /\ dev (i + length pre)%nat bs = (n, Some e) /\ wrun dev p i = (concat pre ++ firstn n bs, Raise e).
Proof.
  intros H. induction p as [r|bs k IH]; intros i.
  - left. split; [reflexivity|]. intros [|j] b Hj; discriminate.
  - cbn [wrun calls]. pose proof (H i bs) as Hb. destruct (dev i bs) as [n [e|]] eqn:Hd; cbn [fst snd] in Hb.
    + right. destruct (calls k) as [l r]. exists [], bs, l, n, e. cbn [app concat length fst]. rewrite Nat.add_0_r, Hd.
      split; [auto|]. split; [|auto]. intros [|j] b Hj; discriminate.
    + specialize (Hb eq_refl). rewrite firstn_all2 by auto.
      destruct (IH (S i)) as [(Hr & Ho)|(pre & b & post & n' & e & Hc & Hp & Hd' & Hr)]; rewrite Hr; destruct (calls k) as [l r]; cbn [fst snd] in *.
      * left. split; [reflexivity|]. intros [|j] b Hj; cbn [nth_error] in Hj.
        -- injection Hj as <-. rewrite Nat.add_0_r, Hd. reflexivity.
        -- replace (i + S j)%nat with (S i + j)%nat by lia. auto.
      * right. exists (bs :: pre), b, post, n', e. subst l. cbn [app concat length]. split; [auto|]. split.
        -- intros [|j] b' Hj; cbn [nth_error] in Hj.
           ++ injection Hj as <-. rewrite Nat.add_0_r, Hd. reflexivity.
           ++ replace (i + S j)%nat with (S i + j)%nat by lia. auto.
        -- replace (i + S (length pre))%nat with (S i + length pre)%nat by lia. rewrite <- app_assoc. auto.
Qed.

Lemma calls_then p k : calls (wthen p k) = match calls p with
                                           | (l, Ok _) => (l ++ fst (calls k), snd (calls k))
                                           | (l, r) => (l, r)
                                           end.
Proof.
  induction p as [[[]|e|]|bs p IH]; cbn [wthen calls]; try reflexivity.
  - destruct (calls k). reflexivity.
  - rewrite IH. destruct (calls p) as [l [[]|e|]]; reflexivity.
Qed.

(** A field is written by one call. *)
Lemma field_calls E n f v ctx d :
  calls (w_field_to_stream E n f v ctx d)
  = match field_to_stream E n f v ctx d with
    | (out, Ok _) => ([out], Ok tt)
    | (_, r) => ([], r)
    end.
Proof.
  unfold w_field_to_stream, w_to_stream_with, field_to_stream, field_to_stream_with, to_stream_with.
  destruct (if is_default v then default_of (conf f) else Ok v) as [x|e|]; [|reflexivity|reflexivity].
  rewrite dbind_ok. cbn [wtry]. destruct (is_undefined x || is_default x); [reflexivity|].
  destruct (run_validators (c_validators (conf f)) x) as [[]|e|]; [|reflexivity|reflexivity].
  rewrite dbind_ok. cbn [wtry]. destruct (is_none x).
  - destruct (null_repr (do_dump E n) f d) as [bs|e|]; reflexivity.
  - destruct (do_dump E n f x ctx d) as [bs [[]|e|]]; [|reflexivity|reflexivity]. rewrite dbind_ok. cbn [wtry].
    destruct (match c_size (conf f) with SInt n => Ok n | SNone => _ | SRef _ => _ end) as [z|e|]; [|reflexivity|reflexivity].
    rewrite dbind_ok. cbn [wtry]. cbv zeta. destruct (0 <? zlen bs - z); [reflexivity|].
    destruct (zlen bs - z <? 0); [|reflexivity]. destruct (add_padding (conf f) (kind f) bs z) as [p|e|]; reflexivity.
Qed.

Lemma failed_field_empty E n f v ctx d out r : field_to_stream E n f v ctx d = (out, r) -> r <> Ok tt -> out = [].
Proof.
  unfold field_to_stream, field_to_stream_with, to_stream_with. intros H Hr.
  destruct (if is_default v then default_of (conf f) else Ok v) as [v'|e|].
  2,3: injection H as <- <-; auto.
  rewrite dbind_ok in H. destruct (is_undefined v' || is_default v'). { injection H as <- <-; auto. }
  destruct (run_validators (c_validators (conf f)) v') as [[]|e|].
  2,3: injection H as <- <-; auto.
  rewrite dbind_ok in H. destruct (is_none v').
  { destruct (null_repr (do_dump E n) f d) as [bs|e|]; [rewrite dbind_ok in H; unfold dwrite in H; congruence| |]; injection H as <- <-; auto. }
  destruct (do_dump E n f v' ctx d) as [bs [[]|e|]].
  2,3: injection H as <- <-; auto.
  rewrite dbind_ok in H.
  destruct (match c_size (conf f) with SInt n => Ok n | SNone => _ | SRef _ => _ end) as [z|e|].
  2,3: injection H as <- <-; auto.
  rewrite dbind_ok in H. cbv zeta in H. destruct (0 <? zlen bs - z). { injection H as <- <-; auto. }
  destruct (zlen bs - z <? 0); [|unfold dwrite in H; congruence].
  destruct (add_padding (conf f) (kind f) bs z) as [p|e|]; [rewrite dbind_ok in H; unfold dwrite in H; congruence| |]; injection H as <- <-; auto.
Qed.

Definition same_bytes (p : wprog) (m : dumped unit) : Prop := (concat (fst (calls p)), snd (calls p)) = m.

Lemma same_field_bytes E n f v ctx d : same_bytes (w_field_to_stream E n f v ctx d) (field_to_stream E n f v ctx d).
Proof.
  unfold same_bytes. rewrite field_calls. destruct (field_to_stream E n f v ctx d) as [out [[]|e|]] eqn:H; cbn [fst snd concat].
  - rewrite app_nil_r. reflexivity.
  - rewrite (failed_field_empty _ _ _ _ _ _ _ _ H); [reflexivity|discriminate].
  - rewrite (failed_field_empty _ _ _ _ _ _ _ _ H); [reflexivity|discriminate].
Qed.

Lemma same_then p m k k' : same_bytes p m -> same_bytes k k' -> same_bytes (wthen p k) (ddo _ <- m; k').
Proof.
  unfold same_bytes. intros <- <-. rewrite calls_then. destruct (calls p) as [l [[]|e|]]; cbn [fst snd dbind]; [|reflexivity|reflexivity].
  rewrite concat_app. reflexivity.
Qed.

Lemma same_try {A} (r : res A) k k' : (forall a, same_bytes (k a) (k' a)) -> same_bytes (wtry r k) (ddo x <- dlift r; k' x).
Proof.
  intros H. destruct r as [a|e|]; [|reflexivity|reflexivity]. rewrite dbind_ok. apply H.
Qed.

Lemma same_dump_fields E n fs ctx d : same_bytes (w_dump_fields E n fs ctx d) (dump_fields (do_dump E n) fs ctx d).
Proof.
  induction fs as [|[name f] fs IH]; [reflexivity|]. cbn [w_dump_fields dump_fields].
  apply same_try. intros v. apply same_then; [|auto]. destruct (is_not_present v); [reflexivity|apply same_field_bytes].
Qed.

Lemma same_struct_bytes E n cid vals ctx : same_bytes (w_struct_to_stream E n cid vals ctx) (struct_to_stream E n cid vals ctx).
Proof.
  unfold w_struct_to_stream, struct_to_stream, struct_to_stream_with.
  apply same_try. intros _. apply same_try. intros all. apply same_dump_fields.
Qed.

Lemma same_partial_bytes E n cid vals last ctx : same_bytes (w_partial_dump E n cid vals last ctx) (partial_dump E n cid vals last ctx).
Proof.
  unfold w_partial_dump, partial_dump. induction (comps E cid) as [|[name f] fs IH]; [reflexivity|].
  cbn [w_partial_dump_fields partial_dump_fields]. apply same_try. intros dv. cbv zeta.
  destruct (is_undefined _ && match last with None => true | Some _ => false end); [reflexivity|].
  destruct (is_undefined _ && (is_undefined (c_const (conf f)) && is_undefined dv)); [reflexivity|].
  apply same_then; [apply same_field_bytes|].
  destruct (match last with Some l => String.eqb (cname f) l | None => false end); [reflexivity|auto].
Qed.

(** ** Whole structs *)

Lemma fields_calls E n ctx d : forall fs l, calls (w_dump_fields E n fs ctx d) = (l, Ok tt)
  <-> exists parts, Forall2 (field_call E n ctx d) fs parts /\ l = concat parts.
Proof.
  induction fs as [|[name f] fs IH]; intros l; cbn [w_dump_fields].
  - split; [intros H; injection H as <-; exists []; split; [constructor|reflexivity]|].
    intros (parts & H & ->). inversion H. reflexivity.
  - split.
    + destruct (run_dict d (compute_value_for_dump (conf f) ctx)) as [v|e|] eqn:Hv; cbn [wtry]; [|discriminate|discriminate].
      rewrite calls_then. destruct (is_not_present v) eqn:Hp.
      * cbn [calls]. intros H. assert (Hl : calls (w_dump_fields E n fs ctx d) = (l, Ok tt)).
        { destruct (calls (w_dump_fields E n fs ctx d)). cbn [fst snd app] in H. exact H. }
        apply IH in Hl. destruct Hl as (parts & Hf & ->). exists ([] :: parts). split; [|reflexivity].
        constructor; [|auto]. exists v. split; [auto|]. left. split; [destruct v; try discriminate; reflexivity|reflexivity].
      * rewrite field_calls. destruct (field_to_stream E n f v ctx d) as [out [[]|e|]] eqn:Ho; [|discriminate|discriminate].
        intros H. destruct (calls (w_dump_fields E n fs ctx d)) as [l' r'] eqn:Hc. cbn [fst snd] in H. injection H as <- ->.
        destruct (proj1 (IH l') eq_refl) as (parts & Hf & ->). exists ([out] :: parts). split; [|reflexivity].
        constructor; [|auto]. exists v. split; [auto|]. right. split; [intros ->; discriminate|]. eauto.
    + intros (parts & H & ->). inversion H as [|x p fs' ps (v & Hv & Hp) Hps]. subst. cbn [snd] in *. rewrite Hv. cbn [wtry].
      rewrite calls_then. assert (Hc : calls (w_dump_fields E n fs ctx d) = (concat ps, Ok tt)) by (apply IH; eauto).
      rewrite Hc. destruct Hp as [(-> & ->)|(Hnp & bs & Ho & ->)]; [reflexivity|].
      replace (is_not_present v) with false by (destruct v; try reflexivity; congruence).
      rewrite field_calls, Ho. reflexivity.
Qed.

Lemma struct_calls E n cid vals ctx l : calls (w_struct_to_stream E n cid vals ctx) = (l, Ok tt)
  <-> exists all parts, validated E n cid vals /\ to_dict E n cid vals false = Ok all
      /\ Forall2 (field_call E n ctx all) (k_comps (cls E cid)) parts /\ l = concat parts.
Proof.
  unfold w_struct_to_stream. split.
  - destruct (validate_contents E n cid vals) as [[]|e|] eqn:Hv; cbn [wtry]; [|discriminate|discriminate].
    destruct (to_dict E n cid vals false) as [all|e|] eqn:Ha; cbn [wtry]; [|discriminate|discriminate].
    intros H. apply fields_calls in H. destruct H as (parts & H & ->). apply validate_contents_iff in Hv. eauto 8.
  - intros (all & parts & Hv & Ha & H & ->). apply validate_contents_iff in Hv. rewrite Hv, Ha. cbn [wtry]. apply fields_calls. eauto.
Qed.

Lemma reliable_of dev p m : same_bytes p m -> reliable dev -> forall i, wrun dev p i = m.
Proof. intros H Hd i. rewrite wrun_reliable by auto. exact H. Qed.

(** ** Streams that write everything or raise *)

Lemma honest_prefix dev p m : same_bytes p m -> honest dev -> forall i,
  (exists rest, fst m = fst (wrun dev p i) ++ rest) /\ (snd (wrun dev p i) = Ok tt -> wrun dev p i = m).
Proof.
  unfold same_bytes. intros <- Hd i. destruct (wrun_honest dev p Hd i) as [(-> & _)|(pre & bs & post & n & e & Hc & _ & _ & ->)]; cbn [fst snd].
  - split; [exists []; symmetry; apply app_nil_r|auto].
  - split; [|discriminate]. rewrite Hc, concat_app. cbn [concat]. exists (skipn n bs ++ concat post).
    rewrite <- app_assoc. f_equal. rewrite app_assoc, firstn_skipn. reflexivity.
Qed.

Lemma struct_write_error dev E n cid vals ctx l i : honest dev -> calls (w_struct_to_stream E n cid vals ctx) = (l, Ok tt) ->
  wrun dev (w_struct_to_stream E n cid vals ctx) i = (concat l, Ok tt)
  \/ exists pre bs post k e, l = pre ++ bs :: post /\ dev (i + length pre)%nat bs = (k, Some e)
     /\ wrun dev (w_struct_to_stream E n cid vals ctx) i = (concat pre ++ firstn k bs, Raise e).
Proof.
  intros Hd Hl. destruct (wrun_honest dev (w_struct_to_stream E n cid vals ctx) Hd i) as [(H & _)|(pre & bs & post & k & e & Hc & _ & He & H)].
  - left. rewrite H, Hl. reflexivity.
  - right. rewrite Hl in Hc. exists pre, bs, post, k, e. auto.
Qed.

Lemma field_write E n f v ctx d :
  (exists bs, field_to_stream E n f v ctx d = (bs, Ok tt) /\ w_field_to_stream E n f v ctx d = WWrite bs (WDone (Ok tt)))
  \/ exists r, r <> Ok tt /\ field_to_stream E n f v ctx d = ([], r) /\ w_field_to_stream E n f v ctx d = WDone r.
Proof.
  pose proof (field_calls E n f v ctx d) as H. destruct (field_to_stream E n f v ctx d) as [out r] eqn:Ho.
  destruct (w_field_to_stream E n f v ctx d) as [r'|bs k]; cbn [calls] in H.
  - right. destruct r as [[]|e|]; [discriminate| |]; injection H as ->; rewrite (failed_field_empty _ _ _ _ _ _ _ _ Ho); try discriminate;
      eexists; (split; [|split; reflexivity]); discriminate.
  - left. destruct (calls k) as [l r'] eqn:Hk. destruct r as [[]|e|]; [|discriminate|discriminate]. injection H as -> -> ->.
    exists out. split; [auto|]. destruct k as [r|b k]; cbn [calls] in Hk; [congruence|]. destruct (calls k). discriminate.
Qed.
