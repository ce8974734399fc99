(** Eventually constant computations; leaf fields always finish (C73). *)
From Verif Require Import Tac Varints VarintSpec VarintsProofs VarintsMore CodecsProofs FieldProofs.
From Verif Require Export StructModel SpecEnds.

(** [m] gives the same answer, not OOF and satisfying [Q], with any sufficient fuel. *)
Definition ends {A} (Q : A -> Prop) (m : nat -> res A) : Prop :=
  exists n r, (forall k, (n <= k)%nat -> m k = r)
    /\ match r with Ok a => Q a | Raise _ => True | OOF => False end.
Definition dends (m : nat -> dumped unit) : Prop :=
  exists n x, (forall k, (n <= k)%nat -> m k = x) /\ snd x <> OOF.
Definition always {A} (a : A) : Prop := True.

Lemma ends_const {A} (Q : A -> Prop) r : r <> OOF -> (forall a, r = Ok a -> Q a) -> ends Q (fun _ => r).
Proof. intros H1 H2. exists O, r. split; auto. destruct r; auto; congruence. Qed.

Lemma ends_ext {A} (Q : A -> Prop) m m' : (forall n, m n = m' n) -> ends Q m -> ends Q m'.
Proof. intros H (n & r & H1 & H2). exists n, r. split; auto. intros k Hk. rewrite <- H. auto. Qed.

Lemma ends_weak {A} (Q R : A -> Prop) m : (forall a, Q a -> R a) -> ends Q m -> ends R m.
Proof. intros H (n & r & H1 & H2). exists n, r. split; auto. destruct r; auto. Qed.

Lemma ends_post {A} (Q R : A -> Prop) m : ends Q m -> (forall n a, m n = Ok a -> R a) -> ends R m.
Proof.
  intros (n & r & H1 & H2) H. exists n, r. split; auto. destruct r; auto. apply (H n). apply H1. lia.
Qed.

Lemma ends_bind {A B} (Q : A -> Prop) (R : B -> Prop) m (k : nat -> A -> res B) : ends Q m ->
  (forall a, Q a -> ends R (fun n => k n a)) -> ends R (fun n => bind (m n) (k n)).
Proof.
  intros (n & r & H1 & H2) H. destruct r as [a|e|]; [|exists n, (Raise e); split; auto; intros i Hi; rewrite H1; auto|contradiction].
  destruct (H a H2) as (n' & r & H3 & H4). exists (Nat.max n n'), r. split; auto.
  intros i Hi. rewrite H1 by lia. cbn [bind]. apply H3. lia.
Qed.

Lemma ends_shift {A} (Q : A -> Prop) m : ends Q m -> ends Q (fun n => match n with O => OOF | S n' => m n' end).
Proof.
  intros (n & r & H1 & H2). exists (S n), r. split; auto. intros [|k] Hk; [lia|]. apply H1. lia.
Qed.

Lemma ends_mapM {A B} (R : B -> Prop) (f : nat -> A -> res B) l : (forall x, In x l -> ends R (fun n => f n x)) ->
  ends (Forall R) (fun n => mapM (f n) l).
Proof.
  induction l as [|x l IH]; intros H; cbn [mapM].
  - apply ends_const; [discriminate|]. intros a [= <-]. constructor.
  - apply (ends_bind R); [apply H; left; auto|]. intros y Hy.
    apply (ends_bind (Forall R)); [apply IH; intros; apply H; right; auto|]. intros ys Hys.
    apply ends_const; [discriminate|]. intros a [= <-]. constructor; auto.
Qed.

Lemma dends_const x : snd x <> OOF -> dends (fun _ => x).
Proof. intros H. exists O, x. auto. Qed.

Lemma dends_ext m m' : (forall n, m n = m' n) -> dends m -> dends m'.
Proof. intros H (n & r & H1 & H2). exists n, r. split; auto. intros k Hk. rewrite <- H. auto. Qed.

Lemma dends_shift m : dends m -> dends (fun n => match n with O => ([], OOF) | S n' => m n' end).
Proof. intros (n & r & H1 & H2). exists (S n), r. split; auto. intros [|k] Hk; [lia|]. apply H1. lia. Qed.

Lemma dends_lift {A} (Q : A -> Prop) m (k : nat -> A -> dumped unit) : ends Q m ->
  (forall a, Q a -> dends (fun n => k n a)) -> dends (fun n => dbind (dlift (m n)) (k n)).
Proof.
  intros (n & r & H1 & H2) H. destruct r as [a|e|]; [| |contradiction].
  - destruct (H a H2) as (n' & x & H3 & H4). exists (Nat.max n n'), x. split; auto.
    intros i Hi. rewrite H1, dbind_ok by lia. apply H3. lia.
  - exists n, ([], Raise e). split; [|discriminate]. intros i Hi. rewrite H1; auto.
Qed.

Lemma dends_seq m (k : nat -> dumped unit) : dends m -> dends k -> dends (fun n => ddo _ <- m n; k n).
Proof.
  intros (n & [o r] & H1 & H2) (n' & [o' r'] & H3 & H4). cbn [snd] in *.
  destruct r as [[]|e|]; [|exists n, (o, Raise e); split; auto; intros i Hi; rewrite H1; auto|congruence].
  exists (Nat.max n n'), (o ++ o', r'). split; auto.
  intros i Hi. rewrite H1, H3 by lia. reflexivity.
Qed.

(** ** Leaves *)
Lemma vli_encode_finishes fmt v : vli_encode fmt v <> OOF.
Proof.
  assert (D : encodable fmt v \/ ~ encodable fmt v) by (destruct fmt; cbn; lia).
  destruct D as [D|D].
  - apply varint_encode_total in D as [bs ->]. discriminate.
  - rewrite encode_rejects by auto. discriminate.
Qed.

Lemma vli_value_finishes fmt v : vli_encode_value fmt v <> OOF.
Proof.
  destruct v; cbn [vli_encode_value]; try (destruct fmt; discriminate).
  - apply vli_encode_finishes.
  - destruct (magnitude binary64 bits =? 0); [discriminate|].
    destruct fmt; try discriminate;
      destruct (sign_of binary64 bits && match classify binary64 bits with FNan => false | _ => true end); try discriminate;
      destruct (classify binary64 bits); discriminate.
Qed.

Lemma to_bytes_finishes v n e sg : py_to_bytes v n e sg <> OOF.
Proof. unfold py_to_bytes. destruct (n <? 0); [discriminate|]. destruct (fits sg n v); discriminate. Qed.

Lemma pack_finishes f e b : pack_float f e b <> OOF.
Proof. unfold pack_float. destruct f; repeat match goal with |- context [match ?x with _ => _ end] => destruct x end; discriminate. Qed.

Lemma to_int_finishes r us aware : time_to_int r us aware <> OOF.
Proof.
  unfold time_to_int, py_timestamp.
  assert (Ho : forall A (o : option A), opt_res o <> OOF) by (intros A []; discriminate).
  assert (Hb : forall A B (m : res A) (k : A -> res B), m <> OOF -> (forall a, k a <> OOF) -> bind m k <> OOF).
  { intros A B [a|e|] k H1 H2; cbn [bind]; auto; discriminate. }
  apply Hb.
  - destruct aware; [apply Ho|]. destruct (us <? first_datetime_us false); [discriminate|]. cbv zeta. apply Hb; [apply Ho|]. intros; apply Ho.
  - intros t. apply Hb; [apply Ho|]. intros; discriminate.
Qed.

Lemma size_value_finishes c k v : size_for_value c k v <> OOF.
Proof.
  assert (He : forall cd t, (do bs <- encode cd t; Ok (Some (zlen bs))) <> OOF).
  { intros cd t. pose proof (encode_no_oof cd t). destruct (encode cd t); cbn [bind]; congruence. }
  destruct k; cbn [size_for_value]; try (destruct (c_size c); discriminate).
  - pose proof (vli_value_finishes fmt v). destruct (vli_encode_value fmt v); cbn [bind]; congruence.
  - destruct (py_len v); discriminate.
  - destruct v; auto; discriminate.
  - destruct v; auto; discriminate.
Qed.

Lemma dbind_finishes {A B} (m : dumped A) (k : A -> dumped B) : snd m <> OOF -> (forall a, snd (k a) <> OOF) ->
  snd (dbind m k) <> OOF.
Proof.
  intros H1 H2. destruct m as [o [a|e|]]; cbn [dbind snd] in *; [|discriminate|congruence].
  specialize (H2 a). destruct (k a). auto.
Qed.

Lemma catch_finishes {A} nm (m : dumped A) : snd m <> OOF -> snd (catch_value_error nm m) <> OOF.
Proof.
  intros H. destruct m as [o [a|e|]]; cbn [catch_value_error]; auto.
  destruct (is_ValueError_or_OverflowError e); auto. discriminate.
Qed.

Lemma leaf_dump_finishes c k g v : g <> OOF -> snd (leaf_dump c k g v) <> OOF.
Proof.
  intros Hg. pose proof (vli_value_finishes) as Hv. pose proof to_bytes_finishes as Ht. pose proof pack_finishes as Hp.
  assert (Hw : forall z n sg e, snd (write_int z n sg e) <> OOF).
  { intros. unfold write_int. apply dbind_finishes; [apply Ht|]. discriminate. }
  destruct k; cbn [leaf_dump]; try discriminate.
  - destruct (c_size c); try discriminate. destruct v; try discriminate. apply catch_finishes; auto.
  - apply dbind_finishes; [apply catch_finishes; apply Hv|]. intros a.
    destruct (match max_bytes with Some m => _ | None => false end); discriminate.
  - destruct v; try discriminate.
    + destruct (float_of_int z); try discriminate. apply dbind_finishes; [apply Hp|discriminate].
    + apply dbind_finishes; [apply Hp|discriminate].
  - destruct v; try discriminate. apply dbind_finishes; [apply to_int_finishes|]. intros.
    apply catch_finishes. apply dbind_finishes; auto.
  - apply dbind_finishes; auto. intros n. destruct (py_len v); try discriminate.
    destruct (negb _); try discriminate. destruct v; discriminate.
  - destruct v; try discriminate. apply dbind_finishes; [|discriminate]. cbn [dlift snd].
    unfold encode_and_resize. pose proof (encode_no_oof c0 cps). destruct (encode c0 cps); cbn [bind]; try congruence.
    destruct g; cbn [bind]; try congruence.
    destruct (0 <? _); try discriminate. destruct (_ <? 0); try discriminate. destruct pad; discriminate.
  - destruct v; try discriminate. apply dbind_finishes; [|discriminate]. apply encode_no_oof.
  - destruct v; try (destruct fmt; discriminate). destruct fmt; try discriminate.
    apply dbind_finishes; [apply encode_no_oof|discriminate].
Qed.
