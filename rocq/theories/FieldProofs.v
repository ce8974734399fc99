(** Generic facts about Field.to_stream / from_stream and the leaf kinds. *)
From Verif Require Import Tac PyIntProofs StreamProofs VarintsMore.
From Verif Require Export StructModel Spec VarintSpec.

Definition leaf_kind (k : fkind) : bool :=
  match k with KArray _ _ _ | KNested _ | KUnion _ _ _ => false | _ => true end.

Lemma do_dump_leaf E n c k v ctx d : leaf_kind k = true ->
  do_dump E n (Field c k) v ctx d
  = leaf_dump c k (get_expected_size_with (fun _ => draise ETypeErr) c k d) v.
Proof. destruct n, k; intros H; try discriminate H; reflexivity. Qed.

Lemma do_load_leaf E n c k ctx d : leaf_kind k = true ->
  do_load E n (Field c k) ctx d
  = leaf_load c k
      (get_expected_size_with (fun v => do_dump E n (Field c k) v VNone d) c k d)
      (get_expected_size_with (fun v => do_dump E n (Field c k) v VNone []) c k []).
Proof. destruct n, k; intros H; try discriminate H; reflexivity. Qed.

Lemma ges_int dd c k d n : c_size c = SInt n -> get_expected_size_with dd c k d = Ok n.
Proof. intros H. unfold get_expected_size_with. rewrite H. reflexivity. Qed.

Lemma ges_declared dd c k d n :
  declared_size c d n -> get_expected_size_with dd c k d = Ok n.
Proof.
  intros [H | (name & H & Hd)]; unfold get_expected_size_with; rewrite H; auto.
  rewrite Hd. reflexivity.
Qed.

Lemma accepts_run c v : accepts c v -> run_validators (c_validators c) v = Ok tt.
Proof.
  unfold accepts. induction (c_validators c) as [|f vs IH]; intros H; [reflexivity|].
  inversion H as [|? ? Hf Hr]; subst. cbn [run_validators]. rewrite Hf. cbn [bind]. auto.
Qed.

Lemma run_accepts c v : run_validators (c_validators c) v = Ok tt -> accepts c v.
Proof.
  unfold accepts. induction (c_validators c) as [|f vs IH]; intros H; [constructor|].
  cbn [run_validators] in H. destruct (f v) as [[]| |] eqn:Ef; cbn [bind] in H; try discriminate.
  constructor; auto.
Qed.

Lemma plain_accepts c v : plain c -> accepts c v.
Proof. intros (_ & _ & _ & H). unfold accepts. rewrite H. constructor. Qed.

Lemma dbind_ok {A B} (a : A) (k : A -> dumped B) : dbind (dlift (Ok a)) k = k a.
Proof. unfold dbind, dlift. destruct (k a). reflexivity. Qed.

Lemma dbind_raise {A B} e (k : A -> dumped B) : dbind (dlift (Raise e)) k = ([], Raise e).
Proof. reflexivity. Qed.

Lemma dbind_oof {A B} (k : A -> dumped B) : dbind (dlift OOF) k = ([], OOF).
Proof. reflexivity. Qed.

Lemma dbind_dret {A B} (a : A) (k : A -> dumped B) : dbind (dret a) k = k a.
Proof. apply dbind_ok. Qed.

(** A value that [to_stream] treats as data. *)
Definition is_data (v : value) : bool :=
  match v with VNone | VUndefined | VDefault => false | _ => true end.

(** What the size check does with the serialized bytes. *)
Definition sized_write (g : res Z) (c : fconf) (k : fkind) (bs : list Z) : dumped unit :=
  ddo expected_size <- dlift (match c_size c with
                              | SInt n => Ok n
                              | SNone => Ok (zlen bs)
                              | SRef _ => g
                              end);
  let size_diff := zlen bs - expected_size in
  if 0 <? size_diff then draise (EValueSize (c_name c))
  else if size_diff <? 0 then
    ddo padded <- dlift (add_padding c k bs expected_size);
    dwrite padded
  else dwrite bs.

Lemma to_stream_data nr dd g c k v : is_data v = true -> accepts c v ->
  to_stream_with nr dd g c k v
  = match dd v with
    | (bs, Ok _) => sized_write g c k bs
    | (_, Raise e) => ([], Raise e)
    | (_, OOF) => ([], OOF)
    end.
Proof.
  intros Hd Ha. unfold to_stream_with.
  replace (is_default v) with false by (destruct v; try discriminate Hd; reflexivity).
  rewrite dbind_ok.
  replace (is_undefined v) with false by (destruct v; try discriminate Hd; reflexivity).
  replace (is_none v) with false by (destruct v; try discriminate Hd; reflexivity).
  replace (is_default v) with false by (destruct v; try discriminate Hd; reflexivity).
  cbn [orb]. rewrite (accepts_run _ _ Ha), dbind_ok.
  destruct (dd v) as [bs [[]|e|]]; try reflexivity.
  rewrite dbind_ok. reflexivity.
Qed.

Lemma sized_write_exact g c k bs :
  (forall n, c_size c = SInt n -> zlen bs = n) ->
  (forall nm, c_size c = SRef nm -> g = Ok (zlen bs)) ->
  sized_write g c k bs = (bs, Ok tt).
Proof.
  intros H1 H2. unfold sized_write.
  assert (E : match c_size c with SInt n => Ok n | SNone => Ok (zlen bs) | SRef _ => g end
              = Ok (zlen bs)).
  { destruct (c_size c) as [|n|nm] eqn:Es; auto. - rewrite (H1 n); auto. - eapply H2; eauto. }
  rewrite E, dbind_ok. rewrite Z.sub_diag. reflexivity.
Qed.

Lemma field_to_stream_leaf E n c k v ctx d : leaf_kind k = true -> is_data v = true ->
  accepts c v ->
  field_to_stream E n (Field c k) v ctx d
  = match leaf_dump c k (get_expected_size_with (fun _ => draise ETypeErr) c k d) v with
    | (bs, Ok _) => sized_write (get_expected_size E n (Field c k) d) c k bs
    | (_, Raise e) => ([], Raise e)
    | (_, OOF) => ([], OOF)
    end.
Proof.
  intros Hk Hd Ha. unfold field_to_stream, field_to_stream_with.
  rewrite to_stream_data by auto. cbn [conf kind]. rewrite do_dump_leaf by auto.
  reflexivity.
Qed.

(** Loading when present, not nullable: [_do_load], the field name put into errors, then the
    const check and the validators. *)
Definition checked (E : env) (n : nat) (c : fconf) (m : loader value) : loader value := fun s =>
  match m s with
  | (s', Ok v) =>
    (s', do _ <- (if negb (is_undefined (c_const c)) then
                    do b <- py_eq E n v (c_const c);
                    if b then Ok tt else Raise (EValidation (c_name c))
                  else Ok tt);
         do _ <- run_validators (c_validators c) v;
         Ok v)
  | (s', Raise e) => (s', Raise (set_field (c_name c) e))
  | (s', OOF) => (s', OOF)
  end.

Lemma from_stream_present nr dl E n c ctx d s :
  run_dict d (c_present c ctx (Some s)) = Ok true -> c_null c = VUndefined ->
  from_stream_with nr dl (py_eq E n) c ctx d s = checked E n c dl s.
Proof.
  intros Hp Hn. unfold from_stream_with, checked. rewrite Hp.
  unfold allow_null. rewrite Hn. cbn [is_undefined negb].
  unfold lbind, llift, lret. destruct (dl s) as [s' [v|e|]]; try reflexivity.
  destruct (is_undefined (c_const c)); cbn [negb bind].
  - destruct (run_validators (c_validators c) v) as [[]| |]; reflexivity.
  - destruct (py_eq E n v (c_const c)) as [[|]| |]; cbn [bind]; try reflexivity.
    destruct (run_validators (c_validators c) v) as [[]| |]; reflexivity.
Qed.

Lemma field_from_stream_plain E n c k ctx d s : plain c ->
  field_from_stream E n (Field c k) ctx d s
  = match do_load E n (Field c k) ctx d s with
    | (s', Raise e) => (s', Raise (set_field (c_name c) e))
    | x => x
    end.
Proof.
  intros (Hp & Hn & Hc & Hv). unfold field_from_stream, field_from_stream_with.
  rewrite from_stream_present by (cbn; auto). unfold checked. cbn [conf]. 
  destruct (do_load E n (Field c k) ctx d s) as [s' [v|e|]]; try reflexivity.
  rewrite Hc, Hv. reflexivity.
Qed.
