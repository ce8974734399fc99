(** A schema whose dumps raise only what the library reports, and dumps that raise something
    else (C74). *)
From Verif Require Import Tac.
From Verif Require Export DumpErrors Samples.
Open Scope Z_scope.

(** [@n.computes]: the length of the data. *)
Definition length_of (name : string) : query value :=
  QGet name (fun r => match r with
                      | inl v => match py_len v with Some z => QRet (VInt z) | None => QRaise ETypeErr end
                      | inr e => QRaise e
                      end).

Definition tail_fields : list (string * field) :=
  [named "flag" (u8 (byte "flag"));
   named "extra" (u8 (with_null VNone (with_present if_flag VNotPresent (byte "extra"))))].

Definition packet_fields : list (string * field) :=
  [named "n" (u8 (with_compute (length_of "data") (byte "n")));
   named "data" (Field (basic "data" (SRef "n")) KBytes);
   named "items" (Field (basic "items" SNone) (KArray (u8 (byte "items")) (CntRef "n") None));
   named "label" (Field (basic "label" SNone) (KStringZ Ascii None));
   named "tail" (Field (basic "tail" SNone) (KNested 0));
   named "check" (u8 (with_default (VInt 0) (with_discard (byte "check"))))].

Definition packet_E : env := [class_of "Tail" tail_fields; class_of "Packet" packet_fields].

(** Text that is not ASCII is not reported. *)
Definition only_text (e : exn) : Prop := e = EUnicodeEncode.

Ltac names H := cbn in H; repeat (destruct H as [H|H]; [injection H as <- <-|]); try contradiction.

Lemma get_raises_only {T} A E cid (S : string -> Prop) name (k : value -> query T) :
  S name ->
  (forall v mem get keys e, (forall g, In (name, g) (k_comps (cls E cid)) -> suits E g v) ->
     run_q mem get keys (k v) = Raise e -> reported e \/ A e) ->
  raises_only A E cid S (QGet name (fun r => match r with inl v => k v | inr e => QRaise e end)).
Proof.
  intros Hs Hk mem get keys e Hl Hg H. cbn [run_q] in H. destruct (get name) as [v|x|] eqn:Hx; try discriminate.
  - apply (Hk v mem get keys e); auto. intros g Hi. apply (Hl name v g); auto.
  - cbn [run_q] in H. injection H as <-. apply (Hg name); auto.
Qed.

Lemma no_checks A name size : checks_raise A (basic name size).
Proof. intros check v e []. Qed.

Lemma ret_raises_only {T} A E cid S (a : T) : raises_only A E cid S (QRet a).
Proof. intros mem get keys e _ _ H. discriminate. Qed.

Lemma ret_decides E cid S b : decides E cid S (QRet b).
Proof. intros mem get keys _ _. exists b. reflexivity. Qed.

Lemma u8_safe A cnt c : c_size c = SInt 1 -> c_validators c = [] -> null_ok c (KInt false Little) ->
  safe A cnt (u8 c).
Proof.
  intros Hc Hv Hn. apply safe_leaf; auto.
  - intros check v e H. rewrite Hv in H. destruct H.
  - unfold size_ok. rewrite Hc. exact I.
  - contradiction.
Qed.

Lemma tail_safe : safe_class only_text packet_E 0.
Proof.
  split; [|split; [|split; [|split]]].
  - split; [repeat constructor; cbn; intuition discriminate|]. split; [repeat constructor|intros x H; exact H].
  - intros x H. exact H.
  - assert (Hk : kept packet_E 0 "flag") by (exists (u8 (byte "flag")); split; [left|]; reflexivity).
    intros name f H. names H; (split; [|split; [|split; [|split]]]); try (intros; discriminate);
      try (intros v [= <-]; left; reflexivity).
    + apply u8_safe; cbn; auto.
    + intros ctx. split; [apply ret_raises_only|apply ret_decides].
    + apply u8_safe; cbn; auto. discriminate.
    + intros ctx. split.
      * refine (get_raises_only only_text packet_E 0 (kept packet_E 0) "flag"
                  (fun v => match v with VInt 1 => QRet true | _ => QRet false end) Hk _).
        intros v mem get keys e _ H. destruct v; try discriminate. destruct z as [|[]|]; discriminate.
      * intros mem get keys _ Hg. destruct (Hg _ Hk) as [v Hv].
        cbn. rewrite Hv. cbn. destruct v; try (eexists; reflexivity). destruct z as [|[]|]; eexists; reflexivity.
  - intros name ms q v H Hq. cbn in H. repeat (destruct H as [H|H]; [injection H as <- <-; destruct Hq|]). contradiction.
  - intros q [].
Qed.

Lemma data_suits v : suits packet_E (Field (basic "data" (SRef "n")) KBytes) v -> exists bs, v = VBytes bs.
Proof.
  intros [H|[-> H]].
  - inversion H as [? ? ? Hr|? ? Hn| | | | |]; subst; [|cbn in Hn; congruence]. destruct v; try contradiction. eauto.
  - exfalso. apply H. intros ctx so. reflexivity.
Qed.

Lemma bytes_typed c bs : typed packet_E (Field c KBytes) (VBytes bs).
Proof. apply typed_leaf. exact I. Qed.

Lemma packet_safe : safe_class only_text packet_E 1.
Proof.
  assert (Hk : kept packet_E 1 "data")
    by (exists (Field (basic "data" (SRef "n")) KBytes); split; [right; left|]; reflexivity).
  assert (Hn : counter packet_E 1 "n").
  { exists (u8 (with_compute (length_of "data") (byte "n"))). split; [left; reflexivity|].
    split; [exact I|]. split; [reflexivity|]. intros ctx so. reflexivity. }
  split; [|split; [|split; [|split]]].
  - split; [repeat constructor; cbn; intuition discriminate|]. split; [repeat constructor|intros x H; exact H].
  - intros x H. exact H.
  - assert (Hr : forall ctx, raises_only only_text packet_E 1 (kept packet_E 1) (c_present (byte "n") ctx None)
                  /\ decides packet_E 1 (kept packet_E 1) (c_present (byte "n") ctx None)).
    { intros ctx. split; [apply ret_raises_only|apply ret_decides]. }
    intros name f H. names H; (split; [|split; [|split; [|split]]]);
      try (intros; discriminate); try (exact Hr); try (intros v [= <-]; left; reflexivity).
    + apply u8_safe; cbn; auto.
    + intros q [= <-]. split.
      * refine (get_raises_only only_text packet_E 1 (kept packet_E 1) "data"
          (fun v => match py_len v with Some z => QRet (VInt z) | None => QRaise ETypeErr end) Hk _).
        intros v mem get keys e Hv H. specialize (Hv _ (or_intror (or_introl eq_refl))).
        destruct (data_suits v Hv) as [bs ->]. discriminate.
      * intros mem get keys v Hl H. right. left. apply typed_leaf. cbn [length_of run_q] in H.
        destruct (get "data"%string) as [w|e|]; try discriminate. destruct (py_len w); [|discriminate].
        injection H as <-. exact I.
    + apply safe_leaf; cbn; auto. * apply no_checks. * contradiction.
    + apply safe_array; cbn; auto. * apply no_checks. * apply u8_safe; cbn; auto.
    + apply safe_leaf; cbn; auto. apply no_checks.
    + apply safe_nested; cbn; auto. apply no_checks.
    + apply u8_safe; cbn; auto.
    + intros v [= <-]. right. left. apply typed_leaf. exact I.
  - intros name ms q v H Hq. cbn in H. repeat (destruct H as [H|H]; [injection H as <- <-; destruct Hq|]). contradiction.
  - intros q [].
Qed.

Lemma empty_safe A E cid : cls E cid = empty_class -> safe_class A E cid.
Proof.
  intros H. unfold safe_class. rewrite H. cbn. split; [|split; [|split; [|split]]]; try contradiction.
  - split; [constructor|]. split; [constructor|intros x []].
  - intros x [].
Qed.

Lemma packet_schema : safe_schema only_text packet_E.
Proof.
  intros [|[|cid]]; [exact tail_safe|exact packet_safe|]. apply empty_safe. destruct cid; reflexivity.
Qed.

(** Values: the items are too large for a byte, or the text is not ASCII. *)
Definition packet (item : Z) (text : list Z) : dict :=
  [("data", VBytes [7; 8]); ("items", VList [VInt 1; VInt item]); ("label", VStr text);
   ("tail", VDict [("flag", VInt 0); ("extra", VNotPresent)])]%string.

Lemma packet_values item text : instance_of packet_E 1 (packet item text) /\ values_fit packet_E 1 (packet item text).
Proof.
  split.
  - split; [exact (proj1 (packet_schema 1%nat))|]. split; [repeat constructor; cbn; intuition discriminate|].
    intros x H. cbn in *. intuition.
  - intros name v f Hi Hf. left. cbn in Hi, Hf.
    repeat (destruct Hi as [Hi|Hi]; [injection Hi as <- <-|]); try contradiction;
      repeat (destruct Hf as [Hf|Hf]; [try discriminate; injection Hf as <-|]); try contradiction.
    + apply typed_leaf. exact I.
    + apply typed_list. intros w [<-|[<-|[]]]; apply typed_leaf; exact I.
    + apply typed_leaf. exact I.
    + apply typed_dict.
      * repeat constructor; cbn; intuition discriminate.
      * intros name v g Hi Hg Hn. cbn in Hi, Hg.
        repeat (destruct Hi as [Hi|Hi]; [injection Hi as <- <-|]); try contradiction;
          repeat (destruct Hg as [Hg|Hg]; [try discriminate; injection Hg as <-|]); try contradiction; try congruence.
        apply typed_leaf. exact I.
      * intros name g Hi Hg. cbn in Hi, Hg.
        repeat (destruct Hi as [Hi|Hi]; [try discriminate; injection Hi as <-|]); try contradiction;
          repeat (destruct Hg as [Hg|Hg]; [try discriminate; injection Hg as <-|]); try contradiction.
        intros H. specialize (H VNone None). discriminate.
      * intros name v Hi Hn. exfalso. apply Hn. cbn in *. destruct Hi as [Hi|[Hi|[]]]; injection Hi as <- <-; auto.
Qed.

(** ---------------------------------------------------------------- other exceptions *)
Definition count_fields : list (string * field) :=
  [named "n" (u8 (with_compute (length_of "data") (byte "n")));
   named "data" (Field (basic "data" (SRef "n")) KBytes)].
Definition outer_fields : list (string * field) := [named "inner" (Field (basic "inner" SNone) (KNested 0))].
Definition count_E : env := [class_of "Counted" count_fields; class_of "Outer" outer_fields].

Lemma to_dict_key_error n keep : to_dict count_E (S (S n)) 0 [] keep = Raise (EKeyErr "data").
Proof. destruct keep; reflexivity. Qed.

Lemma missing_reported n : struct_get count_E (S n) 0 [] "data" = Raise (EMissingRequired (Some "data"%string)).
Proof. reflexivity. Qed.

Lemma nested_key_error n ctx :
  struct_to_bytes count_E (S (S (S n))) 1 [("inner"%string, VStruct 0 [])] ctx = Raise (EKeyErr "data").
Proof. reflexivity. Qed.

Lemma partial_not_present n last ctx :
  partial_dump [class_of "Tail" tail_fields] n 0 [("flag"%string, VInt 0); ("extra"%string, VNotPresent)] last ctx
  = (if match last with Some l => String.eqb "flag" l | None => false end then ([0], Ok tt) else ([0], Raise EAttrErr)).
Proof.
  destruct n; cbn; destruct last as [l|]; try reflexivity; destruct (String.eqb "flag" l) eqn:Hl; unfold String.eqb in Hl;
    cbn in Hl |- *; rewrite ?Hl; reflexivity.
Qed.
