(** Termination as stated in the property theorems; circles that never end; an example (C73). *)
From Verif Require Import Tac FieldProofs.
From Verif Require Export EndsProofs Samples.

Lemma answers {A} (Q : A -> Prop) m : ends Q m -> exists n r, (forall k, (n <= k)%nat -> m k = r) /\ r <> OOF.
Proof. intros (n & r & H1 & H2). exists n, r. split; auto. destruct r; congruence || contradiction. Qed.

Lemma to_dict_answers E rank depth : no_circles E rank depth -> forall cid vals keep, any_values vals ->
  exists n r, (forall m, (n <= m)%nat -> to_dict E m cid vals keep = r) /\ r <> OOF.
Proof. intros H cid vals keep Hv. eapply answers, (to_dict_ends E rank depth H cid vals keep Hv). Qed.

Lemma get_answers E rank depth : no_circles E rank depth -> forall cid vals name,
  exists n r, (forall m, (n <= m)%nat -> struct_get E m cid vals name = r) /\ r <> OOF.
Proof. intros H cid vals name. eapply answers, (get_ends E rank depth H cid vals name). Qed.

Lemma validate_answers E rank depth : no_circles E rank depth -> forall cid vals,
  exists n r, (forall m, (n <= m)%nat -> validate_contents E m cid vals = r) /\ r <> OOF.
Proof. intros H cid vals. eapply answers, (validate_ends E rank depth H cid vals). Qed.

Lemma len_answers E rank depth : no_circles E rank depth -> forall cid vals, any_values vals ->
  exists n r, (forall m, (n <= m)%nat -> struct_len E m cid vals = r) /\ r <> OOF.
Proof. intros H cid vals Hv. eapply answers, (len_ends E rank depth H cid vals Hv). Qed.

Lemma size_answers E rank depth : no_circles E rank depth -> forall cid d,
  exists n r, (forall m, (n <= m)%nat -> get_size_values E m cid d = r) /\ r <> OOF.
Proof. intros H cid d. eapply answers, (size_ends E rank depth H cid d). Qed.

Lemma eq_answers E rank depth : no_circles E rank depth -> forall a b, any_value a -> any_value b ->
  exists n r, (forall m, (n <= m)%nat -> py_eq E m a b = r) /\ r <> OOF.
Proof. intros H a b Ha Hb. eapply answers, (eq_ends E rank depth H a Ha b Hb). Qed.

(** [@name.computes] returning another field. *)
Definition same_as (name : string) : query value :=
  QGet name (fun r => match r with inl v => QRet v | inr e => QRaise e end).

Definition circle_fields : list (string * field) :=
  [named "a" (u8 (with_compute (same_as "b") (byte "a")));
   named "b" (u8 (with_compute (same_as "a") (byte "b")))].

Lemma computed_circle n ctx : let E := [class_of "Circle" circle_fields] in
  struct_get E n 0 [] "a" = OOF /\ struct_to_stream E n 0 [] ctx = ([], OOF).
Proof.
  cbv zeta.
  assert (H : forall n, struct_get [class_of "Circle" circle_fields] n 0 [] "a" = OOF
    /\ struct_get [class_of "Circle" circle_fields] n 0 [] "b" = OOF).
  { induction n0 as [|n0 [IHa IHb]]; [split; reflexivity|]. split; cbn in *; [rewrite IHb|rewrite IHa]; reflexivity. }
  destruct (H n) as [Ha Hb]. split; [exact Ha|].
  unfold struct_to_stream, struct_to_stream_with, validate_contents.
  cbn [cls nth class_of k_fvals k_svals map fst circle_fields named validate_fields assoc comps k_comps String.eqb].
  change (assoc (comps [class_of "Circle" circle_fields] 0) "a") with (Some (u8 (with_compute (same_as "b") (byte "a")))).
  cbv iota beta. rewrite Ha. reflexivity.
Qed.

Definition node_fields : list (string * field) :=
  [named "next" (Field (with_default (VDict []) (basic "next" SNone)) (KNested 0))].

Lemma default_circle n ctx : let E := [class_of "Node" node_fields] in
  struct_to_stream E n 0 [] ctx = ([], OOF).
Proof.
  cbv zeta. induction n as [|n IH]; [reflexivity|].
  unfold struct_to_stream, struct_to_stream_with.
  replace (validate_contents [class_of "Node" node_fields] (S n) 0 []) with (@Ok unit tt) by reflexivity.
  replace (to_dict [class_of "Node" node_fields] (S n) 0 [] false) with (@Ok dict [("next"%string, VDict [])]) by reflexivity.
  rewrite !dbind_ok. unfold struct_to_stream, struct_to_stream_with in IH.
  change (comps [class_of "Node" node_fields] 0) with node_fields.
  cbn [node_fields named dump_fields].
  change (run_dict [("next"%string, VDict [])] (compute_value_for_dump (conf (Field (with_default (VDict []) (basic "next" SNone)) (KNested 0))) ctx))
    with (@Ok value (VDict [])).
  rewrite dbind_ok. cbn [is_not_present]. unfold field_to_stream_with, to_stream_with. cbn [is_default conf].
  rewrite dbind_ok. cbn [is_undefined is_default orb].
  change (run_validators (c_validators (with_default (VDict []) (basic "next" SNone))) (VDict [])) with (Ok tt).
  rewrite dbind_ok. cbn [is_none do_dump kind].
  change (struct_init [class_of "Node" node_fields] 0 []) with (@Ok dict []). rewrite dbind_ok.
  unfold struct_to_stream_with. rewrite IH. reflexivity.
Qed.

(** The example beside the theorems: a counted array of points, one of them by default, whose
    count is computed. *)
Definition count_points : query value :=
  QGet "points" (fun r => match r with inl (VList l) => QRet (VInt (zlen l)) | inl _ => QRet VNone | inr e => QRaise e end).
Definition point_fields : list (string * field) :=
  [named "x" (u8 (byte "x")); named "y" (u8 (with_compute (same_as "x") (byte "y")))].
Definition line_fields : list (string * field) :=
  [named "n" (u8 (with_compute count_points (byte "n")));
   named "points" (Field (with_factory (VList [VStruct 0 [("x"%string, VInt 7)]]) (with_default (VList []) (basic "points" SNone)))
     (KArray (Field (basic "p" SNone) (KNested 0)) (CntRef "n") None))].
Definition line_E : env := [class_of "Point" point_fields; class_of "Line" line_fields].
Definition line_depth (cid : nat) (name : string) : nat :=
  if String.eqb name "y" || String.eqb name "n" then 1 else 0.

Lemma line_no_circles : no_circles line_E (fun c => c) line_depth.
Proof.
  assert (Hh : forall P nm sz, harmless P (basic nm sz)).
  { intros P nm sz. split; [intros ? ? []|]. split; [apply tame_scalar; exact I|]. split; [apply tame_scalar; exact I|]. discriminate. }
  intros [|[|cid]].
  - split.
    { split; [repeat constructor; cbn; intuition discriminate|]. split; [repeat constructor|apply incl_refl]. }
    intros nm f [[= <- <-]|[[= <- <-]|[]]]; (split; [apply nests_leaf; [|exact I]|]).
    + apply Hh.
    + split; [intros ctx so; constructor|]. discriminate.
    + apply (Hh _ "y"%string (SInt 1)).
    + split; [intros ctx so; constructor|]. intros q [= <-]. split.
      * constructor; [cbv; lia|]. intros [v|e]; constructor.
      * constructor; [intros v; constructor; auto|intros e; constructor].
  - split.
    { split; [repeat constructor; cbn; intuition discriminate|]. split; [repeat constructor|apply incl_refl]. }
    intros nm f [[= <- <-]|[[= <- <-]|[]]].
    + split; [apply nests_leaf; [apply (Hh _ "n"%string (SInt 1))|exact I]|].
      split; [intros ctx so; constructor|]. intros q [= <-]. split.
      * constructor; [cbv; lia|]. intros [[]|e]; constructor.
      * constructor; [intros []; constructor; left; apply tame_scalar; exact I|intros e; constructor].
    + split.
      * apply nests_array.
        -- split; [intros ? ? []|]. split; [apply tame_list; constructor|]. split; [apply tame_scalar; exact I|].
           intros v [= <-]. apply tame_list. constructor; [|constructor]. apply tame_struct; [cbn; lia|].
           constructor; [apply tame_scalar; exact I|constructor].
        -- apply nests_nested; [apply Hh|lia].
      * split; [intros ctx so; constructor|]. discriminate.
  - assert (Hc : cls line_E (S (S cid)) = empty_class) by (unfold cls; destruct cid; reflexivity).
    rewrite Hc. split; [repeat split; [constructor|constructor|apply incl_refl]|]. intros nm f [].
Qed.
