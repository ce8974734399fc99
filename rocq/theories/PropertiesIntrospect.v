(** C97: [repr] of structs, and what fields tell about themselves. *)
From Coq Require Import String Lia.
From Verif Require Import SpecIntrospect IntrospectProofs Samples.
Open Scope list_scope.
Open Scope Z_scope.

(** [repr] shows the name of the class and the values that are set, as Python writes them ... *)
Theorem C97_repr qualname other v : showable qualname v -> shows qualname v (repr_value qualname other v).
Proof. exact (repr_shows qualname other v). Qed.
Print Assumptions C97_repr.

(** ... and can be read in one way only: ... *)
Theorem C97_one_reading qualname v w t : (forall c1 c2, qualname c1 = qualname c2 -> c1 = c2) ->
  shows qualname v t -> shows qualname w t -> v = w.
Proof. exact (fun H => shows_one qualname (fun _ => []) H v w t). Qed.
Print Assumptions C97_one_reading.

(** ... structs with the same [repr] have the same class and values. *)
Theorem C97_repr_determines qualname other cid1 cid2 d1 d2 : (forall c1 c2, qualname c1 = qualname c2 -> c1 = c2) ->
  showable qualname (VStruct cid1 d1) -> showable qualname (VStruct cid2 d2) ->
  repr_value qualname other (VStruct cid1 d1) = repr_value qualname other (VStruct cid2 d2) -> cid1 = cid2 /\ d1 = d2.
Proof.
  exact (fun H H1 H2 He => match repr_determines qualname other H _ _ H1 H2 He in _ = w
                                 return match w with VStruct c d => cid1 = c /\ d1 = d | _ => False end
                           with eq_refl => conj eq_refl eq_refl end).
Qed.
Print Assumptions C97_repr_determines.

(** A required field that is not computed and is missing cannot be dumped, by itself ... *)
Theorem C97_required_default E n f ctx d : required f = Ok true ->
  field_to_stream E n f VDefault ctx d = ([], Raise (EMissingRequired (c_name (conf f)))).
Proof. exact (required_default E n f ctx d). Qed.
Print Assumptions C97_required_default.

(** ... or in a struct, if it is to be present. *)
Theorem C97_required_missing f ctx d name : required f = Ok true -> is_computed_field f = false -> c_name (conf f) = Some name -> dmem d name = false ->
  run_dict d (c_present (conf f) ctx None) = Ok true ->
  run_dict d (compute_value_for_dump (conf f) ctx) = Raise (EMissingRequired (Some name)).
Proof. exact (required_missing f ctx d name). Qed.
Print Assumptions C97_required_missing.

(** [__objclass__] of a field is the class declared last among those having the field. *)
Theorem C97_objclass l f :
  match pr_objclass (declare_all l) f with
  | Some c => last_with (pr_classes (declare_all l)) f c
  | None => forall comps, In comps (pr_classes (declare_all l)) -> ~ In f comps
  end.
Proof. exact (declared_last l f). Qed.
Print Assumptions C97_objclass.

(** ** Examples *)

Definition qn (cid : nat) : text := repeat 65 (S cid).

Lemma qn_inj c1 c2 : qn c1 = qn c2 -> c1 = c2.
Proof. unfold qn. intros H. apply (f_equal (@length Z)) in H. rewrite !repeat_length in H. lia. Qed.

Lemma qn_ident c : ident (qn c).
Proof.
  exists 65, (repeat 65 c). split; [reflexivity|]. split; [left; lia|]. apply Forall_forall. intros x Hx. apply repeat_spec in Hx as ->.
  cbn. intuition discriminate.
Qed.

Definition sample : value :=
  VStruct 0 [("x", VInt (-5)); ("y", VStruct 1 [("s", VStr (lit "it's")); ("b", VBytes [0; 39; 255])]);
             ("l", VList [VNone; VNotPresent; VUUID 1]); ("d", VDict [("k", VInt 0)])]%string.

Ltac an_ident := eexists _, _; split; [reflexivity|]; split; [unfold letter; vm_compute; intuition discriminate|repeat constructor; vm_compute; intuition discriminate].

Example C97_nonvacuous : showable qn sample
  /\ repr_value qn (fun _ => []) sample
     = lit "A(x=-5, y=AA(s=" ++ [34] ++ lit "it's" ++ [34] ++ lit ", b=b" ++ [34] ++ lit "\x00'\xff" ++ [34]
       ++ lit "), l=[None, <_NotPresent.token: 0>, UUID('00000000-0000-0000-0000-000000000001')], d={'k': 0})".
Proof.
  split; [|vm_compute; reflexivity]. unfold sample.
  apply sw_struct; [apply qn_ident|].
  constructor; [split; [an_ident|constructor]|].
  constructor; [split; [an_ident|]|].
  { cbn [snd]. apply sw_struct; [apply qn_ident|]. constructor; [split; [an_ident|]|].
    - cbn [snd]. apply sw_str. vm_compute. repeat constructor; discriminate.
    - constructor; [split; [an_ident|]|constructor]. cbn [snd]. apply sw_bytes. repeat constructor; lia. }
  constructor; [split; [an_ident|]|].
  { cbn [snd]. apply sw_list. repeat constructor; lia. }
  constructor; [split; [an_ident|]|constructor].
  cbn [snd]. apply sw_dict. constructor; [|constructor]. split; [|constructor]. vm_compute. repeat constructor; discriminate.
Qed.

Definition plain_int : field := Field (basic "x" (SInt 1)) (KInt false Big).

Example C97_required_nonvacuous :
  required plain_int = Ok true /\ is_computed_field plain_int = false /\ run_dict [] (c_present (conf plain_int) VNone None) = Ok true
  /\ run_dict [] (compute_value_for_dump (conf plain_int) VNone) = Raise (EMissingRequired (Some "x"%string)).
Proof. repeat split; vm_compute; reflexivity. Qed.

(** Class 0 has the field 7, class 1 is a subclass of it with a further field 8. *)
Definition two_classes : list statement := [mkStatement None [7%nat]; mkStatement (Some 0%nat) [8%nat]].

Example C97_objclass_nonvacuous :
  pr_classes (declare_all two_classes) = [[7]; [7; 8]]%nat
  /\ pr_objclass (declare_all two_classes) 7 = Some 1%nat /\ pr_objclass (declare_all [mkStatement None [7%nat]]) 7 = Some 0%nat.
Proof. repeat split; vm_compute; reflexivity. Qed.

(** Violated: [__objclass__] of a field is the class it is defined in. *)
Theorem C97_objclass_defines_refuted :
  ~ (forall l f c, pr_objclass (declare_all l) f = Some c -> exists s, nth_error l c = Some s /\ In f (st_fields s)).
Proof.
  intros H. destruct (H two_classes 7%nat 1%nat eq_refl) as (s & Hs & Hi). injection Hs as <-. destruct Hi as [Hi|[]]. discriminate.
Qed.
Print Assumptions C97_objclass_defines_refuted.

(** Violated: [required] tells whether a value has to be given.  Computed fields are said to be
    required ... *)
Theorem C97_required_must_be_given_refuted :
  ~ (forall f ctx name, required f = Ok true -> c_name (conf f) = Some name ->
       run_dict [] (c_present (conf f) ctx None) = Ok true ->
       run_dict [] (compute_value_for_dump (conf f) ctx) = Raise (EMissingRequired (Some name))).
Proof.
  intros H. specialize (H (Field (with_compute (QRet (VInt 3)) (basic "x" (SInt 1))) (KInt false Big)) VNone "x"%string eq_refl eq_refl eq_refl).
  vm_compute in H. discriminate.
Qed.
Print Assumptions C97_required_must_be_given_refuted.

(** ... and fields with a factory are said not to be, although they are. *)
Theorem C97_not_required_refuted :
  ~ (forall f ctx name, required f = Ok false -> c_name (conf f) = Some name ->
       run_dict [] (compute_value_for_dump (conf f) ctx) <> Raise (EMissingRequired (Some name))).
Proof.
  intros H. apply (H (Field (with_factory (VInt 3) (basic "x" (SInt 1))) (KInt false Big)) VNone "x"%string eq_refl eq_refl).
  vm_compute. reflexivity.
Qed.
Print Assumptions C97_not_required_refuted.
