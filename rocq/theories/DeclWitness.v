(** Declarations used by the examples of PropertiesDecl.v. *)
From Verif Require Import Samples.
From Verif Require Export PepProofs.

(** [UInt8()], [Int16()], [StringZ(default="x")], [Bytes(const=b"ab")], ... *)
Definition new (E : env) (x : fexpr) : decl :=
  match construct Little E 5 x with
  | Ok d => d
  | _ => mkDecl "" false (Field (basic "" SNone) KBytes)
  end.
Definition called (name : string) : kwargs :=
  mkKw (Some name) VUndefined (DValue VUndefined) None false VUndefined SNone []
       (fun _ _ => QRet true) VNotPresent.
Definition constant (v : value) : kwargs :=
  mkKw None v (DValue VUndefined) None false VUndefined SNone [] (fun _ _ => QRet true) VNotPresent.
Definition defaulting (v : value) : kwargs :=
  mkKw None VUndefined (DValue v) None false VUndefined SNone [] (fun _ _ => QRet true) VNotPresent.
Definition checking (q : value -> res unit) : kwargs :=
  mkKw None VUndefined (DValue VUndefined) None false VUndefined SNone [q] (fun _ _ => QRet true) VNotPresent.
Definition uint8 : decl := new [] (XInt UInt8 None None no_args).
Definition int16 : decl := new [] (XInt Int16 None None no_args).
Definition text : decl := new [] (XStringZ Utf8 None no_args).
Definition vli_1 : decl := new [] (XVli ULEB128 None (defaulting (VInt 1))).

(** class A(Struct): a = UInt8(); w = Int16(); with a struct validator and a field method *)
Definition below_10 (v : value) : query unit :=
  match v with
  | VInt z => if z <=? 9 then QRet tt else QRaise (EValidation (Some "a"%string))
  | _ => QRet tt
  end.
Definition ns_A : namespace :=
  [("a"%string, IField uint8); ("check_a"%string, IValidates ["a"%string] below_10);
   ("w"%string, IField int16); ("check"%string, IValidatesStruct (QRet tt))].
(** class B(A): t = StringZ(); z = UInt8(); Meta with big endian; validates "w" and "z" *)
Definition ns_B : namespace :=
  [("t"%string, IField text); ("z"%string, IField uint8);
   ("check_more"%string, IValidates ["w"%string; "z"%string] below_10)].
Definition big : list (string * endian) := [("endian"%string, Big)].

Definition made (E : env) (name : string) (bases : list nat) (meta : option (list (string * endian)))
    (ns : namespace) : env :=
  match create_class E 5 name bases meta ns with Ok k => E ++ [k] | _ => E end.
Definition AB_E : env := made (made [] "A" [] None ns_A) "B" [0%nat] (Some big) ns_B.

Lemma made_declared E name bases meta ns : declared E -> declared (made E name bases meta ns).
Proof.
  intros H. unfold made. destruct (create_class E 5 name bases meta ns) eqn:Hk; auto.
  eapply declared_class; eauto.
Qed.

Lemma declared_is_rooted native E : declared E -> declared_rooted native E.
Proof. induction 1; [constructor|eapply rooted_assigned; eauto]. Qed.
Lemma rooted_is_any native E : declared_rooted native E -> declared_any native E.
Proof. induction 1; [constructor|eapply any_assigned; eauto|eapply any_annotated; eauto]. Qed.

Lemma AB_declared : declared AB_E.
Proof. apply made_declared, made_declared, declared_none. Qed.

Lemma AB_no_default : forall cid, no_unsized_default (cls AB_E cid).
Proof.
  intros cid name f Hin Hs. destruct cid as [|[|[|cid]]]; [..|destruct cid]; cbn in Hin;
    repeat (destruct Hin as [Hin|Hin]; [injection Hin as <- <-; try discriminate Hs; auto|]); destruct Hin.
Qed.

(** class S(Struct): v = VariableLengthInteger(default=1);  class T(S): b = UInt8() *)
Definition ST_E : env :=
  made (made [] "S" [] None [("v"%string, IField vli_1)]) "T" [0%nat] None [("b"%string, IField uint8)].

Lemma ST_declared : declared ST_E.
Proof. apply made_declared, made_declared, declared_none. Qed.

(** T's field has the offset 1, which below_10 values up to 127 only. *)
Lemma ST_misplaced : ~ placed (cls ST_E 1).
Proof.
  intros H. destruct (cls ST_E 1) as [nm cs fv sv own df] eqn:Hk.
  vm_compute in Hk. injection Hk as <- <- <- <- <- <-.
  specialize (H [_] _ _ [] eq_refl). destruct H as [(s & sizes & _ & Hf & _)|(_ & Ho)].
  - inversion Hf as [|x z l l' Hx _]; subst. discriminate Hx.
  - discriminate Ho.
Qed.

Lemma ST_reads :
  let s := mkStream [200; 1; 7] 0 in
  let vals := [("v"%string, VInt 200); ("b"%string, VInt 7)] in
  struct_to_bytes ST_E 9 1 vals VNone = Ok [200; 1; 7]
  /\ struct_from_stream ST_E 9 1 VNone [] s = (mkStream [200; 1; 7] 3, Ok vals)
  /\ get_field ST_E 9 1 "b" VNone s = (s, Ok (VInt 1)).
Proof. vm_compute. auto. Qed.

(** class P(Struct): a = UInt8() ;  @dataclass class Q(P): b: UInt8 *)
Definition hint_u8 (name : string) : string * list annot := (name, [AFieldClass (FInt UInt8) false]).
Definition none_given : string -> default_arg := fun _ => DValue VUndefined.
Definition P_E : env := made [] "P" [] None [("a"%string, IField uint8)].
Definition Q_plain : classdef :=
  match create_class P_E 5 "Q" [0%nat] None [] with Ok k => k | _ => empty_class end.
Definition Q_class : classdef :=
  match dataclass Little P_E 5 Q_plain [hint_u8 "b"] none_given with Ok k => k | _ => empty_class end.
Definition PQ_E : env := P_E ++ [Q_class].

Lemma PQ_declared : declared_any Little PQ_E.
Proof.
  eapply (any_annotated Little P_E 5 "Q" [0%nat] None [] Q_plain [hint_u8 "b"] none_given Q_class).
  - apply rooted_is_any, declared_is_rooted, made_declared, declared_none.
  - reflexivity.
  - reflexivity.
Qed.

Lemma PQ_misnumbered : ~ numbered (cls PQ_E 1) /\ ~ placed (cls PQ_E 1).
Proof.
  destruct (cls PQ_E 1) as [nm cs fv sv own df] eqn:Hk.
  vm_compute in Hk. injection Hk as <- <- <- <- <- <-.
  split; intros H; specialize (H [_] _ _ [] eq_refl).
  - destruct H as [_ H]. discriminate H.
  - destruct H as [(s & sizes & Hs & Hf & Ho)|(_ & Ho)]; [|discriminate Ho].
    inversion Hf as [|x z l l' Hx Hl]; subst. inversion Hl; subst. cbn in Hx. injection Hx as <-.
    injection Hs as <-. discriminate Ho.
Qed.

Lemma PQ_reads :
  let s := mkStream [1; 2] 0 in
  struct_from_stream PQ_E 9 1 VNone [] s
    = (mkStream [1; 2] 2, Ok [("a"%string, VInt 1); ("b"%string, VInt 2)])
  /\ get_field PQ_E 9 1 "b" VNone s = (s, Ok (VInt 1)).
Proof. vm_compute. auto. Qed.

(** The classes above again, with a per-field validator: the assigned form checks before
    writing, the annotated form while writing. *)
Definition limited_u8 : decl := new [] (XInt UInt8 None None (checking at_most_9)).
Definition assigned_E : env := made [] "M" [] None (assigned [("a"%string, uint8); ("x"%string, limited_u8)]).
Definition M_plain : classdef :=
  match create_class [] 5 "M" [] None [] with Ok k => k | _ => empty_class end.
Definition M_hints : hints := [("a"%string, [AInstance uint8]); ("x"%string, [AInstance limited_u8])].
Definition M_class : classdef :=
  match dataclass Little [] 5 M_plain M_hints none_given with Ok k => k | _ => empty_class end.
Definition annotated_E : env := [M_class].

Lemma M_annotated : annotated Little [] 5 none_given M_hints [("a"%string, uint8); ("x"%string, limited_u8)].
Proof.
  apply annotated_field; [cbn; intuition discriminate|reflexivity|].
  apply annotated_field; [cbn; intuition discriminate|reflexivity|].
  constructor.
Qed.

Lemma M_validation :
  let vals := [("a"%string, VInt 1); ("x"%string, VInt 20)] in
  let e := EValidation (Some "x"%string) in
  validate_contents assigned_E 9 0 vals = Raise e
  /\ struct_to_stream assigned_E 9 0 vals VNone = ([], Raise e)
  /\ validate_contents annotated_E 9 0 vals = Ok tt
  /\ struct_to_stream annotated_E 9 0 vals VNone = ([1], Raise e).
Proof. vm_compute. auto. Qed.
