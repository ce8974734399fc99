(** Property theorems: equality of structs (C47).
    Vocabulary: SpecEq.v ([same], [comparable], [set_values], [view], [tame], [measured]). *)
From Verif Require Import Samples AccessWitness EqProofs.

(** C47: the answer is whether the set values, recursively converted to dictionaries, are the
    same data.  The other operand may be a struct of any class, or a dict. *)
Theorem C47_equality_of_set_values : forall E n a b r,
  mapping E a -> mapping E b -> is_struct a \/ is_struct b -> py_eq E n a b = Ok r ->
  exists da db, view E n a da /\ view E n b db
    /\ (comparable (VDict da) -> comparable (VDict db) -> (r = true <-> same (VDict da) (VDict db))).
Proof. exact eq_iff. Qed.
Print Assumptions C47_equality_of_set_values.

Theorem C47_reflexive : forall E n a r,
  mapping E a -> is_struct a -> tame E a -> py_eq E n a a = Ok r -> r = true.
Proof. exact eq_reflexive. Qed.
Print Assumptions C47_reflexive.

Theorem C47_symmetric : forall E n m a b r r',
  mapping E a -> mapping E b -> is_struct a \/ is_struct b -> tame E a -> tame E b ->
  py_eq E n a b = Ok r -> py_eq E m b a = Ok r' -> r = r'.
Proof. exact eq_symmetric. Qed.
Print Assumptions C47_symmetric.

Theorem C47_transitive : forall E n1 n2 n3 a b c r,
  mapping E a -> mapping E b -> mapping E c ->
  is_struct a \/ is_struct b -> is_struct b \/ is_struct c -> is_struct a \/ is_struct c ->
  tame E a -> tame E b -> tame E c ->
  py_eq E n1 a b = Ok true -> py_eq E n2 b c = Ok true -> py_eq E n3 a c = Ok r -> r = true.
Proof. exact eq_transitive. Qed.
Print Assumptions C47_transitive.

(** Neither the order of assignment nor unset values matter (nor, in fact, the class). *)
Theorem C47_same_values_equal : forall E n cid cid' vals vals' r,
  instance_of E cid vals -> instance_of E cid' vals' -> tame E (VStruct cid vals) ->
  (forall k, dget (set_values vals) k = dget (set_values vals') k) ->
  py_eq E n (VStruct cid vals) (VStruct cid' vals') = Ok r -> r = true.
Proof. exact eq_same_values. Qed.
Print Assumptions C47_same_values_equal.

(** There is an answer when both conversions succeed and [len()] of the structs is defined... *)
Theorem C47_answers : forall E m a b da db,
  mapping E a -> mapping E b -> is_struct a \/ is_struct b ->
  view E m a da -> view E m b db -> measured E m a -> measured E m b ->
  exists N, forall n, (N <= n)%nat -> exists r, py_eq E n a b = Ok r.
Proof. exact eq_answers. Qed.
Print Assumptions C47_answers.

(** ... but [==] raises whatever [len()] raises (other than TypeError). *)
Theorem C47_raises_with_len : forall E n cid vals b e,
  instance_of E cid vals -> b <> VUndefined ->
  struct_len E n cid vals = Raise e -> e <> ETypeErr ->
  py_eq E (S n) (VStruct cid vals) b = Raise e.
Proof. exact eq_len_raises. Qed.
Print Assumptions C47_raises_with_len.

Theorem C47_undefined : forall E n cid vals,
  py_eq E (S n) (VStruct cid vals) VUndefined = Ok true <-> Forall (fun kv => snd kv = VUndefined) vals.
Proof. exact eq_undefined. Qed.
Print Assumptions C47_undefined.

Theorem C47_other_types_differ : forall E n cid vals b r,
  match b with VUndefined | VDict _ | VStruct _ _ => False | _ => True end ->
  py_eq E n (VStruct cid vals) b = Ok r -> r = false.
Proof. exact eq_other. Qed.
Print Assumptions C47_other_types_differ.

(** Two instances with the same values stored in different orders, one with an explicitly
    unset extra value; a dict holding 7.0 instead of 7; a struct that cannot be compared. *)
Definition plain_vals' : dict :=
  [("a"%string, VInt 7); ("l"%string, VList [VInt 1; VInt 2; VInt 3]); ("s"%string, VStr [97; 98])].

Example C47_example :
  let x := VStruct 0 plain_vals in
  let y := VStruct 0 plain_vals' in
  let seven := 4619567317775286272 in
  let z := VDict [("a"%string, VFloat seven); ("s"%string, VStr [97; 98]);
                  ("l"%string, VList [VInt 1; VInt 2; VInt 3])] in
  mapping plain_E x /\ mapping plain_E y /\ mapping plain_E z /\ tame plain_E x /\ tame plain_E z
  /\ measured plain_E 5 x
  /\ py_eq plain_E 9 x y = Ok true /\ py_eq plain_E 9 x z = Ok true /\ py_eq plain_E 9 z x = Ok true
  /\ py_eq plain_E 9 x (VStruct 0 [("a"%string, VInt 7); ("s"%string, VStr [97; 98])]) = Ok false
  /\ py_eq plain_E 9 (VStruct 0 [("a"%string, VInt 7)]) (VDict []) = Raise (EMissingRequired (Some "s"%string)).
Proof.
  assert (Hx : tame plain_E (VStruct 0 plain_vals)).
  { exists 3%nat, plain_vals. split; [constructor; reflexivity|].
    apply cmp_dict; [repeat constructor; cbn; intuition discriminate|].
    intros k v [[= <- <-]|[[= <- <-]|[[= <- <-]|[]]]]; try (constructor; exact I); try (apply cmp_int).
    apply cmp_list. intros x [<-|[<-|[<-|[]]]]; apply cmp_int. }
  split; [|split; [|split; [|split; [|split]]]].
  - split; [|split].
    + split; [repeat constructor; cbn; intuition discriminate|]. split; [repeat constructor|]. intros name. cbn. tauto.
    + repeat constructor; cbn; intuition discriminate.
    + intros x. cbn. tauto.
  - split; [|split].
    + split; [repeat constructor; cbn; intuition discriminate|]. split; [repeat constructor|]. intros name. cbn. tauto.
    + repeat constructor; cbn; intuition discriminate.
    + intros x. cbn. tauto.
  - repeat constructor; cbn; intuition discriminate.
  - exact Hx.
  - eexists 3%nat, _. split; [constructor; reflexivity|].
    apply cmp_dict; [repeat constructor; cbn; intuition discriminate|].
    intros k v [[= <- <-]|[[= <- <-]|[[= <- <-]|[]]]]; try (constructor; exact I).
    + apply cmp_float; [split; vm_compute; congruence|]. intros [H _]. vm_compute in H. discriminate.
    + apply cmp_list. intros x [<-|[<-|[<-|[]]]]; apply cmp_int.
  - split; [left; eexists; vm_compute; reflexivity|]. repeat split; vm_compute; reflexivity.
Qed.
