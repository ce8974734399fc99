(** Property theorems: dumping ends when nothing refers to itself (C73). *)
From Verif Require Import EndsWitness.

(** ** C73: every operation on an instance gives one answer, whatever the (sufficient) fuel,
    if no class, default or computing function refers to itself. *)
Theorem C73_dump : forall E rank depth, no_circles E rank depth -> forall cid vals ctx, any_values vals ->
  exists n x, (forall m, (n <= m)%nat -> struct_to_stream E m cid vals ctx = x) /\ snd x <> OOF.
Proof. exact struct_dump_ends. Qed.
Print Assumptions C73_dump.

Theorem C73_partial_dump : forall E rank depth, no_circles E rank depth -> forall cid vals last ctx, any_values vals ->
  exists n x, (forall m, (n <= m)%nat -> partial_dump E m cid vals last ctx = x) /\ snd x <> OOF.
Proof. exact partial_ends. Qed.
Print Assumptions C73_partial_dump.

Theorem C73_field : forall E rank depth, no_circles E rank depth -> forall f v ctx d,
  nests (fun _ => True) f -> any_value v ->
  exists n x, (forall m, (n <= m)%nat -> field_to_stream E m f v ctx d = x) /\ snd x <> OOF.
Proof. exact field_dump_ends. Qed.
Print Assumptions C73_field.

Theorem C73_to_dict : forall E rank depth, no_circles E rank depth -> forall cid vals keep, any_values vals ->
  exists n r, (forall m, (n <= m)%nat -> to_dict E m cid vals keep = r) /\ r <> OOF.
Proof. exact to_dict_answers. Qed.
Print Assumptions C73_to_dict.

Theorem C73_get : forall E rank depth, no_circles E rank depth -> forall cid vals name,
  exists n r, (forall m, (n <= m)%nat -> struct_get E m cid vals name = r) /\ r <> OOF.
Proof. exact get_answers. Qed.
Print Assumptions C73_get.

Theorem C73_validate : forall E rank depth, no_circles E rank depth -> forall cid vals,
  exists n r, (forall m, (n <= m)%nat -> validate_contents E m cid vals = r) /\ r <> OOF.
Proof. exact validate_answers. Qed.
Print Assumptions C73_validate.

Theorem C73_len : forall E rank depth, no_circles E rank depth -> forall cid vals, any_values vals ->
  exists n r, (forall m, (n <= m)%nat -> struct_len E m cid vals = r) /\ r <> OOF.
Proof. exact len_answers. Qed.
Print Assumptions C73_len.

Theorem C73_size : forall E rank depth, no_circles E rank depth -> forall cid d,
  exists n r, (forall m, (n <= m)%nat -> get_size_values E m cid d = r) /\ r <> OOF.
Proof. exact size_answers. Qed.
Print Assumptions C73_size.

Theorem C73_equal : forall E rank depth, no_circles E rank depth -> forall a b, any_value a -> any_value b ->
  exists n r, (forall m, (n <= m)%nat -> py_eq E m a b = r) /\ r <> OOF.
Proof. exact eq_answers. Qed.
Print Assumptions C73_equal.

(** The hypothesis matters: two fields that compute each other, and a class that is its own
    default, never stop (RecursionError in Python). *)
Theorem C73_computed_circle : forall n ctx, let E := [class_of "Circle" circle_fields] in
  struct_get E n 0 [] "a" = OOF /\ struct_to_stream E n 0 [] ctx = ([], OOF).
Proof. exact computed_circle. Qed.
Print Assumptions C73_computed_circle.

Theorem C73_default_circle : forall n ctx, let E := [class_of "Node" node_fields] in
  struct_to_stream E n 0 [] ctx = ([], OOF).
Proof. exact default_circle. Qed.
Print Assumptions C73_default_circle.

(** A counted array of points, one of them by default, whose count is computed. *)
Example C73_example : no_circles line_E (fun c => c) line_depth /\ any_values []
  /\ struct_to_stream line_E 9 1 [] VNone = ([1; 7; 7], Ok tt).
Proof. split; [exact line_no_circles|]. split; [constructor|vm_compute; reflexivity]. Qed.
