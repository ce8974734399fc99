(** Property theorems about changes that stay local (C83). *)
From Coq Require Import ZArith List String.
From Verif Require Import Samples StructProofs PatchProofs PatchWitness.
Import ListNotations.
Open Scope string_scope.
Open Scope list_scope.

(** C83: fields that depend only on each other are dumped alike by instances that agree on
    them. *)
Theorem C83_unaffected : forall E cid names, well_formed (cls E cid) -> independent (cls E cid) names ->
  forall n vals vals' ctx out out', instance_of E cid vals -> instance_of E cid vals' ->
  agree names vals vals' ->
  struct_to_stream E n cid vals ctx = (out, Ok tt) -> struct_to_stream E n cid vals' ctx = (out', Ok tt) ->
  exists all all' parts parts', to_dict E n cid vals false = Ok all /\ to_dict E n cid vals' false = Ok all'
    /\ Forall2 (field_part E n ctx all) (k_comps (cls E cid)) parts /\ out = concat parts
    /\ Forall2 (field_part E n ctx all') (k_comps (cls E cid)) parts' /\ out' = concat parts'
    /\ agree names all all'
    /\ forall i name f, nth_error (k_comps (cls E cid)) i = Some (name, f) -> In name names ->
         nth_error parts i = nth_error parts' i.
Proof. exact dump_same. Qed.
Print Assumptions C83_unaffected.

(** C83: they also read alike. *)
Theorem C83_read : forall E cid names, well_formed (cls E cid) -> independent (cls E cid) names ->
  forall vals vals', NoDup (dkeys vals) -> NoDup (dkeys vals') -> agree names vals vals' ->
  forall n name, In name names -> struct_get E n cid vals name = struct_get E n cid vals' name.
Proof. exact get_agree. Qed.
Print Assumptions C83_read.

(** C83: two instances that differ in one field no other field depends on have dumps that
    differ in the data of that field only. *)
Theorem C83_one_field : forall E n cid vals vals' ctx out out' pre name f post, well_formed (cls E cid) ->
  k_comps (cls E cid) = pre ++ (name, f) :: post ->
  independent (cls E cid) (others (cls E cid) name) ->
  instance_of E cid vals -> instance_of E cid vals' -> (forall x, x <> name -> dget vals x = dget vals' x) ->
  struct_to_stream E n cid vals ctx = (out, Ok tt) -> struct_to_stream E n cid vals' ctx = (out', Ok tt) ->
  exists a b b' c all all', out = a ++ b ++ c /\ out' = a ++ b' ++ c
    /\ to_dict E n cid vals false = Ok all /\ to_dict E n cid vals' false = Ok all'
    /\ field_part E n ctx all (name, f) b /\ field_part E n ctx all' (name, f) b'
    /\ exists ps qs, Forall2 (field_part E n ctx all) pre ps /\ a = concat ps
       /\ Forall2 (field_part E n ctx all) post qs /\ c = concat qs.
Proof. exact dump_patch. Qed.
Print Assumptions C83_one_field.

(** C83: with a constant offset and size, the new dump is the old one overwritten there. *)
Theorem C83_overwritten : forall E n cid vals vals' ctx out out' all all' pre name f post zs z,
  well_formed (cls E cid) ->
  k_comps (cls E cid) = pre ++ (name, f) :: post ->
  independent (cls E cid) (others (cls E cid) name) ->
  instance_of E cid vals -> instance_of E cid vals' -> (forall x, x <> name -> dget vals x = dget vals' x) ->
  struct_to_stream E n cid vals ctx = (out, Ok tt) -> struct_to_stream E n cid vals' ctx = (out', Ok tt) ->
  to_dict E n cid vals false = Ok all -> to_dict E n cid vals' false = Ok all' ->
  fixed_sizes pre zs -> (forall x g, In (x, g) pre -> written ctx all g) ->
  c_size (conf f) = SInt z -> written ctx all f -> written ctx all' f ->
  exists b, field_part E n ctx all' (name, f) b /\ zlen b = z
    /\ out' = firstn (Z.to_nat (sum zs)) out ++ b ++ skipn (Z.to_nat (sum zs + z)) out.
Proof. exact dump_overwritten. Qed.
Print Assumptions C83_overwritten.

(** C83: assigning to a field makes such a change. *)
Theorem C83_assign : forall E cid vals name v vals', instance_of E cid vals ->
  struct_setitem E cid vals name v = Ok vals' ->
  instance_of E cid vals' /\ forall x, x <> name -> dget vals x = dget vals' x.
Proof. exact setitem_instance. Qed.
Print Assumptions C83_assign.

(** The other fields must be independent: changing a body changes its computed length. *)
Theorem C83_must_be_independent : exists vals vals' out out',
  instance_of records 0 vals /\ instance_of records 0 vals'
  /\ (forall x, x <> "body" -> dget vals x = dget vals' x)
  /\ struct_to_stream records 9 0 vals VNone = (out, Ok tt)
  /\ struct_to_stream records 9 0 vals' VNone = (out', Ok tt)
  /\ nth 3 out 0%Z <> nth 3 out' 0%Z.
Proof. exact body_not_independent. Qed.
Print Assumptions C83_must_be_independent.

Example C83_example :
  well_formed (cls records 0) /\ independent (cls records 0) (others (cls records 0) "num")
  /\ instance_of records 0 record_before /\ instance_of records 0 record_after
  /\ struct_setitem records 0 record_before "num" (VInt (-2)) = Ok record_after
  /\ struct_to_stream records 9 0 record_before VNone = ([5; 1; 2; 2; 7; 8]%Z, Ok tt)
  /\ struct_to_stream records 9 0 record_after VNone = ([5; 255; 254; 2; 7; 8]%Z, Ok tt)
  /\ to_dict records 9 0 record_before false = Ok (record_all 258)
  /\ to_dict records 9 0 record_after false = Ok (record_all (-2))
  /\ fixed_sizes (firstn 1 record) [1%Z]
  /\ (forall num, written VNone (record_all num) (snd (nth 0 record (named "" (u8 (byte ""))))))
  /\ (forall num, written VNone (record_all num) (snd (nth 1 record (named "" (u8 (byte "")))))).
Proof.
  split; [exact records_well_formed|]. split; [exact record_independent|].
  split; [apply record_instance|]. split; [apply record_instance|].
  split; [reflexivity|]. split; [vm_compute; reflexivity|]. split; [vm_compute; reflexivity|].
  split; [vm_compute; reflexivity|]. split; [vm_compute; reflexivity|].
  split; [repeat constructor|].
  split; intros num; eexists; (split; [reflexivity|]); (split; [discriminate|]); (split; discriminate).
Qed.
