(** Property theorems: get_field, partial_dump, get_size and len, item access (C32-C35).
    Vocabulary: SpecAccess.v ([consumes], [load_contained], [simple], [self_contained],
    [plain_data], [own_part], [own_value], [fixed_sizes], [written], [measurable]) and
    SpecField.v ([instance_of], [assignable], [abstract_run], [after_all]). *)
From Verif Require Import SpecAccess Samples AccessWitness.

(** C32 *)
Theorem C32_fixed_offset : forall E n cid name f pre post sizes ctx s s' vals,
  well_formed (cls E cid) -> k_comps (cls E cid) = pre ++ (name, f) :: post ->
  Forall2 (fun nf m => consumes E (snd nf) m) pre sizes ->
  c_offset (conf f) = Some (sum sizes) ->
  load_contained E f -> c_discard (conf f) = false ->
  struct_from_stream E n cid ctx [] s = (s', Ok vals) ->
  exists v, get_field E n cid name ctx s = (s, Ok v) /\ dget vals name = Some v.
Proof. exact get_field_fixed. Qed.
Print Assumptions C32_fixed_offset.

Theorem C32_variable_offset : forall E n cid name f pre post ctx s s' vals,
  well_formed (cls E cid) -> k_comps (cls E cid) = pre ++ (name, f) :: post ->
  Forall (fun nf => c_discard (conf (snd nf)) = false) (pre ++ [(name, f)]) ->
  c_offset (conf f) = None ->
  struct_from_stream E n cid ctx [] s = (s', Ok vals) ->
  exists v, get_field E n cid name ctx s = (s, Ok v) /\ dget vals name = Some v.
Proof. exact get_field_variable. Qed.
Print Assumptions C32_variable_offset.

(** What counts as a field of known extent ... *)
Theorem C32_leaf_extent : forall E c k m, exact_kind k = true -> always_present c ->
  c_size c = SInt m -> 0 <= m -> null_fits E (Field c k) m -> consumes E (Field c k) m.
Proof. exact leaf_consumes. Qed.
Print Assumptions C32_leaf_extent.

Theorem C32_array_extent : forall E c comp cnt m, always_present c -> consumes E comp m ->
  null_fits E (Field c (KArray comp (CntInt cnt) None)) (Z.max 0 cnt * m) ->
  consumes E (Field c (KArray comp (CntInt cnt) None)) (Z.max 0 cnt * m).
Proof. exact array_consumes. Qed.
Print Assumptions C32_array_extent.

Theorem C32_nested_extent : forall E c cid sizes, always_present c -> well_formed (cls E cid) ->
  Forall2 (fun nf m => consumes E (snd nf) m) (k_comps (cls E cid)) sizes ->
  null_fits E (Field c (KNested cid)) (sum sizes) ->
  consumes E (Field c (KNested cid)) (sum sizes).
Proof. exact nested_consumes. Qed.
Print Assumptions C32_nested_extent.

(** ... and as one that does not look at other fields. *)
Theorem C32_no_references : forall E f, ref_less f -> unconditional (conf f) -> load_contained E f.
Proof. exact ref_less_load_contained. Qed.
Print Assumptions C32_no_references.

Example C32_example :
  let s := mkStream [7; 1; 2; 3; 97; 98; 0] 0 in
  Forall2 (fun nf m => consumes plain_E (snd nf) m) (firstn 2 (k_comps (cls plain_E 0))) [1; 3]
  /\ load_contained plain_E (Field (with_offset 2 (Some 4) (basic "s" SNone)) (KStringZ Utf8 None))
  /\ struct_from_stream plain_E 9 0 VNone [] s
     = (mkStream [7; 1; 2; 3; 97; 98; 0] 7,
        Ok [("a"%string, VInt 7); ("l"%string, VList [VInt 1; VInt 2; VInt 3]); ("s"%string, VStr [97; 98])])
  /\ get_field plain_E 9 0 "s" VNone s = (s, Ok (VStr [97; 98])).
Proof. exact (conj plain_consumes (conj plain_last_contained (conj eq_refl eq_refl))). Qed.

Theorem C32_conditions_needed_refuted :
  (let s := mkStream [2; 8; 9] 0 in
   struct_from_stream ref_E 5 0 VNone [] s
     = (mkStream [2; 8; 9] 3, Ok [("n"%string, VInt 2); ("data"%string, VBytes [8; 9])])
   /\ get_field ref_E 5 0 "data" VNone s = (s, Raise (EMissingRequired (Some "n"%string))))
  /\ (let s := mkStream [0; 5; 7] 0 in
      (exists s' vals, struct_from_stream opt_E 5 0 VNone [] s = (s', Ok vals)
         /\ dget vals "y" = Some (VInt 5))
      /\ get_field opt_E 5 0 "y" VNone s = (s, Ok (VInt 7)))
  /\ (let s := mkStream [97; 0; 1; 2; 3] 0 in
      (exists s' vals, struct_from_stream strz_E 9 0 VNone [] s = (s', Ok vals)
         /\ dget vals "y" = Some (VInt 1))
      /\ get_field strz_E 9 0 "y" VNone s = (s, Ok (VInt 3))).
Proof. exact get_field_witness. Qed.
Print Assumptions C32_conditions_needed_refuted.

(** C33 *)
Theorem C33_up_to_field : forall E n cid vals last ctx out, well_formed (cls E cid) ->
  In last (map fst (k_comps (cls E cid))) ->
  (partial_dump E n cid vals (Some last) ctx = (out, Ok tt)
   <-> exists pre f post parts, k_comps (cls E cid) = pre ++ (last, f) :: post
       /\ Forall2 (own_part E n ctx vals) (pre ++ [(last, f)]) parts /\ out = concat parts).
Proof. exact partial_dump_last. Qed.
Print Assumptions C33_up_to_field.

Theorem C33_up_to_missing : forall E n cid vals ctx out, well_formed (cls E cid) ->
  (partial_dump E n cid vals None ctx = (out, Ok tt)
   <-> exists pre post parts, k_comps (cls E cid) = pre ++ post
       /\ Forall2 (own_part E n ctx vals) pre parts /\ out = concat parts
       /\ match post with
          | [] => True
          | (name, f) :: _ => own_value vals name (conf f) VUndefined
          end).
Proof. exact partial_dump_none. Qed.
Print Assumptions C33_up_to_missing.

Theorem C33_prefix : forall E n cid vals last ctx out full,
  instance_of E cid vals -> plain_data vals ->
  (forall name f, In (name, f) (k_comps (cls E cid)) -> simple f /\ self_contained E f) ->
  (forall l, last = Some l -> In l (map fst (k_comps (cls E cid)))) ->
  struct_to_stream E n cid vals ctx = (full, Ok tt) ->
  partial_dump E n cid vals last ctx = (out, Ok tt) ->
  exists suffix, full = out ++ suffix.
Proof. exact partial_dump_prefix. Qed.
Print Assumptions C33_prefix.

Theorem C33_succeeds : forall E n cid vals ctx full last,
  instance_of E cid vals -> plain_data vals ->
  (forall name f, In (name, f) (k_comps (cls E cid)) -> simple f /\ self_contained E f) ->
  (forall l, last = Some l -> In l (map fst (k_comps (cls E cid)))) ->
  struct_to_stream E n cid vals ctx = (full, Ok tt) ->
  exists out suffix, partial_dump E n cid vals last ctx = (out, Ok tt) /\ full = out ++ suffix
    /\ (last = None -> suffix = []).
Proof. exact partial_dump_exists. Qed.
Print Assumptions C33_succeeds.

Theorem C33_no_references : forall E f, ref_free f -> self_contained E f.
Proof. exact ref_free_contained. Qed.
Print Assumptions C33_no_references.

Example C33_example :
  instance_of plain_E 0 plain_vals /\ plain_data plain_vals
  /\ (forall name f, In (name, f) (k_comps (cls plain_E 0)) -> simple f /\ self_contained plain_E f)
  /\ struct_to_stream plain_E 9 0 plain_vals VNone = ([7; 1; 2; 3; 97; 98; 0], Ok tt)
  /\ partial_dump plain_E 9 0 plain_vals (Some "l"%string) VNone = ([7; 1; 2; 3], Ok tt)
  /\ partial_dump plain_E 9 0 [("a"%string, VInt 7)] None VNone = ([7], Ok tt).
Proof.
  exact (conj plain_instance (conj plain_plain_data (conj plain_simple
          (conj eq_refl (conj eq_refl eq_refl))))).
Qed.

Theorem C33_size_reference_fails : forall E n ctx f name v,
  c_size (conf f) = SRef name -> v <> VNone -> v <> VUndefined -> v <> VDefault ->
  accepts (conf f) v ->
  (exists bs, do_dump E n f v ctx [] = (bs, Ok tt)) \/ kind f = KBytes ->
  field_to_stream E n f v ctx [] = ([], Raise (EMissingRequired (Some name))).
Proof. exact partial_dump_size_ref'. Qed.
Print Assumptions C33_size_reference_fails.

Theorem C33_references_refuted :
  let vals := [("n"%string, VInt 2); ("data"%string, VBytes [8; 9])] in
  struct_to_stream ref_E 5 0 vals VNone = ([2; 8; 9], Ok tt)
  /\ partial_dump ref_E 5 0 vals (Some "data"%string) VNone
     = ([2], Raise (EMissingRequired (Some "n"%string))).
Proof. exact partial_dump_witness. Qed.
Print Assumptions C33_references_refuted.

(** C34 *)
Theorem C34_get_size : forall E n cid sizes, fixed_sizes (k_comps (cls E cid)) sizes ->
  get_size E n cid = Ok (Some (sum sizes)).
Proof. exact get_size_fixed. Qed.
Print Assumptions C34_get_size.

(** [get_size()] adds the expected sizes without any values; [None] when the first field that
    fails has an undefined size or needs a value; any other error propagates. *)
Theorem C34_get_size_sum : forall E n cid sizes,
  Forall2 (fun nf z => get_expected_size E n (snd nf) [] = Ok z) (k_comps (cls E cid)) sizes ->
  get_size E n cid = Ok (Some (sum sizes)).
Proof. exact get_size_ok. Qed.
Print Assumptions C34_get_size_sum.

Theorem C34_get_size_none : forall E n cid pre sizes name f post e,
  k_comps (cls E cid) = pre ++ (name, f) :: post ->
  Forall2 (fun nf z => get_expected_size E n (snd nf) [] = Ok z) pre sizes ->
  get_expected_size E n f [] = Raise e ->
  (exists fld, e = EUndefinedSize fld \/ e = EMissingRequired fld) -> get_size E n cid = Ok None.
Proof. exact get_size_none. Qed.
Print Assumptions C34_get_size_none.

Theorem C34_get_size_raises : forall E n cid pre sizes name f post e,
  k_comps (cls E cid) = pre ++ (name, f) :: post ->
  Forall2 (fun nf z => get_expected_size E n (snd nf) [] = Ok z) pre sizes ->
  get_expected_size E n f [] = Raise e ->
  ~ (exists fld, e = EUndefinedSize fld \/ e = EMissingRequired fld) ->
  get_size E n cid = Raise e.
Proof. exact get_size_raises. Qed.
Print Assumptions C34_get_size_raises.

Example C34_get_size_example :
  get_size ref_E 5 0 = Ok None /\ get_size dflt_E 5 0 = Ok (Some 2)
  /\ get_size bad_dflt_E 5 0 = Raise EUnicodeEncode.
Proof. repeat split. Qed.

Theorem C34_fixed_dump : forall E n cid vals ctx out all sizes,
  fixed_sizes (k_comps (cls E cid)) sizes ->
  struct_to_stream E n cid vals ctx = (out, Ok tt) -> to_dict E n cid vals false = Ok all ->
  (forall name f, In (name, f) (k_comps (cls E cid)) -> written ctx all f) ->
  get_size E n cid = Ok (Some (zlen out)).
Proof. exact dump_fixed. Qed.
Print Assumptions C34_fixed_dump.

Theorem C34_len_fixed : forall E n cid vals w sizes, fixed_sizes (k_comps (cls E cid)) sizes ->
  to_dict_whatever_possible E n cid vals = Ok w -> 0 <= sum sizes ->
  struct_len E n cid vals = Ok (sum sizes).
Proof. exact len_fixed. Qed.
Print Assumptions C34_len_fixed.

(** Python does not allow a negative length. *)
Theorem C34_len_negative : forall E n cid vals w sizes, fixed_sizes (k_comps (cls E cid)) sizes ->
  to_dict_whatever_possible E n cid vals = Ok w -> sum sizes < 0 ->
  struct_len E n cid vals = Raise EValueErr.
Proof. exact len_negative. Qed.
Print Assumptions C34_len_negative.

Example C34_len_negative_example :
  let E := [class_of "T" [named "a" (Field (basic "a" (SInt (-1))) KBytes)]] in
  fixed_sizes (k_comps (cls E 0)) [-1] /\ to_dict_whatever_possible E 5 0 [("a"%string, VBytes [1])] = Ok [("a"%string, VBytes [1])].
Proof. split; [repeat constructor|reflexivity]. Qed.

Theorem C34_len : forall E n cid vals out, instance_of E cid vals -> plain_data vals ->
  (forall name f, In (name, f) (k_comps (cls E cid)) -> simple f /\ measurable E f) ->
  (forall name f v, In (name, f) (k_comps (cls E cid)) -> own_value vals name (conf f) v ->
     v <> VNone /\ v <> VDefault) ->
  struct_to_stream E n cid vals VNone = (out, Ok tt) -> struct_len E n cid vals = Ok (zlen out).
Proof. exact len_agrees. Qed.
Print Assumptions C34_len.

Example C34_example :
  instance_of plain_E 0 plain_vals /\ plain_data plain_vals
  /\ (forall name f, In (name, f) (k_comps (cls plain_E 0)) -> simple f /\ measurable plain_E f)
  /\ (forall name f v, In (name, f) (k_comps (cls plain_E 0)) ->
        own_value plain_vals name (conf f) v -> v <> VNone /\ v <> VDefault)
  /\ struct_len plain_E 9 0 plain_vals = Ok 7
  /\ fixed_sizes (k_comps (cls opt_E 0)) [1; 1; 1].
Proof.
  exact (conj plain_instance (conj plain_plain_data (conj plain_measurable (conj plain_not_null
          (conj eq_refl opt_fixed))))).
Qed.

Theorem C34_get_size_refuted :
  get_size dflt_E 5 0 = Ok (Some 2)
  /\ struct_to_stream dflt_E 5 0 [("s"%string, VStr [97; 98; 99])] VNone = ([97; 98; 99; 0], Ok tt)
  /\ (let vals := [("flag"%string, VInt 0); ("y"%string, VInt 7)] in
      struct_to_stream opt_E 5 0 vals VNone = ([0; 7], Ok tt)
      /\ struct_len opt_E 5 0 vals = Ok 3).
Proof. exact size_witness. Qed.
Print Assumptions C34_get_size_refuted.

(** C35 *)
Theorem C35_history : forall E cid ops vals, instance_of E cid vals ->
  instance_of E cid (after_all E cid vals ops)
  /\ exists m, abstract_run E cid (dget vals) ops m
       /\ forall name, m name = dget (after_all E cid vals ops) name.
Proof. exact history_refines. Qed.
Print Assumptions C35_history.

Theorem C35_last_write : forall E n cid vals ops1 name v ops2, instance_of E cid vals ->
  assignable E cid name v -> (forall o, In o ops2 -> op_name o <> name) ->
  struct_get E n cid (after_all E cid vals (ops1 ++ OpSet name v :: ops2)) name = Ok v.
Proof. exact last_write. Qed.
Print Assumptions C35_last_write.

Theorem C35_other_fields : forall E cid ops vals name, instance_of E cid vals ->
  (forall o, In o ops -> op_name o <> name) ->
  dget (after_all E cid vals ops) name = dget vals name.
Proof. exact untouched. Qed.
Print Assumptions C35_other_fields.

Theorem C35_read_stored : forall E n cid vals name v, instance_of E cid vals ->
  dget vals name = Some v -> struct_get E n cid vals name = Ok v.
Proof. exact read_stored. Qed.
Print Assumptions C35_read_stored.

Theorem C35_read_default : forall E n cid vals name f v, instance_of E cid vals ->
  In (name, f) (k_comps (cls E cid)) -> dget vals name = None ->
  c_default (conf f) = v -> c_factory (conf f) = None -> v <> VUndefined -> v <> VNotPresent ->
  (forall mem get keys, run_q mem get keys (c_present (conf f) VNone None) = Ok true) ->
  struct_get E (S n) cid vals name = Ok v.
Proof. exact read_default. Qed.
Print Assumptions C35_read_default.

Theorem C35_read_computed : forall E n cid vals name f, instance_of E cid vals ->
  In (name, f) (k_comps (cls E cid)) -> dget vals name = None ->
  struct_get E (S n) cid vals name
  = run_struct E n cid vals (compute_value_for_dump (conf f) VNone).
Proof. exact read_unset. Qed.
Print Assumptions C35_read_computed.

Theorem C35_unknown_write : forall E cid vals o,
  ~ In (op_name o) (map fst (k_comps (cls E cid))) ->
  perform E cid vals o = Raise (EKeyErr (op_name o)).
Proof. exact unknown_name. Qed.
Print Assumptions C35_unknown_write.

Theorem C35_unknown_read : forall E n cid vals name,
  ~ In name (map fst (k_comps (cls E cid))) ->
  struct_get E n cid vals name = Raise (EKeyErr name).
Proof. exact unknown_read. Qed.
Print Assumptions C35_unknown_read.

Theorem C35_immutable_raises : forall E cid vals name f v, instance_of E cid vals ->
  In (name, f) (k_comps (cls E cid)) ->
  c_compute (conf f) <> None \/ c_const (conf f) <> VUndefined ->
  perform E cid vals (OpSet name v) = Raise (EImmutable (Some name)).
Proof. exact immutable_raises. Qed.
Print Assumptions C35_immutable_raises.

Theorem C35_immutable : forall E cid ops vals name f, instance_of E cid vals ->
  In (name, f) (k_comps (cls E cid)) ->
  c_compute (conf f) <> None \/ c_const (conf f) <> VUndefined ->
  dget (after_all E cid vals ops) name = dget vals name
  \/ dget (after_all E cid vals ops) name = None.
Proof. exact immutable_never_set. Qed.
Print Assumptions C35_immutable.

Theorem C35_instances : forall E cid,
  (forall values vals, well_formed (cls E cid) -> NoDup (dkeys values) ->
     struct_init E cid values = Ok vals -> instance_of E cid vals)
  /\ (forall n ctx kw s s' vals, well_formed (cls E cid) -> NoDup (dkeys kw) ->
     struct_from_stream E n cid ctx kw s = (s', Ok vals) -> instance_of E cid vals).
Proof. exact (fun E cid => conj (init_instance E cid) (fun n ctx kw s s' vals => load_instance E n cid ctx kw s s' vals)). Qed.
Print Assumptions C35_instances.

Theorem C35_iteration : forall vals name, NoDup (dkeys vals) ->
  (In name (struct_keys vals) <-> exists v, dget vals name = Some v /\ v <> VUndefined).
Proof. exact struct_keys_in. Qed.
Print Assumptions C35_iteration.

Example C35_example :
  instance_of hist_E 0 [] /\ assignable hist_E 0 "a" (VInt 5)
  /\ after_all hist_E 0 [] [OpSet "a" (VInt 1); OpSet "a" (VInt 5); OpSet "a" (VInt 12);
                            OpSet "k" (VInt 4); OpSet "zz" (VInt 0); OpDel "k"]
     = [("a"%string, VInt 5)]
  /\ struct_get hist_E 3 0 [("a"%string, VInt 5)] "k" = Ok (VInt 3).
Proof. exact (conj hist_instance (conj hist_assignable (conj eq_refl eq_refl))). Qed.
