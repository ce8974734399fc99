(** Property theorems: what every field does around its own codec (C17-C26).
    Vocabulary: Spec.v ([always_present], [accepts], [declared_size]), SpecField.v
    ([resolved], [null_form], [validated]), VarintSpec.v ([at_data], [after_data]).
    [E] is the table of struct classes, [n] the fuel, [ctx] the context, [d] the values of
    the surrounding struct. *)
From Verif Require Import SpecField Samples StructProofs Decimal.

(** C17: the field may be of any class, with any configuration. *)
Theorem C17_dump_size : forall E n f v ctx d out size,
  field_to_stream E n f v ctx d = (out, Ok tt) ->
  declared_size (conf f) d size ->
  v <> VNone -> (v = VDefault -> default_of (conf f) <> Ok VNone) ->
  zlen out = size.
Proof. exact field_dump_size. Qed.
Print Assumptions C17_dump_size.

(** For None the null representation is written, whatever its length. *)
Theorem C17_none_ignores_size : forall E n f ctx d nb,
  c_null (conf f) = VBytes nb -> accepts (conf f) VNone ->
  field_to_stream E n f VNone ctx d = (nb, Ok tt).
Proof. exact none_dump_bytes. Qed.
Print Assumptions C17_none_ignores_size.

Example C17_example :
  let arr := Field (basic "a" (SInt 3)) (KArray (u8 (byte "x")) CntNone None) in
  field_to_stream [] 2 arr (VList [VInt 1; VInt 2; VInt 3]) VNone [] = ([1; 2; 3], Ok tt)
  /\ field_to_stream [] 2 arr (VList [VInt 1; VInt 2]) VNone []
     = ([], Raise (EValueSize (Some "a"%string)))
  /\ declared_size (conf arr) [] 3
  /\ field_to_stream [] 2 (u8 (with_null (VBytes [9; 9]) (byte "x"))) VNone VNone []
     = ([9; 9], Ok tt).
Proof. repeat split; try reflexivity. left. reflexivity. Qed.

(** C18 *)
Theorem C18_failed_dump_writes_nothing : forall E n f v ctx d out r,
  field_to_stream E n f v ctx d = (out, r) -> is_ok r = false -> out = [].
Proof. exact field_dump_atomic. Qed.
Print Assumptions C18_failed_dump_writes_nothing.

(** The third element does not fit: the two already written never reach the stream. *)
Example C18_example :
  field_to_stream [] 2 (Field (basic "a" SNone) (KArray (u8 (byte "x")) CntNone None))
    (VList [VInt 1; VInt 2; VInt 300]) VNone []
  = ([], Raise (EUnserializable (Some "x"%string))).
Proof. reflexivity. Qed.

(** C19 *)
Theorem C19_none_dump : forall E n f ctx d nb,
  null_form E n f d nb -> accepts (conf f) VNone ->
  field_to_stream E n f VNone ctx d = (nb, Ok tt).
Proof. exact none_dump. Qed.
Print Assumptions C19_none_dump.

Theorem C19_none_load : forall E n f ctx d nb pre suf,
  null_form E n f d nb -> always_present (conf f) -> accepts (conf f) VNone ->
  field_from_stream E n f ctx d (at_data pre nb suf) = (after_data pre nb suf, Ok VNone).
Proof. exact none_load_at. Qed.
Print Assumptions C19_none_load.

Theorem C19_none_refused : forall E n f ctx d,
  c_null (conf f) = VUndefined -> accepts (conf f) VNone ->
  field_to_stream E n f VNone ctx d = ([], Raise (EUnserializable (c_name (conf f)))).
Proof. exact none_refused. Qed.
Print Assumptions C19_none_refused.

(** A null value that is an ordinary value is written the way that value is. *)
Theorem C19_none_as_value : forall E n c k nv ctx d bs,
  leaf_kind k = true -> (forall cd pad, k <> KStringZ cd pad) ->
  c_null c = nv ->
  is_data nv = true -> (forall b, nv <> VBytes b) -> accepts c nv -> accepts c VNone ->
  field_to_stream E n (Field c k) nv ctx d = (bs, Ok tt) ->
  field_to_stream E n (Field c k) VNone ctx d = (bs, Ok tt).
Proof. exact none_as_value. Qed.
Print Assumptions C19_none_as_value.

(** [null_value=DEFAULT] needs a size: without one a field set to None cannot be dumped, and
    nothing at all can be loaded through it. *)
Theorem C19_default_unsized_dump : forall E n f ctx d,
  c_null (conf f) = VDefault -> c_size (conf f) = SNone ->
  oget d (c_name (conf f)) = Some VNone -> accepts (conf f) VNone ->
  field_to_stream E n f VNone ctx d = ([], Raise (EBuggyField (c_name (conf f)))).
Proof. exact null_default_unsized_dump. Qed.
Print Assumptions C19_default_unsized_dump.

Theorem C19_default_unsized_load : forall E n f ctx d s,
  c_null (conf f) = VDefault -> c_size (conf f) = SNone ->
  oget d (c_name (conf f)) = None -> default_of (conf f) = Ok VUndefined ->
  always_present (conf f) ->
  field_from_stream E n f ctx d s = (s, Raise (ECannotDetermineNull (c_name (conf f)))).
Proof. exact null_default_unsized_load. Qed.
Print Assumptions C19_default_unsized_load.

Example C19_example :
  let f := Field (with_null VDefault (basic "x" (SInt 3))) (KInt true Big) in
  null_form [] 1 f [] [0; 0; 0] /\ accepts (conf f) VNone /\ always_present (conf f)
  /\ field_to_stream [] 1 f VNone VNone [] = ([0; 0; 0], Ok tt)
  /\ field_from_stream [] 1 f VNone [] (at_data [7] [0; 0; 0] [8])
     = (after_data [7] [0; 0; 0] [8], Ok VNone)
  /\ field_to_stream [] 1 (u8 (byte "x")) VNone VNone []
     = ([], Raise (EUnserializable (Some "x"%string))).
Proof.
  repeat split; try reflexivity; try constructor.
  exists 3. split; [left|]; reflexivity.
Qed.

(** C20: [do_load] is the field's own codec; the null check sits in front of it. *)
Theorem C20_value_survives_iff : forall E n f ctx d nb s s' v,
  null_form E n f d nb -> always_present (conf f) -> c_const (conf f) = VUndefined ->
  accepts (conf f) v -> do_load E n f ctx d s = (s', Ok v) -> v <> VNone ->
  py_eq E n v (c_null (conf f)) = Ok false ->
  (field_from_stream E n f ctx d s = (s', Ok v) <-> forall suf, rest s <> nb ++ suf).
Proof. exact null_roundtrip_iff. Qed.
Print Assumptions C20_value_survives_iff.

Theorem C20_null_prefix_gives_none : forall E n f ctx d nb suf s,
  null_form E n f d nb -> always_present (conf f) -> accepts (conf f) VNone ->
  rest s = nb ++ suf ->
  field_from_stream E n f ctx d s = (advance s (length nb), Ok VNone).
Proof. exact none_load. Qed.
Print Assumptions C20_null_prefix_gives_none.

Theorem C20_null_value_gives_none : forall E n f ctx d nb s s' v,
  null_form E n f d nb -> always_present (conf f) ->
  (forall suf, rest s <> nb ++ suf) ->
  do_load E n f ctx d s = (s', Ok v) ->
  py_eq E n v (c_null (conf f)) = Ok true ->
  c_const (conf f) = VUndefined -> accepts (conf f) VNone ->
  field_from_stream E n f ctx d s = (s', Ok VNone).
Proof. exact load_equals_null. Qed.
Print Assumptions C20_null_value_gives_none.

(** The whole way there and back for an integer with a byte-string null. *)
Theorem C20_integer_roundtrip_iff : forall E n c sg e size nb v ctx ctx' d d' bs pre suf,
  c_size c = SInt size -> c_null c = VBytes nb -> always_present c ->
  c_const c = VUndefined -> accepts c (VInt v) ->
  field_to_stream E (S n) (Field c (KInt sg e)) (VInt v) ctx d = (bs, Ok tt) ->
  (field_from_stream E (S n) (Field c (KInt sg e)) ctx' d' (at_data pre bs suf)
   = (after_data pre bs suf, Ok (VInt v))
   <-> forall suf', bs ++ suf <> nb ++ suf').
Proof. exact null_integer_iff. Qed.
Print Assumptions C20_integer_roundtrip_iff.

(** With an integer null value every other integer survives. *)
Theorem C20_integer_null_value : forall E n c sg e size nv v ctx ctx' d d' bs pre suf,
  c_size c = SInt size -> c_null c = VInt nv -> always_present c ->
  c_const c = VUndefined -> accepts c (VInt v) -> int_range sg size nv -> v <> nv ->
  field_to_stream E (S n) (Field c (KInt sg e)) (VInt v) ctx d = (bs, Ok tt) ->
  field_from_stream E (S n) (Field c (KInt sg e)) ctx' d' (at_data pre bs suf)
  = (after_data pre bs suf, Ok (VInt v)).
Proof. exact null_integer_value. Qed.
Print Assumptions C20_integer_null_value.

(** A one-byte null swallows the first byte of a two-byte number. *)
Example C20_example :
  let f := Field (with_null (VBytes [1]) (basic "x" (SInt 2))) (KInt false Big) in
  field_to_stream [] 1 f (VInt 256) VNone [] = ([1; 0], Ok tt)
  /\ field_from_stream [] 1 f VNone [] (mkStream [1; 0] 0) = (mkStream [1; 0] 1, Ok VNone)
  /\ field_from_stream [] 1 f VNone [] (mkStream [2; 0] 0) = (mkStream [2; 0] 2, Ok (VInt 512)).
Proof. repeat split; reflexivity. Qed.

(** C21 *)
Theorem C21_load_ok_only_const : forall E n f ctx d s s' v,
  always_present (conf f) -> c_null (conf f) = VUndefined -> c_const (conf f) <> VUndefined ->
  field_from_stream E n f ctx d s = (s', Ok v) ->
  py_eq E n v (c_const (conf f)) = Ok true.
Proof. exact const_load_ok. Qed.
Print Assumptions C21_load_ok_only_const.

Theorem C21_load_mismatch : forall E n f ctx d s s' v,
  always_present (conf f) -> c_null (conf f) = VUndefined -> c_const (conf f) <> VUndefined ->
  do_load E n f ctx d s = (s', Ok v) -> py_eq E n v (c_const (conf f)) = Ok false ->
  field_from_stream E n f ctx d s = (s', Raise (EValidation (c_name (conf f)))).
Proof. exact const_load_mismatch. Qed.
Print Assumptions C21_load_mismatch.

Theorem C21_assignment_fails : forall E cid vals name f v,
  assoc (k_comps (cls E cid)) name = Some f ->
  c_const (conf f) <> VUndefined \/ c_compute (conf f) <> None ->
  struct_setitem E cid vals name v = Raise (EImmutable (c_name (conf f))).
Proof. exact setitem_immutable. Qed.
Print Assumptions C21_assignment_fails.

(** The contract "a const field always has this value when dumped" fails: a value given to
    the constructor is dumped as it is, and the result cannot be loaded again. *)
Theorem C21_const_on_dump_refuted : exists E cid vals name f bs s' e,
  assoc (k_comps (cls E cid)) name = Some f /\ c_const (conf f) = VInt 7
  /\ struct_init E cid [(name, VInt 9)] = Ok vals
  /\ struct_to_bytes E 5 cid vals VNone = Ok bs /\ bs = [9]
  /\ struct_from_stream E 5 cid VNone [] (mkStream bs 0) = (s', Raise e)
  /\ e = EValidation (Some name).
Proof.
  exists [class_of "T" [named "x" (u8 (with_const (VInt 7) (byte "x")))]], 0%nat,
    [("x"%string, VInt 9)], "x"%string, (u8 (with_const (VInt 7) (byte "x"))), [9],
    (mkStream [9] 1), (EValidation (Some "x"%string)).
  repeat split; reflexivity.
Qed.
Print Assumptions C21_const_on_dump_refuted.

Example C21_example :
  let f := u8 (with_const (VInt 7) (byte "x")) in
  field_from_stream [] 2 f VNone [] (mkStream [7; 1] 0) = (mkStream [7; 1] 1, Ok (VInt 7))
  /\ field_from_stream [] 2 f VNone [] (mkStream [8; 1] 0)
     = (mkStream [8; 1] 1, Raise (EValidation (Some "x"%string)))
  /\ struct_setitem [class_of "T" [named "x" f]] 0 [] "x" (VInt 7)
     = Raise (EImmutable (Some "x"%string)).
Proof. repeat split; reflexivity. Qed.

(** C22 *)
Theorem C22_exact_iff : forall E n f data ctx d v,
  field_from_bytes E n f data ctx true d = Ok v
  <-> field_from_stream E n f ctx d (mkStream data 0) = (mkStream data (length data), Ok v).
Proof. exact from_bytes_exact_all. Qed.
Print Assumptions C22_exact_iff.

Theorem C22_leftover : forall E n f data ctx d s' v,
  field_from_stream E n f ctx d (mkStream data 0) = (s', Ok v) -> tell s' < zlen data ->
  field_from_bytes E n f data ctx true d = Raise (EExtraneous None)
  /\ field_from_bytes E n f data ctx false d = Ok v.
Proof. exact from_bytes_extraneous. Qed.
Print Assumptions C22_leftover.

(** to_bytes gives what to_stream writes, or raises what it raises. *)
Theorem C22_to_bytes : forall E n f v ctx d,
  (forall bs, field_to_bytes E n f v ctx d = Ok bs <-> field_to_stream E n f v ctx d = (bs, Ok tt))
  /\ (forall e, field_to_bytes E n f v ctx d = Raise e <-> exists bs, field_to_stream E n f v ctx d = (bs, Raise e)).
Proof. exact to_bytes_stream. Qed.
Print Assumptions C22_to_bytes.

Theorem C22_struct_to_bytes : forall E n cid vals ctx,
  (forall bs, struct_to_bytes E n cid vals ctx = Ok bs <-> struct_to_stream E n cid vals ctx = (bs, Ok tt))
  /\ (forall e, struct_to_bytes E n cid vals ctx = Raise e
        <-> exists bs, struct_to_stream E n cid vals ctx = (bs, Raise e)).
Proof. exact struct_to_bytes_stream. Qed.
Print Assumptions C22_struct_to_bytes.

Example C22_example :
  field_from_bytes [] 1 (u8 (byte "x")) [5] VNone true [] = Ok (VInt 5)
  /\ field_from_bytes [] 1 (u8 (byte "x")) [5; 6] VNone true [] = Raise (EExtraneous None)
  /\ field_from_bytes [] 1 (u8 (byte "x")) [5; 6] VNone false [] = Ok (VInt 5)
  /\ field_to_bytes [] 1 (u8 (byte "x")) (VInt 5) VNone [] = Ok [5].
Proof. repeat split; reflexivity. Qed.

(** C23: what the code does with left-over bytes. *)
Theorem C23_leftover : forall E n cid data ctx kw s' vals,
  struct_from_stream E n cid ctx kw (mkStream data 0) = (s', Ok vals) ->
  (zlen data - tell s' <= 1 -> struct_from_bytes E n cid data ctx true kw = Ok vals)
  /\ (2 <= zlen data - tell s' ->
      struct_from_bytes E n cid data ctx true kw = Raise (EExtraneous None))
  /\ struct_from_bytes E n cid data ctx false kw = Ok vals.
Proof. exact struct_from_bytes_leftover. Qed.
Print Assumptions C23_leftover.

(** The documented contract, for every class at once, is wrong: whenever a struct loads and
    exactly one byte is left, exact=True accepts. *)
Theorem C23_exact_accepts_one_byte_refuted : exists E cid data s' vals,
  struct_from_stream E 3 cid VNone [] (mkStream data 0) = (s', Ok vals)
  /\ tell s' < zlen data
  /\ struct_from_bytes E 3 cid data VNone true [] = Ok vals.
Proof.
  exists [class_of "T" [named "x" (u8 (byte "x"))]], 0%nat, [5; 6], (mkStream [5; 6] 1),
         [("x"%string, VInt 5)].
  repeat split; reflexivity.
Qed.
Print Assumptions C23_exact_accepts_one_byte_refuted.

Example C23_example :
  let E := [class_of "T" [named "x" (u8 (byte "x"))]] in
  struct_from_bytes E 3 0 [5] VNone true [] = Ok [("x"%string, VInt 5)]
  /\ struct_from_bytes E 3 0 [5; 6; 7] VNone true [] = Raise (EExtraneous None).
Proof. split; reflexivity. Qed.

(** C24 *)
Theorem C24_load_validated : forall E n f ctx d s s' v,
  field_from_stream E n f ctx d s = (s', Ok v) ->
  run_dict d (c_present (conf f) ctx (Some s)) = Ok true ->
  accepts (conf f) v.
Proof. exact load_validated. Qed.
Print Assumptions C24_load_validated.

Theorem C24_dump_validated : forall E n f v ctx d out,
  field_to_stream E n f v ctx d = (out, Ok tt) ->
  exists w, resolved (conf f) v w /\ accepts (conf f) w.
Proof. exact dump_validated. Qed.
Print Assumptions C24_dump_validated.

(** The first validator that rejects decides the error. *)
Theorem C24_dump_rejected : forall E n f v w ctx d pre check post e,
  resolved (conf f) v w -> w <> VUndefined -> w <> VDefault ->
  c_validators (conf f) = pre ++ check :: post ->
  Forall (fun g => g w = Ok tt) pre -> check w = Raise e ->
  field_to_stream E n f v ctx d = ([], Raise e).
Proof. exact dump_rejected. Qed.
Print Assumptions C24_dump_rejected.

Theorem C24_load_rejected : forall E n f ctx d s s' v pre check post e,
  always_present (conf f) -> c_null (conf f) = VUndefined -> c_const (conf f) = VUndefined ->
  do_load E n f ctx d s = (s', Ok v) ->
  c_validators (conf f) = pre ++ check :: post ->
  Forall (fun g => g v = Ok tt) pre -> check v = Raise e ->
  field_from_stream E n f ctx d s = (s', Raise e).
Proof. exact load_rejected. Qed.
Print Assumptions C24_load_rejected.

(** Whole structs: dumping and loading happen only if every validator (of each field, each
    method validator, each struct validator) accepts. *)
Theorem C24_struct_dump_validated : forall E n cid vals ctx out,
  struct_to_stream E n cid vals ctx = (out, Ok tt) -> validated E n cid vals.
Proof. exact struct_dump_validated. Qed.
Print Assumptions C24_struct_dump_validated.

Theorem C24_struct_load_validated : forall E n cid ctx kw s s' vals,
  well_formed (cls E cid) -> NoDup (dkeys kw) ->
  struct_from_stream E n cid ctx kw s = (s', Ok vals) ->
  exists d, loads E n ctx (k_comps (cls E cid)) kw s d s' /\ validated E n cid d.
Proof. exact struct_load_validated. Qed.
Print Assumptions C24_struct_load_validated.

(** If validation fails, a struct dump writes nothing and raises that error. *)
Theorem C24_struct_dump_rejected : forall E n cid vals ctx e,
  validate_contents E n cid vals = Raise e ->
  struct_to_stream E n cid vals ctx = ([], Raise e).
Proof. exact struct_dump_rejected. Qed.
Print Assumptions C24_struct_dump_rejected.

Example C24_example :
  let f := u8 (with_validators [at_most_9] (byte "x")) in
  let E := [class_of "T" [named "x" f]] in
  field_to_stream [] 1 f (VInt 9) VNone [] = ([9], Ok tt)
  /\ field_to_stream [] 1 f (VInt 10) VNone [] = ([], Raise (EValidation (Some "x"%string)))
  /\ field_from_stream [] 1 f VNone [] (mkStream [10] 0)
     = (mkStream [10] 1, Raise (EValidation (Some "x"%string)))
  /\ struct_to_bytes E 5 0 [("x"%string, VInt 9)] VNone = Ok [9]
  /\ struct_to_bytes E 5 0 [("x"%string, VInt 10)] VNone = Raise (EValidation (Some "x"%string))
  /\ struct_from_bytes E 5 0 [10] VNone true [] = Raise (EValidation (Some "x"%string)).
Proof. repeat split; reflexivity. Qed.

(** C25 *)
Theorem C25_absent_load : forall E n f ctx d s,
  run_dict d (c_present (conf f) ctx (Some s)) = Ok false ->
  field_from_stream E n f ctx d s = (s, Ok (c_npv (conf f))).
Proof. exact absent_load. Qed.
Print Assumptions C25_absent_load.

(** Its contribution to the output of a struct dump ([field_part], see C28) is empty, even
    if the field has a value in [d]. *)
Theorem C25_absent_dump : forall E n ctx d nf bs,
  run_dict d (c_present (conf (snd nf)) ctx None) = Ok false ->
  field_part E n ctx d nf bs -> bs = [].
Proof. exact absent_part. Qed.
Print Assumptions C25_absent_dump.

Example C25_example :
  let E := [class_of "T" [named "flag" (u8 (byte "flag"));
                          named "x" (u8 (with_present if_flag VNone (byte "x")));
                          named "y" (u8 (byte "y"))]] in
  struct_to_bytes E 5 0 [("flag"%string, VInt 0); ("x"%string, VInt 5); ("y"%string, VInt 6)] VNone
  = Ok [0; 6]
  /\ struct_to_bytes E 5 0 [("flag"%string, VInt 1); ("x"%string, VInt 5); ("y"%string, VInt 6)] VNone
  = Ok [1; 5; 6]
  /\ struct_from_bytes E 5 0 [0; 6] VNone true []
  = Ok [("flag"%string, VInt 0); ("x"%string, VNone); ("y"%string, VInt 6)].
Proof. repeat split; reflexivity. Qed.

(** C26 *)
Theorem C26_explicit : forall c ctx d nm v,
  c_name c = Some nm -> dget d nm = Some v ->
  v <> VUndefined -> v <> VNotPresent -> run_dict d (c_present c ctx None) = Ok true ->
  run_dict d (compute_value_for_dump c ctx) = Ok v.
Proof. exact value_explicit. Qed.
Print Assumptions C26_explicit.

Theorem C26_default : forall c ctx d v,
  oget d (c_name c) = None -> c_default c <> VUndefined ->
  default_of c = Ok v -> v <> VUndefined -> v <> VNotPresent ->
  run_dict d (c_present c ctx None) = Ok true ->
  run_dict d (compute_value_for_dump c ctx) = Ok v.
Proof. exact value_default. Qed.
Print Assumptions C26_default.

Theorem C26_computed : forall c ctx d q v,
  oget d (c_name c) = None -> c_default c = VUndefined ->
  c_compute c = Some q -> run_dict d q = Ok v -> v <> VUndefined -> v <> VNotPresent ->
  run_dict d (c_present c ctx None) = Ok true ->
  run_dict d (compute_value_for_dump c ctx) = Ok v.
Proof. exact value_computed. Qed.
Print Assumptions C26_computed.

Theorem C26_missing : forall c ctx d,
  oget d (c_name c) = None -> c_default c = VUndefined ->
  c_compute c = None -> run_dict d (c_present c ctx None) = Ok true ->
  run_dict d (compute_value_for_dump c ctx) = Raise (EMissingRequired (c_name c)).
Proof. exact value_missing. Qed.
Print Assumptions C26_missing.

Theorem C26_not_present_value : forall c ctx d nm,
  c_name c = Some nm -> dget d nm = Some VNotPresent ->
  run_dict d (compute_value_for_dump c ctx) = Ok VNotPresent.
Proof. exact value_not_present. Qed.
Print Assumptions C26_not_present_value.

Theorem C26_absent_explicit : forall c ctx d nm v,
  c_name c = Some nm -> dget d nm = Some v ->
  run_dict d (c_present c ctx None) = Ok false ->
  run_dict d (compute_value_for_dump c ctx) = Ok VNotPresent.
Proof. exact value_absent_explicit. Qed.
Print Assumptions C26_absent_explicit.

Theorem C26_absent_unset : forall c ctx d v,
  oget d (c_name c) = None -> c_compute c = None -> default_of c = Ok v ->
  run_dict d (c_present c ctx None) = Ok false ->
  run_dict d (compute_value_for_dump c ctx) = Ok VNotPresent.
Proof. exact value_absent_unset. Qed.
Print Assumptions C26_absent_unset.

(** Field.to_stream called without a value. *)
Theorem C26_no_value : forall E n f ctx d,
  field_to_stream E n f VUndefined ctx d = ([], Raise (EMissingRequired (c_name (conf f))))
  /\ (forall e, c_factory (conf f) = Some (inr e) -> field_to_stream E n f VDefault ctx d = ([], Raise e))
  /\ (forall w, c_factory (conf f) = Some (inl w) \/ c_factory (conf f) = None /\ c_default (conf f) = w ->
        w <> VDefault -> field_to_stream E n f VDefault ctx d = field_to_stream E n f w ctx d).
Proof. exact dump_default. Qed.
Print Assumptions C26_no_value.

(** The contract "a factory supplies the default" fails when a struct is dumped. *)
Theorem C26_factory_refuted : exists E cid f v,
  assoc (k_comps (cls E cid)) "x" = Some f /\ c_factory (conf f) = Some (inl v)
  /\ default_of (conf f) = Ok v /\ v = VInt 5
  /\ struct_to_bytes E 5 cid [] VNone = Raise (EMissingRequired (Some "x"%string))
  /\ struct_to_bytes E 5 cid [("x"%string, v)] VNone = Ok [5].
Proof.
  exists [class_of "T" [named "x" (u8 (with_factory (VInt 5) (byte "x")))]], 0%nat,
         (u8 (with_factory (VInt 5) (byte "x"))), (VInt 5).
  repeat split; reflexivity.
Qed.
Print Assumptions C26_factory_refuted.

Example C26_example :
  let f := with_compute (QGet "n" (fun r => match r with inl v => QRet v | inr e => QRaise e end))
             (byte "x") in
  run_dict [("n"%string, VInt 3)] (compute_value_for_dump f VNone) = Ok (VInt 3)
  /\ run_dict [("n"%string, VInt 3); ("x"%string, VInt 4)] (compute_value_for_dump f VNone)
     = Ok (VInt 4)
  /\ run_dict [("n"%string, VInt 3)] (compute_value_for_dump (with_default (VInt 8) f) VNone)
     = Ok (VInt 8)
  /\ run_dict [] (compute_value_for_dump (byte "x") VNone)
     = Raise (EMissingRequired (Some "x"%string)).
Proof. repeat split; reflexivity. Qed.
