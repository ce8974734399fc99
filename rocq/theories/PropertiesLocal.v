(** Property theorems: what errors of a load report (C61), and loads that depend on nothing
    but the bytes they consume (C62).  Specification vocabulary: SpecLoad.v, SpecLocal.v. *)
From Verif Require Import LocalWitness.

(** C61: an UnexpectedEOFError is raised only when the data ended: fewer than [size] bytes are
    there from [offset] on, [offset] is not before the start, and nothing is left to read. *)
Theorem C61_end_of_data : forall A E, robust_schema A E ->
  (forall e, A e -> is_UnexpectedEOFError e = false) -> forall n cid ctx s s' fld size offset,
  struct_from_stream E n cid ctx [] s = (s', Raise (EUnexpectedEOF fld size offset)) ->
  tell s <= offset /\ zlen (s_data s) < offset + size /\ rest s' = [].
Proof. exact struct_load_eof. Qed.
Print Assumptions C61_end_of_data.

(** The field of a DeserializationError is the first field of the struct that cannot be
    loaded (the outermost one, if the struct contains others). *)
Theorem C61_named_field : forall A E n cid ctx s s' e fld, robust_schema A E ->
  (forall e, A e -> is_DeserializationError e = false) ->
  struct_from_stream E n cid ctx [] s = (s', Raise e) -> named_field e = Some fld ->
  exists pre name f post d s1, k_comps (cls E cid) = pre ++ (name, f) :: post
    /\ fld = Some name /\ loads E n ctx pre [] s d s1
    /\ field_from_stream E n f ctx d s1 = (s', Raise e).
Proof. exact struct_load_named. Qed.
Print Assumptions C61_named_field.

Example C61_example : robust_schema invalid_only packet_E
  /\ (forall e, invalid_only e -> is_DeserializationError e = false)
  /\ struct_from_bytes packet_E 9 0 [77; 90; 0; 3; 1; 2] VNone true []
    = Raise (EUnexpectedEOF (Some "data"%string) 3 4)
  /\ struct_from_bytes packet_E 9 0 [77; 90; 0; 0; 5; 1] VNone true []
    = Raise (EUnexpectedEOF (Some "one"%string) 2 5).
Proof.
  split; [exact packet_robust|]. split; [intros e [fld ->]; reflexivity|exact report_loads].
Qed.

(** C62: a successful load depends on the bytes it consumes and on nothing else. *)
Theorem C62_self_delimiting : forall E, delimited_schema E -> forall n cid ctx s s1 vals,
  bytes_ok (rest s) -> struct_from_stream E n cid ctx [] s = (s1, Ok vals) ->
  exists bs suf, rest s = bs ++ suf /\ s1 = advance s (length bs)
    /\ forall s' suf', rest s' = bs ++ suf' ->
       struct_from_stream E n cid ctx [] s' = (advance s' (length bs), Ok vals).
Proof. exact struct_load_sd. Qed.
Print Assumptions C62_self_delimiting.

Theorem C62_appended : forall E n cid ctx data s1 vals extra, delimited_schema E -> bytes_ok data ->
  struct_from_stream E n cid ctx [] (mkStream data 0) = (s1, Ok vals) ->
  struct_from_stream E n cid ctx [] (mkStream (data ++ extra) 0)
  = (mkStream (data ++ extra) (s_pos s1), Ok vals).
Proof. exact load_appended. Qed.
Print Assumptions C62_appended.

Theorem C62_consumed : forall E n cid ctx data s1 vals, delimited_schema E -> bytes_ok data ->
  struct_from_stream E n cid ctx [] (mkStream data 0) = (s1, Ok vals) ->
  let used := firstn (s_pos s1) data in
  struct_from_stream E n cid ctx [] (mkStream used 0) = (mkStream used (length used), Ok vals).
Proof. exact load_consumed. Qed.
Print Assumptions C62_consumed.

(** Data cut off before the end of the struct is never taken for a struct. *)
Theorem C62_truncated : forall E n cid ctx data s1 vals k, delimited_schema E -> bytes_ok data ->
  struct_from_stream E n cid ctx [] (mkStream data 0) = (s1, Ok vals) -> (k < s_pos s1)%nat ->
  forall s2 vals', struct_from_stream E n cid ctx [] (mkStream (firstn k data) 0) <> (s2, Ok vals').
Proof. exact load_truncated. Qed.
Print Assumptions C62_truncated.

(** Structs stored back to back are read back one by one, wherever they start. *)
Theorem C62_sequence : forall E n cid ctx, delimited_schema E -> forall msgs vss,
  Forall2 (fun bs vals => bytes_ok bs /\
    struct_from_stream E n cid ctx [] (mkStream bs 0) = (mkStream bs (length bs), Ok vals)) msgs vss ->
  forall pre suf, reads_all E n cid ctx (mkStream (pre ++ concat msgs ++ suf) (length pre)) vss
    (mkStream (pre ++ concat msgs ++ suf) (length (pre ++ concat msgs))).
Proof. exact load_sequence. Qed.
Print Assumptions C62_sequence.

(** Arrays up to the end of the data and lengths that may be negative take whatever follows. *)
Theorem C62_greedy_refuted : exists E n cid data extra s1 vals s2 vals', bytes_ok (data ++ extra)
  /\ struct_from_stream E n cid VNone [] (mkStream data 0) = (s1, Ok vals)
  /\ struct_from_stream E n cid VNone [] (mkStream (data ++ extra) 0) = (s2, Ok vals')
  /\ vals <> vals'.
Proof.
  exists greedy_E, 9%nat, 1%nat, [255; 7], [8]. do 4 eexists.
  split; [apply bytes_ok_check; reflexivity|].
  split; [exact (proj1 (proj2 greedy_loads))|]. split; [exact (proj2 (proj2 greedy_loads))|discriminate].
Qed.
Print Assumptions C62_greedy_refuted.

Example C62_example : delimited_schema message_E
  /\ Forall2 (fun bs vals => bytes_ok bs /\
       struct_from_stream message_E 9 0 VNone [] (mkStream bs 0) = (mkStream bs (length bs), Ok vals))
       [message_1; message_2] [values_1; values_2].
Proof.
  split; [exact message_delimited|].
  constructor; [split; [apply bytes_ok_check; reflexivity|exact (proj1 messages_load)]|].
  constructor; [split; [apply bytes_ok_check; reflexivity|exact (proj2 messages_load)]|constructor].
Qed.
