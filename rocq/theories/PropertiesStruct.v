(** Property theorems: whole structs (C28-C31, C43).
    Vocabulary: SpecField.v ([field_part], [field_fails], [loads], [prefix_loads],
    [validated], [discarded], [well_formed], [forward]). *)
From Verif Require Import SpecField Samples StructProofs.

(** C28 *)
Theorem C28_dump_is_concatenation : forall E n cid vals ctx out,
  struct_to_stream E n cid vals ctx = (out, Ok tt)
  <-> exists all parts, validated E n cid vals /\ to_dict E n cid vals false = Ok all
      /\ Forall2 (field_part E n ctx all) (k_comps (cls E cid)) parts /\ out = concat parts.
Proof. exact struct_dump_iff. Qed.
Print Assumptions C28_dump_is_concatenation.

Theorem C28_failed_dump_prefix : forall E n cid vals ctx out r,
  is_ok r = false ->
  struct_to_stream E n cid vals ctx = (out, r) ->
  (out = [] /\ (validate_contents E n cid vals = r
                \/ exists r', to_dict E n cid vals false = r' /\ is_ok r' = false))
  \/ exists all pre nf post parts, to_dict E n cid vals false = Ok all
       /\ k_comps (cls E cid) = pre ++ nf :: post
       /\ Forall2 (field_part E n ctx all) pre parts
       /\ out = concat parts /\ field_fails E n ctx all nf r.
Proof. exact struct_dump_fail. Qed.
Print Assumptions C28_failed_dump_prefix.

Example C28_example :
  let E := [class_of "T" [named "a" (u8 (byte "a"));
                          named "b" (Field (basic "b" (SRef "a")) KBytes);
                          named "c" (Field (basic "c" (SInt 2)) (KInt false Big))]] in
  struct_to_stream E 5 0 [("a"%string, VInt 2); ("c"%string, VInt 515);
                          ("b"%string, VBytes [8; 9])] VNone = ([2; 8; 9; 2; 3], Ok tt)
  /\ struct_to_stream E 5 0 [("a"%string, VInt 2); ("c"%string, VInt 70000);
                             ("b"%string, VBytes [8; 9])] VNone
     = ([2; 8; 9], Raise (EUnserializable (Some "c"%string)))
  /\ struct_to_stream E 5 0 [("a"%string, VInt 2); ("b"%string, VBytes [8; 9])] VNone
     = ([], Raise (EMissingRequired (Some "c"%string))).
Proof. repeat split; reflexivity. Qed.

(** C29 *)
Theorem C29_load_in_order : forall E n cid ctx kw s s' vals,
  well_formed (cls E cid) -> NoDup (dkeys kw) ->
  struct_from_stream E n cid ctx kw s = (s', Ok vals)
  <-> exists d, loads E n ctx (k_comps (cls E cid)) kw s d s'
      /\ incl (dkeys kw) (map fst (k_comps (cls E cid)))
      /\ validated E n cid d
      /\ vals = filter (fun kv => negb (discarded (k_comps (cls E cid)) (fst kv))) d.
Proof. exact struct_load_iff. Qed.
Print Assumptions C29_load_in_order.

Theorem C29_init_kwargs_win : forall E n fs ctx d s d' s' name v,
  loads E n ctx fs d s d' s' -> dget d name = Some v -> dget d' name = Some v.
Proof. exact loads_override. Qed.
Print Assumptions C29_init_kwargs_win.

Theorem C29_loaded_value : forall E n fs ctx d s d' s' pre name f post,
  loads E n ctx fs d s d' s' ->
  fs = pre ++ (name, f) :: post -> NoDup (map fst fs) -> dget d name = None ->
  exists d1 s1 s2 v, loads E n ctx pre d s d1 s1
    /\ field_from_stream E n f ctx d1 s1 = (s2, Ok v) /\ dget d' name = Some v.
Proof. exact loads_value. Qed.
Print Assumptions C29_loaded_value.

Theorem C29_unknown_name : forall E n cid ctx kw s d s',
  loads E n ctx (k_comps (cls E cid)) kw s d s' ->
  ~ incl (dkeys kw) (map fst (k_comps (cls E cid))) ->
  exists extra, struct_from_stream E n cid ctx kw s = (s', Raise (EUnexpectedValue extra))
    /\ forall k, In k extra <-> In k (dkeys kw) /\ ~ In k (map fst (k_comps (cls E cid))).
Proof. exact struct_load_unknown. Qed.
Print Assumptions C29_unknown_name.

(** A failing field stops the load; nothing after it is read. *)
Theorem C29_first_failure : forall E n fs ctx d s s' r,
  is_ok r = false ->
  load_fields E (do_load E n) n fs ctx d s = (s', r) ->
  exists pre name f post d1 s1 r1, fs = pre ++ (name, f) :: post
    /\ loads E n ctx pre d s d1 s1 /\ field_from_stream E n f ctx d1 s1 = (s', r1)
    /\ match r1 with Raise e => r = Raise e | OOF => r = OOF | Ok _ => False end.
Proof. exact load_fields_fail. Qed.
Print Assumptions C29_first_failure.

Definition sample_E : env :=
  [class_of "T" [named "a" (u8 (byte "a"));
                 named "pad" (u8 (with_discard (byte "pad")));
                 named "b" (Field (basic "b" (SRef "a")) KBytes)]].

Lemma sample_wf : well_formed (cls sample_E 0).
Proof.
  split; [|split].
  - repeat constructor; cbn; intuition discriminate.
  - repeat constructor.
  - intros x. cbn. tauto.
Qed.

Example C29_example :
  struct_from_stream sample_E 5 0 VNone [] (mkStream [9; 2; 0; 7; 8; 5] 1)
  = (mkStream [9; 2; 0; 7; 8; 5] 5, Ok [("a"%string, VInt 2); ("b"%string, VBytes [7; 8])])
  /\ struct_from_stream sample_E 5 0 VNone [("a"%string, VInt 1)] (mkStream [2; 0; 7; 8] 0)
  = (mkStream [2; 0; 7; 8] 3, Ok [("a"%string, VInt 1); ("b"%string, VBytes [7])])
  /\ struct_from_stream sample_E 5 0 VNone [("z"%string, VInt 1)] (mkStream [2; 0; 7; 8] 0)
  = (mkStream [2; 0; 7; 8] 4, Raise (EUnexpectedValue ["z"%string]))
  /\ well_formed (cls sample_E 0).
Proof. repeat split; try reflexivity; apply sample_wf. Qed.

(** C30 *)
Theorem C30_partial_load : forall E n cid ctx s s' vals,
  well_formed (cls E cid) ->
  (partial_load E n cid None ctx s = (s', Ok vals)
   <-> exists pre post, k_comps (cls E cid) = pre ++ post /\ prefix_loads E n ctx pre [] s vals s'
       /\ match post with
          | [] => True
          | (_, f) :: _ => exists s1 e, field_from_stream E n f ctx vals s' = (s1, Raise e)
                                      /\ is_UnexpectedEOFError e = true
          end).
Proof. exact partial_load_none. Qed.
Print Assumptions C30_partial_load.

Theorem C30_partial_load_last : forall E n cid last ctx s s' vals,
  well_formed (cls E cid) ->
  (partial_load E n cid (Some last) ctx s = (s', Ok vals)
   <-> exists pre f post, k_comps (cls E cid) = pre ++ (last, f) :: post
       /\ prefix_loads E n ctx (pre ++ [(last, f)]) [] s vals s').
Proof. exact partial_load_last. Qed.
Print Assumptions C30_partial_load_last.

(** Without discard fields the prefix is read exactly as a full load reads it. *)
Theorem C30_prefix_of_full_load : forall E n fs ctx d s d' s',
  Forall (fun nf => c_discard (conf (snd nf)) = false) fs ->
  NoDup (map fst fs) -> (forall k, In k (map fst fs) -> ~ In k (dkeys d)) ->
  (prefix_loads E n ctx fs d s d' s' <-> loads E n ctx fs d s d' s').
Proof. exact prefix_is_loads. Qed.
Print Assumptions C30_prefix_of_full_load.

(** "Truncated data ends a partial load" fails for a StringZ: its truncation is an error. *)
Theorem C30_truncated_stringz_refuted : exists E s s' e,
  partial_load E 5 0 None VNone s = (s', Raise e)
  /\ e = EDeserialization (Some "z"%string) /\ rest s' = []
  /\ well_formed (cls E 0).
Proof.
  exists [class_of "T" [named "a" (u8 (byte "a"));
                        named "z" (Field (basic "z" SNone) (KStringZ Utf8 None))]],
         (mkStream [1; 65; 66] 0), (mkStream [1; 65; 66] 3), (EDeserialization (Some "z"%string)).
  split; [reflexivity|]. split; [reflexivity|]. split; [reflexivity|].
  split; [repeat constructor; cbn; intuition discriminate|]. split; [repeat constructor|].
  intros x. cbn. tauto.
Qed.
Print Assumptions C30_truncated_stringz_refuted.

(** "A partial load reads what a full load reads" fails after a discard field that a later
    field refers to: the full load sees its value, the partial load has dropped it. *)
Theorem C30_discard_reference_refuted : exists E s d s' e s2,
  struct_from_stream E 5 0 VNone [] s = (s', Ok d)
  /\ partial_load E 5 0 None VNone s = (s2, Raise e)
  /\ e = EMissingRequired (Some "n"%string).
Proof.
  exists [class_of "T" [named "n" (u8 (with_discard (byte "n")));
                        named "b" (Field (basic "b" (SRef "n")) KBytes)]],
         (mkStream [1; 65] 0), [("b"%string, VBytes [65])], (mkStream [1; 65] 2),
         (EMissingRequired (Some "n"%string)), (mkStream [1; 65] 1).
  repeat split; reflexivity.
Qed.
Print Assumptions C30_discard_reference_refuted.

Example C30_example :
  let E := [class_of "T" [named "a" (u8 (byte "a"));
                          named "b" (Field (basic "b" (SRef "a")) KBytes);
                          named "c" (u8 (byte "c"))]] in
  partial_load E 5 0 None VNone (mkStream [2; 7] 0)
  = (mkStream [2; 7] 1, Ok [("a"%string, VInt 2)])
  /\ partial_load E 5 0 None VNone (mkStream [1; 7; 3; 4] 0)
  = (mkStream [1; 7; 3; 4] 3, Ok [("a"%string, VInt 1); ("b"%string, VBytes [7]); ("c"%string, VInt 3)])
  /\ partial_load E 5 0 (Some "b"%string) VNone (mkStream [1; 7; 3; 4] 0)
  = (mkStream [1; 7; 3; 4] 2, Ok [("a"%string, VInt 1); ("b"%string, VBytes [7])])
  /\ partial_load E 5 0 (Some "b"%string) VNone (mkStream [2; 7] 0)
  = (mkStream [2; 7] 2, Raise (EUnexpectedEOF (Some "b"%string) 2 1)).
Proof. repeat split; reflexivity. Qed.

(** C31 *)
Theorem C31_get_field_restores : forall E n cid name ctx s,
  fst (get_field E n cid name ctx s) = s.
Proof. exact get_field_restores. Qed.
Print Assumptions C31_get_field_restores.

Example C31_example :
  let E := [class_of "T" [named "a" (u8 (with_offset 0 (Some 0) (byte "a")));
                          named "b" (Field (with_offset 1 (Some 1) (basic "b" (SInt 2)))
                                           (KInt false Big));
                          named "c" (u8 (with_offset 2 (Some 3) (byte "c")))]] in
  get_field E 5 0 "b" VNone (mkStream [9; 9; 1; 2; 3; 4] 2)
  = (mkStream [9; 9; 1; 2; 3; 4] 2, Ok (VInt 515))
  /\ get_field E 5 0 "c" VNone (mkStream [9; 9; 1; 2; 3] 2)
  = (mkStream [9; 9; 1; 2; 3] 2, Raise (EUnexpectedEOF (Some "c"%string) 1 5)).
Proof. repeat split; reflexivity. Qed.

(** C43: whatever the outcome, the data is unchanged and the position has not moved back nor
    past the end. *)
Theorem C43_field_load_forward : forall E n f ctx d s s' r,
  field_from_stream E n f ctx d s = (s', r) -> forward s s'.
Proof. exact field_load_forward. Qed.
Print Assumptions C43_field_load_forward.

Theorem C43_struct_load_forward : forall E n cid ctx kw s s' r,
  struct_from_stream E n cid ctx kw s = (s', r) -> forward s s'.
Proof. exact struct_load_forward. Qed.
Print Assumptions C43_struct_load_forward.

Theorem C43_partial_load_forward : forall E n cid last ctx s s' r,
  partial_load E n cid last ctx s = (s', r) -> forward s s'.
Proof. exact partial_load_forward. Qed.
Print Assumptions C43_partial_load_forward.

Theorem C43_inside : forall s s',
  forward s s' -> (s_pos s <= length (s_data s))%nat ->
  (s_pos s' <= length (s_data s'))%nat.
Proof. exact forward_inside. Qed.
Print Assumptions C43_inside.

Example C43_example :
  exists s', struct_from_stream sample_E 5 0 VNone [] (mkStream [2; 0; 7] 0)
             = (s', Raise (EUnexpectedEOF (Some "b"%string) 2 2))
    /\ forward (mkStream [2; 0; 7] 0) s' /\ s_pos s' = 3%nat.
Proof. exists (mkStream [2; 0; 7] 3). repeat split; cbn; lia. Qed.
