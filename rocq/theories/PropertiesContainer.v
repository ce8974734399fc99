(** Property theorems: to_dict, arrays, unions, discard fields, context (C36, C39-C41,
    C44-C46).  Vocabulary: SpecField.v ([dumps_to], [loads_to], [load_finishes],
    [load_diverges], [counted], [uncounted], [elements], [elements_to_end], [instance_of],
    [struct_free], [unchecked]). *)
From Verif Require Import SpecField Samples ContainerWitness.

(** C36 *)
Theorem C36_keys : forall E n cid vals keep d, instance_of E cid vals ->
  to_dict E n cid vals keep = Ok d ->
  NoDup (dkeys d) /\ forall name, In name (dkeys d) <->
    exists f, In (name, f) (k_comps (cls E cid)) /\ (keep = true \/ c_discard (conf f) = false).
Proof. exact to_dict_keys. Qed.
Print Assumptions C36_keys.

Theorem C36_no_structs : forall E n cid vals keep d,
  to_dict E n cid vals keep = Ok d -> Forall (fun kv => struct_free (snd kv)) d.
Proof. exact to_dict_free. Qed.
Print Assumptions C36_no_structs.

Definition nest_E : env :=
  [class_of "In" [named "x" (u8 (byte "x"))];
   class_of "Out" [named "a" (u8 (byte "a"));
                   named "p" (u8 (with_discard (with_default (VInt 0) (byte "p"))));
                   named "l" (Field (basic "l" SNone)
                                (KArray (Field (basic "c" SNone) (KNested 0)) (CntInt 2) None))]].
Definition nest_vals : dict :=
  [("l"%string, VList [VStruct 0 [("x"%string, VInt 1)]; VStruct 0 [("x"%string, VInt 2)]]);
   ("a"%string, VInt 7)].

Example C36_example :
  instance_of nest_E 1 nest_vals
  /\ to_dict nest_E 6 1 nest_vals false
     = Ok [("l"%string, VList [VDict [("x"%string, VInt 1)]; VDict [("x"%string, VInt 2)]]);
           ("a"%string, VInt 7)]
  /\ exists d, to_dict nest_E 6 1 nest_vals true = Ok d /\ dget d "p" = Some (VInt 0).
Proof.
  split; [|split; [reflexivity|eexists; split; reflexivity]].
  split; [|split].
  - split; [repeat constructor; cbn; intuition discriminate|].
    split; [repeat constructor|]. intros name. cbn. tauto.
  - repeat constructor; cbn; intuition discriminate.
  - intros x. cbn. tauto.
Qed.

(** C39 *)
Theorem C39_list_dump : forall E c comp cnt halt l ctx d out,
  dumps_to E (Field c (KArray comp cnt halt)) (VList l) ctx d out
  <-> accepts c (VList l) /\ (counted cnt d (zlen l) \/ uncounted cnt d)
      /\ exists parts, Forall2 (fun x bs => dumps_to E comp x ctx d bs) l parts
           /\ out = concat parts /\ fits_size c d out.
Proof. exact (fun E c comp cnt halt l ctx d out => array_dumps_to E c comp cnt halt (VList l) ctx d out l (or_introl eq_refl)). Qed.
Print Assumptions C39_list_dump.

Theorem C39_generator_dump : forall E c comp cnt halt l ctx d out,
  (forall m, counted cnt d m -> 0 <= m) ->
  (dumps_to E (Field c (KArray comp cnt halt)) (VGen l) ctx d out
   <-> accepts c (VGen l) /\ (counted cnt d (zlen l) \/ uncounted cnt d)
       /\ exists parts, Forall2 (fun x bs => dumps_to E comp x ctx d bs) l parts
            /\ out = concat parts /\ fits_size c d out).
Proof. exact (fun E c comp cnt halt l ctx d out H => array_dumps_to E c comp cnt halt (VGen l) ctx d out l (or_intror (conj eq_refl H))). Qed.
Print Assumptions C39_generator_dump.

Theorem C39_wrong_length : forall E c comp cnt halt l m ctx d,
  counted cnt d m -> zlen l <> m -> accepts c (VList l) ->
  dump_raises E (Field c (KArray comp cnt halt)) (VList l) ctx d
    (EArraySize (c_name c) m (Some (zlen l))).
Proof. exact array_wrong_length. Qed.
Print Assumptions C39_wrong_length.

Theorem C39_generator_too_long : forall E c comp cnt halt l1 x l2 m ctx d parts,
  counted cnt d m -> zlen l1 = m -> accepts c (VGen (l1 ++ x :: l2)) ->
  Forall2 (fun v bs => dumps_to E comp v ctx d bs) l1 parts ->
  dump_raises E (Field c (KArray comp cnt halt)) (VGen (l1 ++ x :: l2)) ctx d
    (EArraySize (c_name c) m (Some (m + 1))).
Proof. exact generator_too_long. Qed.
Print Assumptions C39_generator_too_long.

Theorem C39_generator_too_short : forall E c comp cnt halt l m ctx d parts,
  counted cnt d m -> zlen l < m -> accepts c (VGen l) ->
  Forall2 (fun v bs => dumps_to E comp v ctx d bs) l parts ->
  dump_raises E (Field c (KArray comp cnt halt)) (VGen l) ctx d
    (EArraySize (c_name c) m (Some (zlen l))).
Proof. exact generator_too_short. Qed.
Print Assumptions C39_generator_too_short.

Theorem C39_generator_unread : forall E n c comp cnt halt l1 l2 l2' m ctx d,
  counted cnt d m -> 0 <= m -> m + 1 <= zlen l1 -> c_validators c = [] ->
  field_to_stream E n (Field c (KArray comp cnt halt)) (VGen (l1 ++ l2)) ctx d
  = field_to_stream E n (Field c (KArray comp cnt halt)) (VGen (l1 ++ l2')) ctx d.
Proof. exact generator_unread. Qed.
Print Assumptions C39_generator_unread.

(** The corner where generators do not obey the rule: a negative count. *)
Theorem C39_negative_count_refuted : exists E c comp cnt l ctx d out,
  counted cnt d (-1) /\ zlen l <> -1
  /\ dumps_to E (Field c (KArray comp cnt None)) (VGen l) ctx d out.
Proof. exact negative_count_witness. Qed.
Print Assumptions C39_negative_count_refuted.

Example C39_example :
  let arr := Field (basic "l" SNone) (KArray (u8 (byte "c")) (CntRef "n") None) in
  let d := [("n"%string, VInt 2)] in
  counted (CntRef "n") d 2
  /\ field_to_stream [] 2 arr (VList [VInt 4; VInt 5]) VNone d = ([4; 5], Ok tt)
  /\ field_to_stream [] 2 arr (VGen [VInt 4; VInt 5]) VNone d = ([4; 5], Ok tt)
  /\ field_to_stream [] 2 arr (VGen [VInt 4; VInt 5; VInt 6; VInt 7]) VNone d
     = ([], Raise (EArraySize (Some "l"%string) 2 (Some 3)))
  /\ field_to_stream [] 2 arr (VGen [VInt 4]) VNone d
     = ([], Raise (EArraySize (Some "l"%string) 2 (Some 1)))
  /\ field_to_stream [] 2 arr (VList [VInt 4; VInt 5; VInt 6; VInt 7]) VNone d
     = ([], Raise (EArraySize (Some "l"%string) 2 (Some 4))).
Proof. repeat split; try reflexivity. right. exists "n"%string. auto. Qed.

(** C40 *)
Theorem C40_counted_load : forall E c comp cnt ctx d m s s' v, always_present c ->
  c_null c = VUndefined -> c_const c = VUndefined -> counted cnt d m ->
  (loads_to E (Field c (KArray comp cnt None)) ctx d s s' v
   <-> accepts c v /\ exists vs, v = VList vs /\ zlen vs = Z.max m 0
         /\ elements E comp ctx d vs s s').
Proof. exact array_loads_counted. Qed.
Print Assumptions C40_counted_load.

Theorem C40_uncounted_load : forall E c comp ctx d s s' v, always_present c ->
  c_null c = VUndefined -> c_const c = VUndefined ->
  (loads_to E (Field c (KArray comp CntNone None)) ctx d s s' v
   <-> accepts c v /\ exists vs, v = VList vs /\ elements_to_end E comp ctx d vs s s').
Proof. exact array_loads_end. Qed.
Print Assumptions C40_uncounted_load.

Theorem C40_stops_at_end : forall E comp ctx d vs s s',
  elements_to_end E comp ctx d vs s s' -> rest s' = [].
Proof. exact elements_end. Qed.
Print Assumptions C40_stops_at_end.

Theorem C40_unknown_count : forall E n c comp name ctx d s, always_present c ->
  c_null c = VUndefined ->
  let load cnt := field_from_stream E (S (S n)) (Field c (KArray comp cnt None)) ctx d s in
  (dget d name = None -> load (CntRef name) = (s, Raise (EFieldReference name)))
  /\ (dget d name = Some VNone -> load (CntRef name) = (s, Raise (EUndefinedSize (c_name c))))
  /\ (forall v, dget d name = Some v -> v <> VNone -> (forall z, v <> VInt z) ->
      load (CntRef name) = (s, Raise ETypeErr))
  /\ load CntUnnamed = (s, Raise (EConfig None)).
Proof. exact count_unknown. Qed.
Print Assumptions C40_unknown_count.

Theorem C40_unknown_count_dump : forall E n c comp halt name l ctx d, accepts c (VList l) ->
  let dump cnt := field_to_stream E (S n) (Field c (KArray comp cnt halt)) (VList l) ctx d in
  (dget d name = None -> dump (CntRef name) = ([], Raise (EFieldReference name)))
  /\ (forall v, dget d name = Some v -> v <> VNone -> (forall z, v <> VInt z) ->
      dump (CntRef name) = ([], Raise ETypeErr))
  /\ dump CntUnnamed = ([], Raise (EConfig None)).
Proof. exact count_unknown_dump. Qed.
Print Assumptions C40_unknown_count_dump.

Example C40_example :
  let arr cnt := Field (basic "l" SNone) (KArray (u8 (byte "c")) cnt None) in
  field_from_stream [] 9 (arr (CntInt 2)) VNone [] (mkStream [9; 4; 5; 6] 1)
    = (mkStream [9; 4; 5; 6] 3, Ok (VList [VInt 4; VInt 5]))
  /\ field_from_stream [] 9 (arr CntNone) VNone [] (mkStream [9; 4; 5; 6] 1)
    = (mkStream [9; 4; 5; 6] 4, Ok (VList [VInt 4; VInt 5; VInt 6]))
  /\ field_from_stream [] 9 (arr (CntInt (-3))) VNone [] (mkStream [9; 4; 5; 6] 1)
    = (mkStream [9; 4; 5; 6] 1, Ok (VList []))
  /\ field_from_stream [] 9 (arr (CntRef "n")) VNone [("n"%string, VNone)] (mkStream [9; 4] 1)
    = (mkStream [9; 4] 1, Raise (EUndefinedSize (Some "l"%string)))
  /\ field_to_stream [] 9 (arr (CntRef "n")) (VList [VInt 4]) VNone [("n"%string, VStr [50])]
    = ([], Raise ETypeErr).
Proof. repeat split. Qed.

(** C41 *)
Theorem C41_uncounted_terminates : forall E c comp ctx d s,
  always_present c -> c_null c = VUndefined -> c_const c = VUndefined ->
  (forall check v, In check (c_validators c) -> check v <> OOF) ->
  (forall s, load_finishes E comp ctx d s) ->
  (forall s s1 v, loads_to E comp ctx d s s1 v -> (s_pos s < s_pos s1)%nat) ->
  load_finishes E (Field c (KArray comp CntNone None)) ctx d s.
Proof. exact uncounted_terminates. Qed.
Print Assumptions C41_uncounted_terminates.

Theorem C41_counted_terminates : forall E c comp cnt ctx d m s,
  always_present c -> c_null c = VUndefined -> c_const c = VUndefined -> counted cnt d m ->
  (forall check v, In check (c_validators c) -> check v <> OOF) ->
  (forall s, load_finishes E comp ctx d s) ->
  (forall s s1 v, loads_to E comp ctx d s s1 v ->
     v <> VNotPresent \/ (s_pos s < s_pos s1 <= length (s_data s))%nat) ->
  load_finishes E (Field c (KArray comp cnt None)) ctx d s.
Proof. exact counted_terminates. Qed.
Print Assumptions C41_counted_terminates.

Theorem C41_absent_component_diverges : forall E c comp cnt ctx d m s,
  always_present c -> c_null c = VUndefined -> counted cnt d m -> 0 < m ->
  run_dict d (c_present (conf comp) ctx (Some s)) = Ok false ->
  c_npv (conf comp) = VNotPresent ->
  load_diverges E (Field c (KArray comp cnt None)) ctx d s.
Proof. exact absent_component_diverges. Qed.
Print Assumptions C41_absent_component_diverges.

Theorem C41_zero_byte_component_diverges : forall E c comp ctx d s v,
  always_present c -> c_null c = VUndefined -> rest s <> [] ->
  loads_to E comp ctx d s s v ->
  load_diverges E (Field c (KArray comp CntNone None)) ctx d s.
Proof. exact zero_byte_component_diverges. Qed.
Print Assumptions C41_zero_byte_component_diverges.

Example C41_example :
  loads_to [] (Field (basic "c" (SInt 0)) KBytes) VNone [] (mkStream [1] 0) (mkStream [1] 0)
           (VBytes [])
  /\ load_diverges [] (Field (basic "l" SNone)
       (KArray (Field (basic "c" (SInt 0)) KBytes) CntNone None)) VNone [] (mkStream [1] 0)
  /\ load_diverges [] (Field (basic "l" SNone)
       (KArray (u8 (with_present (fun _ _ => QRet false) VNotPresent (byte "c"))) (CntInt 3) None))
       VNone [] (mkStream [1; 2; 3] 0).
Proof.
  split; [exists 1%nat; reflexivity|]. split.
  - eapply C41_zero_byte_component_diverges; try (intros ? ? ?); try reflexivity; [discriminate|].
    exists 1%nat. reflexivity.
  - eapply (C41_absent_component_diverges) with (m := 3); try (intros ? ? ?); try reflexivity.
    left. auto.
Qed.

(** C44 *)
Theorem C44_dump_checks : forall E n c choices ld dd v ctx d i g,
  c_size c = SNone -> v <> VNone -> v <> VUndefined -> v <> VDefault -> accepts c v ->
  dd v ctx d = Ok i -> nth_error choices i = Some (CField g) ->
  field_to_stream E (S n) (Field c (KUnion choices ld dd)) v ctx d
  = field_to_stream E n g v ctx d.
Proof. exact union_dump_field'. Qed.
Print Assumptions C44_dump_checks.

Theorem C44_dump_struct : forall E n c choices ld dd vals ctx d i cid out,
  c_size c = SNone -> accepts c (VDict vals) ->
  dd (VDict vals) ctx d = Ok i -> nth_error choices i = Some (CStruct cid) ->
  (field_to_stream E (S n) (Field c (KUnion choices ld dd)) (VDict vals) ctx d = (out, Ok tt)
   <-> incl (dkeys vals) (map fst (k_comps (cls E cid)))
       /\ struct_to_stream E n cid vals ctx = (out, Ok tt)).
Proof. exact union_dump_struct. Qed.
Print Assumptions C44_dump_struct.

Theorem C44_load_unchecked : forall E c choices ld dd ctx d s s' v i g,
  always_present c -> c_null c = VUndefined -> c_const c = VUndefined ->
  ld s ctx d = Ok i -> nth_error choices i = Some (CField g) -> c_null (conf g) = VUndefined ->
  (loads_to E (Field c (KUnion choices ld dd)) ctx d s s' v
   <-> accepts c v /\ loads_to E (unchecked g) ctx d s s' v).
Proof. exact union_load_field. Qed.
Print Assumptions C44_load_unchecked.

(** The contract "loading through a union applies the chosen field's checks" fails for each
    of const, validators and null. *)
Theorem C44_load_checks_refuted :
  let union g := Field (basic "u" SNone)
                   (KUnion [CField g] (fun _ _ _ => Ok 0%nat) (fun _ _ _ => Ok 0%nat)) in
  let s := mkStream [200] 0 in
  (exists g s' v e, loads_to [] (union g) VNone [] s s' v /\ load_raises [] g VNone [] s e
     /\ c_const (conf g) = VInt 7)
  /\ (exists g s' v e, loads_to [] (union g) VNone [] s s' v /\ load_raises [] g VNone [] s e
     /\ c_validators (conf g) = [at_most_9])
  /\ (exists g s' v, loads_to [] (union g) VNone [] s s' v /\ loads_to [] g VNone [] s s' VNone
     /\ v <> VNone).
Proof. exact union_skips_checks. Qed.
Print Assumptions C44_load_checks_refuted.

(** C45 *)
Theorem C45_load_drops : forall E n cid ctx kw s s' vals name f,
  well_formed (cls E cid) -> NoDup (dkeys kw) ->
  In (name, f) (k_comps (cls E cid)) -> c_discard (conf f) = true ->
  struct_from_stream E n cid ctx kw s = (s', Ok vals) -> dget vals name = None.
Proof. exact load_drops_discard. Qed.
Print Assumptions C45_load_drops.

Theorem C45_not_in_dict : forall E n cid vals all name f,
  instance_of E cid vals -> In (name, f) (k_comps (cls E cid)) -> c_discard (conf f) = true ->
  to_dict E n cid vals false = Ok all -> dget all name = None.
Proof. exact discard_not_in_dict. Qed.
Print Assumptions C45_not_in_dict.

Theorem C45_dumps_default : forall E n cid vals all name f v ctx bs,
  instance_of E cid vals -> In (name, f) (k_comps (cls E cid)) -> c_discard (conf f) = true ->
  to_dict E n cid vals false = Ok all ->
  c_default (conf f) <> VUndefined -> default_of (conf f) = Ok v -> v <> VUndefined ->
  v <> VNotPresent -> run_dict all (c_present (conf f) ctx None) = Ok true ->
  (field_part E n ctx all (name, f) bs <-> field_to_stream E n f v ctx all = (bs, Ok tt)).
Proof. exact discard_dumps_default. Qed.
Print Assumptions C45_dumps_default.

Theorem C45_no_default_fails : forall E n cid vals name f ctx out,
  instance_of E cid vals -> In (name, f) (k_comps (cls E cid)) -> c_discard (conf f) = true ->
  c_default (conf f) = VUndefined -> c_compute (conf f) = None -> always_present (conf f) ->
  struct_to_stream E n cid vals ctx <> (out, Ok tt).
Proof. exact discard_without_default. Qed.
Print Assumptions C45_no_default_fails.

Theorem C45_set_value_dumped_refuted :
  let E := [class_of "T" [named "a" (u8 (byte "a"));
                          named "p" (u8 (with_discard (with_default (VInt 0) (byte "p"))));
                          named "z" (u8 (byte "z"))];
            class_of "U" [named "a" (u8 (byte "a")); named "p" (u8 (with_discard (byte "p")))]] in
  struct_to_stream E 5 0 [("a"%string, VInt 1); ("p"%string, VInt 9); ("z"%string, VInt 2)] VNone
    = ([1; 0; 2], Ok tt)
  /\ struct_to_stream E 5 1 [("a"%string, VInt 1); ("p"%string, VInt 9)] VNone
    = ([1], Raise (EMissingRequired (Some "p"%string))).
Proof. exact (conj eq_refl eq_refl). Qed.
Print Assumptions C45_set_value_dumped_refuted.

(** C46 *)
Theorem C46_context_ignored : forall E n cid vals name f ctx out,
  instance_of E cid vals -> In (name, f) (k_comps (cls E cid)) -> c_discard (conf f) = false ->
  (forall mem get keys, run_q mem get keys (c_present (conf f) VNone None) = Ok false) ->
  struct_to_stream E n cid vals ctx = (out, Ok tt) ->
  exists all parts, Forall2 (field_part E n ctx all) (k_comps (cls E cid)) parts
    /\ out = concat parts /\ dget all name = Some VNotPresent
    /\ forall bs, field_part E n ctx all (name, f) bs -> bs = [].
Proof. exact context_ignored. Qed.
Print Assumptions C46_context_ignored.

Theorem C46_context_decides_refuted : exists E cid vals ctx f,
  In ("x"%string, f) (k_comps (cls E cid)) /\ dget vals "x" = Some (VInt 9)
  /\ (forall d, run_dict d (c_present (conf f) ctx None) = Ok true)
  /\ struct_to_stream E 5 cid vals ctx = ([1; 2], Ok tt)
  /\ dget vals "a" = Some (VInt 1) /\ dget vals "z" = Some (VInt 2).
Proof. exact context_witness. Qed.
Print Assumptions C46_context_decides_refuted.
