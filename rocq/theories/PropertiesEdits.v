(** C106: callables that write into the dictionary of fields being dumped. *)
From Coq Require Import String Lia.
From Verif Require Import SpecEdits EditProofs EditWitness ScribbleWitness Samples.
Open Scope list_scope.
Open Scope Z_scope.

(** If nobody writes, structs and fields are dumped as before, and the dictionary stays as it is. *)
Theorem C106_nobody_writes E W n cid vals f v ctx d : hands_off W ->
  e_struct_to_stream E W n cid vals ctx = struct_to_stream E n cid vals ctx
  /\ e_field_to_stream E W n f v ctx d = (fst (field_to_stream E n f v ctx d), d, snd (field_to_stream E n f v ctx d)).
Proof. exact (fun H => conj (still_struct E W H n cid vals ctx) (still_field E W H n f v ctx d)). Qed.
Print Assumptions C106_nobody_writes.

(** Every field is dumped from the dictionary that the fields before it have left: its value is looked
    up there, and its own [present] may change what its size and count are. *)
Theorem C106_in_turn E W n cid vals ctx out before name f after : comps E cid = before ++ (name, f) :: after ->
  e_struct_to_stream E W n cid vals ctx = (out, Ok tt) ->
  exists all_fields o1 d1 d2 v o2 d3 o3 d4,
    to_dict E n cid vals false = Ok all_fields
    /\ e_dump_fields E W (e_do_dump E W n) n before ctx all_fields = (o1, d1, Ok tt)
    /\ e_compute_value W (conf f) ctx d1 = ([], d2, Ok v)
    /\ match v with
       | VNotPresent => o2 = [] /\ d3 = d2
       | _ => e_field_to_stream E W n f v ctx d2 = (o2, d3, Ok tt)
       end
    /\ e_dump_fields E W (e_do_dump E W n) n after ctx d3 = (o3, d4, Ok tt)
    /\ out = o1 ++ o2 ++ o3.
Proof. exact (dumped_in_turn E W n cid vals ctx out before name f after). Qed.
Print Assumptions C106_in_turn.

(** What has been written for a field is its value, whatever the instance has. *)
Theorem C106_written W c ctx d name w : c_name c = Some name -> dget d name = Some w -> w <> VNotPresent -> w <> VUndefined ->
  run_dict d (c_present c ctx None) = Ok true -> e_compute_value W c ctx d = ([], ed_present W c ctx d, Ok w).
Proof. exact (value_there W c ctx d name w). Qed.
Print Assumptions C106_written.

(** A field without a value there has its default if it has one; its compute function is not called. *)
Theorem C106_default W c ctx d w : (forall name, c_name c = Some name -> dget d name = None) ->
  c_default c <> VUndefined -> default_of c = Ok w -> w <> VNotPresent -> w <> VUndefined ->
  run_dict d (c_present c ctx None) = Ok true -> e_compute_value W c ctx d = ([], ed_present W c ctx d, Ok w).
Proof. exact (default_there W c ctx d w). Qed.
Print Assumptions C106_default.

(** Otherwise it is computed, and what the compute function has written is there when [present] is asked. *)
Theorem C106_computed W c ctx d q w : (forall name, c_name c = Some name -> dget d name = None) ->
  c_default c = VUndefined -> c_compute c = Some q -> run_dict d q = Ok w -> w <> VNotPresent -> w <> VUndefined ->
  run_dict (ed_compute W c d) (c_present c ctx None) = Ok true ->
  e_compute_value W c ctx d = ([], ed_present W c ctx (ed_compute W c d), Ok w).
Proof. exact (computed_there W c ctx d q w). Qed.
Print Assumptions C106_computed.

(** If callables only add entries, a field that is not discarded keeps its value. *)
Theorem C106_own_value E W n cid vals ctx before name f after all_fields w o1 d1 d2 v : inserts_only W ->
  comps E cid = before ++ (name, f) :: after -> c_name (conf f) = Some name ->
  to_dict E n cid vals false = Ok all_fields -> dget all_fields name = Some w ->
  e_dump_fields E W (e_do_dump E W n) n before ctx all_fields = (o1, d1, Ok tt) ->
  e_compute_value W (conf f) ctx d1 = ([], d2, Ok v) -> v = w \/ v = VNotPresent.
Proof. exact (own_value_kept E W n cid vals ctx before name f after all_fields w o1 d1 d2 v). Qed.
Print Assumptions C106_own_value.

(** A field that contains no other is dumped as before, with the dictionary as it is then. *)
Theorem C106_lone E W n f v ctx d : lone_kind (kind f) ->
  e_field_to_stream E W n f v ctx d = (fst (field_to_stream E n f v ctx d), d, snd (field_to_stream E n f v ctx d)).
Proof. exact (leaf_dump_still E W n f v ctx d). Qed.
Print Assumptions C106_lone.

(** Dumping a nested struct neither sees nor changes the entries of the struct around it. *)
Theorem C106_nested_apart E W n c cid v ctx d d' : exists o r,
  e_do_dump E W n (Field c (KNested cid)) v ctx d = (o, d, r) /\ e_do_dump E W n (Field c (KNested cid)) v ctx d' = (o, d', r).
Proof. exact (nested_dump_apart E W n c cid v ctx d d'). Qed.
Print Assumptions C106_nested_apart.

(** The decider of a union chooses by the dictionary it gets; the choice is dumped with the one it leaves. *)
Theorem C106_decided E W n c choices ld dmp v ctx d i g : dmp v ctx d = Ok i -> nth_error choices i = Some (CField g) ->
  e_do_dump E W (S n) (Field c (KUnion choices ld dmp)) v ctx d = e_field_to_stream E W n g v ctx (ed_decide W c v ctx d).
Proof. exact (decided_edited E W n c choices ld dmp v ctx d i g). Qed.
Print Assumptions C106_decided.

(** Unlike when loading, the count of an array is looked up once, before its elements. *)
Theorem C106_count E W n c comp name halt l ctx d o d' z :
  e_do_dump E W n (Field c (KArray comp (CntRef name) halt)) (VList l) ctx d = (o, d', Ok tt) -> dget d name = Some (VInt z) -> zlen l = z.
Proof. exact (count_at_first E W n c comp name halt l ctx d o d' z). Qed.
Print Assumptions C106_count.

(** Refuted: that a field is dumped with the value it has in [to_dict()]. *)
Theorem C106_own_value_refuted : ~ (forall E W n cid vals ctx before name f after all_fields w o1 d1 d2 v,
  comps E cid = before ++ (name, f) :: after -> c_name (conf f) = Some name ->
  to_dict E n cid vals false = Ok all_fields -> dget all_fields name = Some w ->
  e_dump_fields E W (e_do_dump E W n) n before ctx all_fields = (o1, d1, Ok tt) ->
  e_compute_value W (conf f) ctx d1 = ([], d2, Ok v) -> v = w \/ v = VNotPresent).
Proof. exact own_overwritten. Qed.
Print Assumptions C106_own_value_refuted.

(** Refuted: that callables that only add entries change nothing; a discarded field is not in the
    dictionary, so what is written for it takes the place of its default. *)
Theorem C106_inserts_refuted : ~ (forall E W n cid vals ctx, inserts_only W -> e_struct_to_stream E W n cid vals ctx = struct_to_stream E n cid vals ctx).
Proof. exact inserts_unlike. Qed.
Print Assumptions C106_inserts_refuted.

(** The hypotheses can be met. *)
Example C106_nonvacuous : hands_off careful /\ inserts_only filling
  /\ e_struct_to_stream pair_class meddling 6 0 one_two VNone = ([1; 9], Ok tt)
  /\ e_struct_to_stream pair_class filling 6 0 one_two VNone = ([1; 2], Ok tt)
  /\ e_struct_to_stream padded_class filling 6 0 one_two VNone = ([1; 9], Ok tt).
Proof. exact (conj careful_off (conj filling_inserts (conj (proj1 (proj2 pair_dumps)) (conj (proj2 (proj2 pair_dumps)) (proj2 padded_dumps))))). Qed.

Example C106_own_value_nonvacuous :
  comps pair_class 0 = [("x"%string, u8 (byte "x"))] ++ ("y"%string, u8 (byte "y")) :: []
  /\ to_dict pair_class 6 0 one_two false = Ok one_two /\ dget one_two "y" = Some (VInt 2)
  /\ e_dump_fields pair_class filling (e_do_dump pair_class filling 6) 6 [("x"%string, u8 (byte "x"))] VNone one_two = ([1], one_two, Ok tt)
  /\ e_compute_value filling (byte "y") VNone one_two = ([], one_two, Ok (VInt 2)).
Proof. repeat split; vm_compute; reflexivity. Qed.

Example C106_default_nonvacuous :
  dget [] "x" = None /\ c_default (with_default (VInt 3) (byte "x")) <> VUndefined
  /\ default_of (with_default (VInt 3) (byte "x")) = Ok (VInt 3)
  /\ run_dict [] (c_present (with_default (VInt 3) (byte "x")) VNone None) = Ok true
  /\ c_default (with_compute (QRet (VInt 3)) (byte "x")) = VUndefined
  /\ c_compute (with_compute (QRet (VInt 3)) (byte "x")) = Some (QRet (VInt 3)).
Proof. repeat split; discriminate || reflexivity. Qed.

Example C106_count_nonvacuous :
  e_do_dump [] careful 5 (Field (basic "a" SNone) (KArray element (CntRef "n") None)) (VList [VInt 7; VInt 8]) VNone [("n"%string, VInt 2)]
  = ([7; 8], [("n"%string, VInt 2)], Ok tt).
Proof. vm_compute. reflexivity. Qed.
