(** C105: callables that write into the dictionary of loaded fields. *)
From Coq Require Import String Lia.
From Verif Require Import SpecScribbles ScribbleProofs ScribbleWitness Samples.
Open Scope list_scope.
Open Scope Z_scope.

(** If nobody writes, structs and fields are loaded as before, and the dictionary stays as it is. *)
Theorem C105_nobody_writes E W n cid f ctx kw d s : idle W ->
  w_struct_from_stream E W n cid ctx kw s = struct_from_stream E n cid ctx kw s
  /\ w_field_from_stream E W n f ctx d s = (fst (field_from_stream E n f ctx d s), d, snd (field_from_stream E n f ctx d s)).
Proof. exact (fun H => conj (idle_struct E W H n cid ctx kw s) (idle_field E W H n f ctx d s)). Qed.
Print Assumptions C105_nobody_writes.

(** If callables only add entries, then the first entry for a field wins: an entry that is there when
    the field has been read - whoever wrote it - replaces what has been read. *)
Theorem C105_first_wins E W n cid ctx kw s before name f after s1 d1 s2 d2 v s' vals : adds_only W ->
  comps E cid = before ++ (name, f) :: after ->
  w_load_fields E W (w_do_load E W n) n before ctx kw s = (s1, d1, Ok tt) ->
  w_field_from_stream E W n f ctx d1 s1 = (s2, d2, Ok v) ->
  w_struct_from_stream E W n cid ctx kw s = (s', Ok vals) ->
  (forall nm g, In (nm, g) (comps E cid) -> c_discard (conf g) = true -> cname g <> name) ->
  dget vals name = Some (match dget d2 name with Some w => w | None => v end).
Proof. exact (first_wins E W n cid ctx kw s before name f after s1 d1 s2 d2 v s' vals). Qed.
Print Assumptions C105_first_wins.

(** An instance never has a value for anything but its fields, ... *)
Theorem C105_only_fields E W n cid ctx kw s s' vals k v : w_struct_from_stream E W n cid ctx kw s = (s', Ok vals) ->
  dget vals k = Some v -> assoc (comps E cid) k <> None.
Proof. exact (scribbled_keys E W n cid ctx kw s s' vals k v). Qed.
Print Assumptions C105_only_fields.

(** ... because an entry for anything else makes loading fail, unless it is taken out again. *)
Theorem C105_stray_entry E W n cid ctx kw s before after s1 d1 k w s' vals : adds_only W ->
  comps E cid = before ++ after ->
  w_load_fields E W (w_do_load E W n) n before ctx kw s = (s1, d1, Ok tt) ->
  dget d1 k = Some w -> assoc (comps E cid) k = None ->
  w_struct_from_stream E W n cid ctx kw s <> (s', Ok vals).
Proof. exact (stray_fails E W n cid ctx kw s before after s1 d1 k w s' vals). Qed.
Print Assumptions C105_stray_entry.

(** Loading a nested struct neither sees nor changes the entries of the struct around it. *)
Theorem C105_nested_apart E W n c cid ctx d d' s : exists s' r,
  w_do_load E W n (Field c (KNested cid)) ctx d s = (s', d, r) /\ w_do_load E W n (Field c (KNested cid)) ctx d' s = (s', d', r).
Proof. exact (nested_apart E W n c cid ctx d d' s). Qed.
Print Assumptions C105_nested_apart.

(** An absent field has its [not_present_value], and what [present] has written stays written. *)
Theorem C105_absent E W n f ctx d s : run_dict d (c_present (conf f) ctx (Some s)) = Ok false ->
  w_field_from_stream E W n f ctx d s = (s, sb_present W (conf f) ctx d s, Ok (c_npv (conf f))).
Proof. exact (absent_scribbled E W n f ctx d s). Qed.
Print Assumptions C105_absent.

(** A field that is there is read with the sizes that [present] has written, ... *)
Theorem C105_present E W n c k ctx d s s' r : lone_kind k -> run_dict d (c_present c ctx (Some s)) = Ok true ->
  field_from_stream E n (Field (there c) k) ctx (sb_present W c ctx d s) s = (s', r) ->
  w_field_from_stream E W n (Field c k) ctx d s = (s', sb_present W c ctx d s, r).
Proof. exact (present_scribbled E W n c k ctx d s s' r). Qed.
Print Assumptions C105_present.

(** ... a choice of a union with those the decider has written, ... *)
Theorem C105_decided E W n c choices ld dmp ctx d s i g : ld s ctx d = Ok i -> nth_error choices i = Some (CField g) ->
  w_do_load E W (S n) (Field c (KUnion choices ld dmp)) ctx d s = w_do_load E W n g ctx (sb_decide W c ctx d s) s.
Proof. exact (decided_scribbled E W n c choices ld dmp ctx d s i g). Qed.
Print Assumptions C105_decided.

(** ... and an array goes by the count as it is after each element. *)
Theorem C105_recounted E W n c comp name ctx d s s' d' l : w_do_load E W (S n) (Field c (KArray comp (CntRef name) None)) ctx d s = (s', d', Ok (VList l)) ->
  recounting E W n comp name ctx [] d s l d' s'.
Proof. exact (recounting_load E W n c comp name ctx d s s' d' l). Qed.
Print Assumptions C105_recounted.

(** Refuted: that an array has as many elements as its count said when loading it began. *)
Theorem C105_count_refuted :
  ~ (forall E W n c comp name ctx d s s' d' l z,
       w_do_load E W n (Field c (KArray comp (CntRef name) None)) ctx d s = (s', d', Ok (VList l)) ->
       dget d name = Some (VInt z) -> 0 <= z -> zlen l = z).
Proof. exact cut_short. Qed.
Print Assumptions C105_count_refuted.

(** Refuted: that an instance has what has been read, even if callables change no entry. *)
Theorem C105_read_refuted :
  ~ (forall E W n cid name f ctx s s1 d1 v s' vals, adds_only W -> comps E cid = [(name, f)] ->
       w_field_from_stream E W n f ctx [] s = (s1, d1, Ok v) ->
       w_struct_from_stream E W n cid ctx [] s = (s', Ok vals) -> dget vals name = Some v).
Proof. exact read_in_vain. Qed.
Print Assumptions C105_read_refuted.

(** The hypotheses can be met: [x] keeps what its own [present] has written, though 7 has been read;
    [n] becomes 1 while [a] is read, which therefore has one element; an entry [z] is refused. *)
Example C105_nonvacuous : idle quiet /\ adds_only stubborn
  /\ w_struct_from_stream pair_class stubborn 5 0 VNone [] (mkStream [7; 8] 0) = (mkStream [7; 8] 2, Ok [("x"%string, VInt 9); ("y"%string, VInt 8)])
  /\ w_struct_from_stream counted_class cutting 6 0 VNone [] (mkStream [3; 7; 8; 9] 0)
     = (mkStream [3; 7; 8; 9] 2, Ok [("n"%string, VInt 1); ("a"%string, VList [VInt 7])])
  /\ adds_only stray
  /\ w_struct_from_stream pair_class stray 5 0 VNone [] (mkStream [7; 8] 0) = (mkStream [7; 8] 2, Raise (EUnexpectedValue ["z"%string])).
Proof. exact (conj quiet_idle (conj stubborn_adds (conj pair_loads (conj counted_loads (conj stray_adds stray_raises))))). Qed.

(** [first_wins] and [stray_entry] apply to these. *)
Example C105_first_wins_nonvacuous :
  comps pair_class 0 = [] ++ ("x"%string, u8 (byte "x")) :: [("y"%string, u8 (byte "y"))]
  /\ w_load_fields pair_class stubborn (w_do_load pair_class stubborn 5) 5 [] VNone [] (mkStream [7; 8] 0) = (mkStream [7; 8] 0, [], Ok tt)
  /\ w_field_from_stream pair_class stubborn 5 (u8 (byte "x")) VNone [] (mkStream [7; 8] 0) = (mkStream [7; 8] 1, [("x"%string, VInt 9)], Ok (VInt 7))
  /\ (exists d1, w_load_fields pair_class stray (w_do_load pair_class stray 5) 5 [("x"%string, u8 (byte "x"))] VNone [] (mkStream [7; 8] 0) = (mkStream [7; 8] 1, d1, Ok tt)
      /\ dget d1 "z" = Some VNone /\ assoc (comps pair_class 0) "z" = None).
Proof. split; [|split; [|split; [|eexists; split; [|split]]]]; vm_compute; reflexivity. Qed.
