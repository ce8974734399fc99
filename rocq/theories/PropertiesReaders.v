(** C102: callables that read from the stream. *)
From Coq Require Import String Lia.
From Verif Require Import SpecReaders ReaderProofs ReaderWitness Samples.
Open Scope list_scope.
Open Scope Z_scope.

(** Whatever [present] functions, halt checks and load deciders read: if they put the stream back,
    then structs and fields are loaded as if they had read nothing. *)
Theorem C102_put_back E M n cid f ctx kw d s : tidy M ->
  r_struct_from_stream E M n cid ctx kw s = struct_from_stream E n cid ctx kw s
  /\ r_field_from_stream E M n f ctx d s = field_from_stream E n f ctx d s.
Proof. exact (fun H => conj (tidy_struct E M H n cid ctx kw s) (tidy_field E M H n f ctx d s)). Qed.
Print Assumptions C102_put_back.

(** If they only read and seek, the data is never changed. *)
Theorem C102_data E M n cid f ctx kw d s s' r s'' r' : only_read M ->
  (r_struct_from_stream E M n cid ctx kw s = (s', r) -> s_data s' = s_data s)
  /\ (r_field_from_stream E M n f ctx d s = (s'', r') -> s_data s'' = s_data s).
Proof. exact (fun H => conj (read_struct E M n cid ctx kw s s' r H) (read_field E M n f ctx d s s'' r' H)). Qed.
Print Assumptions C102_data.

(** If they never seek back, loading never goes back. *)
Theorem C102_ahead E M n cid f ctx kw d s s' r s'' r' : never_back M ->
  (r_struct_from_stream E M n cid ctx kw s = (s', r) -> forward s s')
  /\ (r_field_from_stream E M n f ctx d s = (s'', r') -> forward s s'').
Proof. exact (fun H => conj (ahead_struct E M n cid ctx kw s s' r H) (ahead_field E M n f ctx d s s'' r' H)). Qed.
Print Assumptions C102_ahead.

(** After an absent field, the stream is where [present] has left it. *)
Theorem C102_absent E M n f ctx d s : run_dict d (c_present (conf f) ctx (Some s)) = Ok false ->
  r_field_from_stream E M n f ctx d s = (mv_present M (conf f) ctx d s, Ok (c_npv (conf f))).
Proof. exact (absent_moved E M n f ctx d s). Qed.
Print Assumptions C102_absent.

(** A field that is there is read from where [present] has left the stream, ... *)
Theorem C102_present E M n c k ctx d s : simple_kind k -> run_dict d (c_present c ctx (Some s)) = Ok true ->
  r_field_from_stream E M n (Field c k) ctx d s = field_from_stream E n (Field (there c) k) ctx d (mv_present M c ctx d s).
Proof. exact (present_moved E M n c k ctx d s). Qed.
Print Assumptions C102_present.

(** ... a choice of a union from where the decider has left it, ... *)
Theorem C102_decided E M n c choices ld dmp ctx d s i : ld s ctx d = Ok i ->
  (forall g, nth_error choices i = Some (CField g) ->
     r_do_load E M (S n) (Field c (KUnion choices ld dmp)) ctx d s = r_do_load E M n g ctx d (mv_decide M c ctx d s))
  /\ (forall cid s' vals, nth_error choices i = Some (CStruct cid) ->
     r_struct_from_stream E M n cid ctx [] (mv_decide M c ctx d s) = (s', Ok vals) ->
     r_do_load E M (S n) (Field c (KUnion choices ld dmp)) ctx d s = (s', Ok (VStruct cid vals))).
Proof.
  exact (fun Hi => conj (fun g => decided_field E M n c choices ld dmp ctx d s i g Hi)
                        (fun cid s' vals => decided_struct E M n c choices ld dmp ctx d s i cid s' vals Hi)).
Qed.
Print Assumptions C102_decided.

(** ... and each element of an array from where the halt check has left it, also after the last. *)
Theorem C102_halted E M n c comp cnt h ctx d s s' l : r_do_load E M (S n) (Field c (KArray comp cnt (Some h))) ctx d s = (s', Ok (VList l)) ->
  halting E M n c comp h ctx d [] s l s'.
Proof. exact (halting_load E M n c comp cnt h ctx d s s' l). Qed.
Print Assumptions C102_halted.

(** If they seek back, loading may never end. *)
Theorem C102_ends_refuted :
  ~ (forall E M f s, only_read M -> exists n, snd (r_field_from_stream E M n f VNone [] s) <> OOF).
Proof. exact (fun H => match H [] back_moves endless (mkStream [5; 6] 0) back_reads with ex_intro _ n Hn => Hn (endless_loads n) end). Qed.
Print Assumptions C102_ends_refuted.

(** If they read on, what has been loaded may dump to something that cannot be loaded. *)
Theorem C102_round_trip_refuted :
  ~ (forall E M n cid s s' vals out, only_read M -> r_struct_from_stream E M n cid VNone [] s = (s', Ok vals) ->
       struct_to_stream E n cid vals VNone = (out, Ok tt) ->
       exists s'', r_struct_from_stream E M n cid VNone [] (mkStream out 0) = (s'', Ok vals)).
Proof. exact reader_round_refuted. Qed.
Print Assumptions C102_round_trip_refuted.

(** The hypotheses can be met. *)
Example C102_nonvacuous : tidy tidy_moves /\ never_back tag_moves /\ only_read back_moves
  /\ r_field_from_stream [] tag_moves 5 tagged VNone [] (mkStream [1; 2; 3; 4] 0) = (mkStream [1; 2; 3; 4] 3, Ok (VInt 515))
  /\ r_struct_from_stream marked mark_moves 5 0 VNone [] (mkStream [7; 0; 9] 0)
     = (mkStream [7; 0; 9] 3, Ok [("x"%string, VInt 7); ("y"%string, VNotPresent); ("z"%string, VInt 9)]).
Proof. exact (conj tidy_met (conj tag_ahead (conj back_reads (conj tagged_loads marked_loads)))). Qed.

(** A halt check that reads a mark before each element: 1 goes on, 0 stops. *)
Example C102_halted_nonvacuous :
  r_do_load [] (Moves (fun _ _ _ => keep) (fun _ _ _ _ => skip1) (fun _ _ _ => keep)) 6
    (Field (basic "a" SNone) (KArray (u8 (byte "")) CntNone (Some (fun s vs _ _ => match rest s with 1 :: _ => Ok (false, vs) | _ => Ok (true, vs) end))))
    VNone [] (mkStream [1; 5; 1; 6; 0; 9] 0) = (mkStream [1; 5; 1; 6; 0; 9] 5, Ok (VList [VInt 5; VInt 6])).
Proof. vm_compute. reflexivity. Qed.

Example C102_present_nonvacuous : simple_kind (KInt false Little)
  /\ r_field_from_stream [] mark_moves 5 (u8 (byte "y")) VNone [] (mkStream [1; 2; 3] 0) = (mkStream [1; 2; 3] 2, Ok (VInt 2)).
Proof. split; [exact I|vm_compute; reflexivity]. Qed.
