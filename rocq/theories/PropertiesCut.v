(** C82: truncated data. *)
From Coq Require Import ZArith List String.
From Verif Require Import Samples CutWitness StructProofs.
Import ListNotations.
Open Scope Z_scope.

(** Data cut off before the end of the struct: the load raises UnexpectedEOFError. *)
Theorem C82_truncated : forall E, delimited_schema E -> noticing_schema E ->
  forall n cid ctx data s1 vals k, bytes_ok data ->
  struct_from_stream E n cid ctx [] (mkStream data 0) = (s1, Ok vals) -> (k < s_pos s1)%nat ->
  exists s e, struct_from_stream E n cid ctx [] (mkStream (firstn k data) 0) = (s, Raise e)
    /\ is_UnexpectedEOFError e = true.
Proof. exact load_cut. Qed.
Print Assumptions C82_truncated.

(** The same for a single field, wherever its data starts. *)
Theorem C82_truncated_field : forall E, delimited_schema E -> noticing_schema E ->
  forall n f ctx s s1 v s' more, delimited [] f -> notices_end f -> bytes_ok (rest s) ->
  field_from_stream E n f ctx [] s = (s1, Ok v) ->
  rest s = rest s' ++ more -> (s_pos s + length (rest s') < s_pos s1)%nat ->
  exists s2 e, field_from_stream E n f ctx [] s' = (s2, Raise e)
    /\ is_UnexpectedEOFError e = true.
Proof. exact field_cut_alone. Qed.
Print Assumptions C82_truncated_field.

(** A partial load of the truncated data gives exactly the fields that are complete, with
    the values the whole data would have given them, and stops behind the last of them. *)
Theorem C82_partial_load : forall E, delimited_schema E -> noticing_schema E ->
  forall n cid ctx data s1 vals k, well_formed (cls E cid) ->
  Forall (fun nf => c_discard (conf (snd nf)) = false) (k_comps (cls E cid)) -> bytes_ok data ->
  loads E n ctx (k_comps (cls E cid)) [] (mkStream data 0) vals s1 ->
  exists pre post d p, cut_after E n ctx (k_comps (cls E cid)) data k pre post d p
    /\ partial_load E n cid None ctx (mkStream (firstn k data) 0) = (mkStream (firstn k data) p, Ok d).
Proof. exact partial_load_cut. Qed.
Print Assumptions C82_partial_load.

(** Null-terminated text must be excluded: its loader reports undecodable data instead. *)
Theorem C82_null_terminated : exists E data vals k s e, delimited_schema E /\ bytes_ok data
  /\ struct_from_stream E 9 0 VNone [] (mkStream data 0) = (mkStream data (length data), Ok vals)
  /\ (k < length data)%nat
  /\ struct_from_stream E 9 0 VNone [] (mkStream (firstn k data) 0) = (s, Raise e)
  /\ is_UnexpectedEOFError e = false.
Proof.
  exists message_E, message_1, values_1, 13%nat, (mkStream (firstn 13 message_1) 13),
    (EDeserialization (Some "parts"%string)).
  split; [exact message_delimited|]. split; [apply bytes_ok_check; reflexivity|].
  split; [exact (proj1 messages_load)|]. split; [cbn; lia|]. split; vm_compute; reflexivity.
Qed.
Print Assumptions C82_null_terminated.

Example C82_example : delimited_schema telegram_E /\ noticing_schema telegram_E
  /\ well_formed (cls telegram_E 0)
  /\ Forall (fun nf => c_discard (conf (snd nf)) = false) (k_comps (cls telegram_E 0))
  /\ bytes_ok telegram
  /\ struct_from_stream telegram_E 9 0 VNone [] (mkStream telegram 0)
     = (mkStream telegram (length telegram), Ok telegram_values)
  /\ partial_load telegram_E 9 0 None VNone (mkStream (firstn 13 telegram) 0)
     = (mkStream (firstn 13 telegram) 10, Ok (firstn 6 telegram_values))
  /\ partial_load telegram_E 9 0 None VNone (mkStream (firstn 8 telegram) 0)
     = (mkStream (firstn 8 telegram) 7, Ok (firstn 4 telegram_values)).
Proof.
  split; [exact telegram_delimited|]. split; [exact telegram_notices|].
  split; [exact telegram_formed|]. split; [repeat constructor|].
  split; [apply bytes_ok_check; reflexivity|]. split; [exact telegram_loads|].
  split; vm_compute; reflexivity.
Qed.
