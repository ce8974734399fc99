(** Property theorems: injective dumps (C57), error reporting (C58) and termination (C59) of
    loads from arbitrary bytes.  Specification vocabulary: SpecRound.v, SpecLoad.v. *)
From Verif Require Import LoadWitness.

(** C57: of two dumps of a class, neither is a proper prefix of the other; equal dumps come
    from the same data. *)
Theorem C57_prefix_free : forall E cid n vals ctx bs d n' vals' ctx' bs' d' suf suf',
  instance_of E cid vals -> instance_of E cid vals' ->
  struct_to_stream E n cid vals ctx = (bs, Ok tt) -> to_dict E n cid vals false = Ok d ->
  struct_to_stream E n' cid vals' ctx' = (bs', Ok tt) -> to_dict E n' cid vals' false = Ok d' ->
  holds_struct E false cid d -> holds_struct E false cid d' -> bs ++ suf = bs' ++ suf' ->
  bs = bs' /\ suf = suf' /\ same_data (VDict d) (VDict d').
Proof. exact dump_prefix. Qed.
Print Assumptions C57_prefix_free.

(** The second half also holds when the last field reads to the end of the data. *)
Theorem C57_injective : forall E last last' cid n vals ctx bs d n' vals' ctx' d',
  instance_of E cid vals -> instance_of E cid vals' ->
  struct_to_stream E n cid vals ctx = (bs, Ok tt) -> to_dict E n cid vals false = Ok d ->
  struct_to_stream E n' cid vals' ctx' = (bs, Ok tt) -> to_dict E n' cid vals' false = Ok d' ->
  holds_struct E last cid d -> holds_struct E last' cid d' ->
  same_data (VDict d) (VDict d').
Proof. exact dump_injective. Qed.
Print Assumptions C57_injective.

(** Hence dumps written one after the other can be told apart again. *)
Theorem C57_concatenation : forall E cid dumps,
  Forall (fun bs => exists n vals ctx d, instance_of E cid vals
    /\ struct_to_stream E n cid vals ctx = (bs, Ok tt) /\ to_dict E n cid vals false = Ok d
    /\ holds_struct E false cid d) dumps ->
  forall dumps', Forall (fun bs => exists n vals ctx d, instance_of E cid vals
    /\ struct_to_stream E n cid vals ctx = (bs, Ok tt) /\ to_dict E n cid vals false = Ok d
    /\ holds_struct E false cid d) dumps' ->
  length dumps = length dumps' -> concat dumps = concat dumps' -> dumps = dumps'.
Proof. exact concat_roundtrip. Qed.
Print Assumptions C57_concatenation.

Example C57_example :
  (instance_of round_E 0 round_vals
   /\ struct_to_stream round_E 9 0 round_vals VNone = (round_bytes, Ok tt)
   /\ to_dict round_E 9 0 round_vals false = Ok round_dict /\ holds_struct round_E true 0 round_dict)
  /\ instance_of round_E 1 (inner_val 300 [97; 98])
  /\ struct_to_stream round_E 9 1 (inner_val 300 [97; 98]) VNone = ([172; 2; 97; 98; 0], Ok tt)
  /\ to_dict round_E 9 1 (inner_val 300 [97; 98]) false = Ok (inner_val 300 [97; 98])
  /\ holds_struct round_E false 1 (inner_val 300 [97; 98]).
Proof.
  exact (conj (conj round_instance (conj round_dump (conj round_to_dict round_holds)))
          (conj inner_instance (conj inner_dump (conj inner_to_dict inner_example)))).
Qed.

(** C58: whatever the data, the only exceptions are DeserializationError, ValidationError and
    those in [A]: standard-library exceptions of text-like fields and user callables. *)
Theorem C58_reported : forall A E, robust_schema A E -> forall n cid ctx s s' e,
  struct_from_stream E n cid ctx [] s = (s', Raise e) -> malformed e \/ A e.
Proof. exact struct_load_reported. Qed.
Print Assumptions C58_reported.

Theorem C58_bytes_reported : forall A E, robust_schema A E -> forall n cid data ctx exact e,
  struct_from_bytes E n cid data ctx exact [] = Raise e -> malformed e \/ A e.
Proof. exact bytes_reported. Qed.
Print Assumptions C58_bytes_reported.

Theorem C58_binary_schema : forall A E, robust_schema A E -> (forall e, A e -> malformed e) ->
  forall n cid data ctx exact e,
  struct_from_bytes E n cid data ctx exact [] = Raise e -> malformed e.
Proof. exact only_malformed. Qed.
Print Assumptions C58_binary_schema.

(** Malformed text, textual UUIDs and timestamps are not reported that way. *)
Theorem C58_text_refuted :
  (struct_from_bytes text_E 9 0 [255; 255] VNone true [] = Raise EUnicodeDecode
   /\ struct_from_bytes text_E 9 3 [255; 255] VNone true [] = Raise EUnicodeDecode
   /\ struct_from_bytes text_E 9 4 [65; 0; 0; 0] VNone true [] = Raise EUnicodeErr
   /\ struct_from_bytes text_E 9 1 (repeat 122 32) VNone true [] = Raise EValueErr
   /\ exists e, struct_from_bytes text_E 9 2 [127; 255; 255; 255; 255; 255; 255; 255] VNone true []
                = Raise e /\ (e = EValueErr \/ e = EOverflow \/ e = EOSErr))
  /\ forall e, e = EUnicodeDecode \/ e = EUnicodeErr \/ e = EValueErr \/ e = EOverflow \/ e = EOSErr -> ~ malformed e.
Proof. exact (conj text_escapes escapes_not_malformed). Qed.
Print Assumptions C58_text_refuted.

Example C58_example : robust_schema invalid_only packet_E /\ robust_schema text_only text_E
  /\ struct_from_bytes packet_E 9 0 packet_bytes VNone true [] = Ok packet_value
  /\ struct_from_bytes packet_E 9 0 [77; 91] VNone true [] = Raise (EValidation (Some "magic"%string))
  /\ struct_from_bytes packet_E 9 0 [77; 90; 1; 0; 10] VNone true [] = Raise (EValidation (Some "x"%string))
  /\ exists e, struct_from_bytes packet_E 9 0 [77; 90; 1; 0] VNone true [] = Raise e
       /\ is_UnexpectedEOFError e = true.
Proof. exact (conj packet_robust (conj text_robust packet_loads)). Qed.

(** C59: loading ends for every stream, without moving back, with an instance or with one of
    these exceptions. *)
Theorem C59_total : forall A E, robust_schema A E -> forall rank, bounded_schema E rank ->
  forall cid ctx s, exists n s' r,
  (forall m, (n <= m)%nat -> struct_from_stream E m cid ctx [] s = (s', r))
  /\ forward s s'
  /\ ((exists vals, r = Ok vals) \/ exists e, r = Raise e /\ (malformed e \/ A e)).
Proof. exact struct_load_total. Qed.
Print Assumptions C59_total.

Theorem C59_bytes_total : forall A E rank, robust_schema A E -> bounded_schema E rank ->
  forall cid data ctx exact, exists n r,
  (forall m, (n <= m)%nat -> struct_from_bytes E m cid data ctx exact [] = r)
  /\ ((exists vals, r = Ok vals) \/ exists e, r = Raise e /\ (malformed e \/ A e)).
Proof. exact bytes_total. Qed.
Print Assumptions C59_bytes_total.

Example C59_example : (robust_schema invalid_only packet_E /\ bounded_schema packet_E packet_rank)
  /\ (robust_schema text_only text_E /\ bounded_schema text_E (fun _ => 0%nat)).
Proof. exact (conj (conj packet_robust packet_bounded) (conj text_robust text_bounded)). Qed.
