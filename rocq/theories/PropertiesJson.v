(** C108: "the output of Struct.to_dict() is JSON-serializable if all fields are defined"
    (docs/source/CHANGELOG.rst, 0.2.1).

    Vocabulary: SpecJson.v ([json_data] - None, numbers, text, lists and dictionaries - , [writable] - no
    number has more than 4300 digits - , [exact_scalar] - kept as it is - , [json_classes] - the fields of
    the classes are of given kinds and none of them is conditional). *)
From Coq Require Import String Lia List ZArith.
From Verif Require Import SpecJson JsonProofs JsonWitness Samples.
Import ListNotations.
Open Scope list_scope.
Open Scope Z_scope.

(** What can be written as JSON, and how it fails otherwise. *)
Theorem C108_writable v : (exists w, json_round v = Ok w) <-> json_data writable v.
Proof. exact (proj1 (round_outcome v)). Qed.
Print Assumptions C108_writable.

Theorem C108_errors v r : json_round v = r ->
  match r with
  | Ok _ => True
  | Raise e => (e = ETypeErr /\ ~ json_data any_scalar v) \/ e = EValueErr
  | OOF => False
  end.
Proof. exact (round_errors v r). Qed.
Print Assumptions C108_errors.

(** What comes back unchanged; what has come back once stays as it is; the keys stay. *)
Theorem C108_exact v : json_round v = Ok v <-> json_data exact_scalar v.
Proof. exact (round_same v). Qed.
Print Assumptions C108_exact.
Theorem C108_settles v w : json_round v = Ok w -> json_round w = Ok w.
Proof. exact (round_settles v w). Qed.
Print Assumptions C108_settles.
Theorem C108_keys d w : json_round (VDict d) = Ok w -> exists d', w = VDict d' /\ dkeys d' = dkeys d.
Proof. exact (round_keys d w). Qed.
Print Assumptions C108_keys.

Example C108_values : json_data exact_scalar (VDict j_dict)
  /\ json_round (VStr [55296; 56320]) = Ok (VStr [65536]) /\ json_round (VStr [56320; 55296]) = Ok (VStr [56320; 55296])
  /\ json_round (VStr [55296; 55296; 56320; 56320]) = Ok (VStr [55296; 65536; 56320]).
Proof. exact (conj j_dict_exact surrogates_join). Qed.

(** Instances whose values are such data, or instances of such classes. *)
Theorem C108_instance E Q m cid vals keep d : json_classes E writable (fun _ _ => True) Q -> Q cid ->
  Forall (fun kv => json_ready writable Q (snd kv)) vals -> to_dict E m cid vals keep = Ok d ->
  exists d', json_round (VDict d) = Ok (VDict d') /\ dkeys d' = dkeys d.
Proof. exact (instance_writable E Q m cid vals keep d). Qed.
Print Assumptions C108_instance.

(** Loaded instances: with numbers and text there is no TypeError, ... *)
Theorem C108_loaded_no_type_error E Q n m cid ctx s s' vals keep d : json_classes E any_scalar numbers_and_text Q -> Q cid ->
  bytes_ok (rest s) -> struct_from_stream E n cid ctx [] s = (s', Ok vals) -> to_dict E m cid vals keep = Ok d ->
  json_round (VDict d) <> Raise ETypeErr.
Proof. exact (loaded_no_type_error E Q n m cid ctx s s' vals keep d). Qed.
Print Assumptions C108_loaded_no_type_error.

(** ... with integers of limited size no error at all, ... *)
Theorem C108_loaded_writable E Q n m cid ctx s s' vals keep d : json_classes E writable limited_numbers Q -> Q cid ->
  bytes_ok (rest s) -> struct_from_stream E n cid ctx [] s = (s', Ok vals) -> to_dict E m cid vals keep = Ok d ->
  exists d', json_round (VDict d) = Ok (VDict d') /\ dkeys d' = dkeys d.
Proof. exact (loaded_writable E Q n m cid ctx s s' vals keep d). Qed.
Print Assumptions C108_loaded_writable.

(** ... and without floats everything comes back. *)
Theorem C108_loaded_exact E Q n m cid ctx s s' vals keep d : json_classes E exact_scalar exact_leaves Q -> Q cid ->
  bytes_ok (rest s) -> struct_from_stream E n cid ctx [] s = (s', Ok vals) -> to_dict E m cid vals keep = Ok d ->
  json_round (VDict d) = Ok (VDict d).
Proof. exact (loaded_exact E Q n m cid ctx s s' vals keep d). Qed.
Print Assumptions C108_loaded_exact.

Example C108_loaded_nonvacuous : json_classes j_classes exact_scalar exact_leaves j_set
  /\ json_classes j_classes writable limited_numbers j_set /\ json_classes j_classes any_scalar numbers_and_text j_set
  /\ j_set 1 /\ bytes_ok (rest j_stream)
  /\ struct_from_stream j_classes 6 1 VNone [] j_stream = (mkStream [2; 7; 72; 105; 8; 195; 169; 0] 8, Ok j_vals)
  /\ to_dict j_classes 6 1 j_vals false = Ok j_dict
  /\ Forall (fun kv => json_ready writable j_set (snd kv)) j_vals
  /\ json_classes j_classes writable (fun _ _ => True) j_set.
Proof.
  exact (conj j_exact (conj j_writable (conj j_any (conj (or_intror eq_refl) (conj j_bytes (conj j_loads (conj j_to_dict (conj j_ready j_all)))))))).
Qed.

(** A struct made from what comes back dumps the same bytes. *)
Theorem C108_restored E n cid vals d ctx : instance_of E cid vals -> to_dict E n cid vals false = Ok d ->
  (forall name f x, In (name, f) (k_comps (cls E cid)) -> dget d name = Some x ->
     x <> VNotPresent -> run_struct E n cid d (c_present (conf f) VNone None) = Ok true) ->
  (forall name f, In (name, f) (k_comps (cls E cid)) -> c_discard (conf f) = true ->
     exists v, run_struct E n cid d (compute_value_for_dump (conf f) VNone) = Ok v) ->
  validated E n cid vals -> validated E n cid d -> json_data exact_scalar (VDict d) ->
  exists d', json_round (VDict d) = Ok (VDict d') /\ struct_init E cid d' = Ok d'
    /\ struct_to_stream E n cid d' ctx = struct_to_stream E n cid vals ctx.
Proof. exact (restored_through E n cid vals d ctx). Qed.
Print Assumptions C108_restored.

Theorem C108_loaded_restored E Q n m cid ctx ctx' s s' vals d : json_classes E exact_scalar exact_leaves Q -> Q cid ->
  (forall name f, In (name, f) (k_comps (cls E cid)) -> c_discard (conf f) = false) ->
  bytes_ok (rest s) -> struct_from_stream E m cid ctx [] s = (s', Ok vals) -> to_dict E n cid vals false = Ok d ->
  validated E n cid vals -> validated E n cid d ->
  exists d', json_round (VDict d) = Ok (VDict d') /\ struct_init E cid d' = Ok d'
    /\ struct_to_stream E n cid d' ctx' = struct_to_stream E n cid vals ctx'.
Proof. exact (loaded_restored E Q n m cid ctx ctx' s s' vals d). Qed.
Print Assumptions C108_loaded_restored.

Example C108_restored_nonvacuous : j_set 0
  /\ struct_from_stream j_classes 6 0 VNone [] j_small = (mkStream [7; 72; 105] 3, Ok j_entry)
  /\ to_dict j_classes 6 0 j_entry false = Ok j_entry /\ validated j_classes 6 0 j_entry /\ bytes_ok (rest j_small)
  /\ (forall name f, In (name, f) (k_comps (cls j_classes 0)) -> c_discard (conf f) = false)
  /\ struct_to_stream j_classes 6 0 j_entry VNone = ([7; 72; 105], Ok tt).
Proof. exact (conj (or_introl eq_refl) j_entry_loads). Qed.

(** The sentence of the change log does not hold in general: bytes cannot be written (nor UUIDs and
    timestamps), nor can a field that is not present. *)
Theorem C108_always_refuted : ~ (forall E n m cid ctx s s' vals d, struct_from_stream E n cid ctx [] s = (s', Ok vals) ->
  to_dict E m cid vals false = Ok d -> exists w, json_round (VDict d) = Ok w).
Proof. exact always_writable_refuted. Qed.
Print Assumptions C108_always_refuted.
Example C108_not_present :
  struct_from_stream j_classes 6 4 VNone [] (mkStream [0] 0) = (mkStream [0] 1, Ok [("flag"%string, VInt 0); ("x"%string, VNotPresent)])
  /\ to_dict j_classes 6 4 [("flag"%string, VInt 0); ("x"%string, VNotPresent)] false = Ok [("flag"%string, VInt 0); ("x"%string, VNotPresent)]
  /\ json_round (VDict [("flag"%string, VInt 0); ("x"%string, VNotPresent)]) = Raise ETypeErr.
Proof. exact flagged_fails. Qed.

(** What could be written need not dump the same bytes: the payload of a NaN is lost. *)
Theorem C108_same_dump_refuted : ~ (forall E n cid ctx s s' vals d d', struct_from_stream E n cid ctx [] s = (s', Ok vals) ->
  to_dict E n cid vals false = Ok d -> json_round (VDict d) = Ok (VDict d') ->
  struct_to_stream E n cid d' ctx = struct_to_stream E n cid vals ctx).
Proof. exact same_dump_refuted. Qed.
Print Assumptions C108_same_dump_refuted.
