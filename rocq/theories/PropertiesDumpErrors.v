(** C74: which exceptions a dump raises.
    Model: StructModel.v, FieldModel.v.  Vocabulary: SpecDump.v. *)
From Verif Require Import DumpWitness.
Open Scope Z_scope.

(** Values of the right type and callables that raise nothing outside [A] (which includes
    what encoding text and packing narrow floats may raise): a dump ends normally, or with an
    error of the library, or with an exception in [A]. *)
Theorem C74_struct : forall A E, safe_schema A E -> forall n cid vals ctx out e,
  instance_of E cid vals -> values_fit E cid vals ->
  struct_to_stream E n cid vals ctx = (out, Raise e) -> reported e \/ A e.
Proof. exact struct_dump_err. Qed.
Print Assumptions C74_struct.

Theorem C74_to_bytes : forall A E, safe_schema A E -> forall n cid vals ctx e,
  instance_of E cid vals -> values_fit E cid vals ->
  struct_to_bytes E n cid vals ctx = Raise e -> reported e \/ A e.
Proof. exact struct_bytes_err. Qed.
Print Assumptions C74_to_bytes.

Theorem C74_field : forall A E, safe_schema A E -> forall n cid f v ctx d out e,
  safe A (counter E cid) f -> values_fit E cid d -> typed E f v ->
  field_to_stream E n f v ctx d = (out, Raise e) -> reported e \/ A e.
Proof. exact field_dump_err. Qed.
Print Assumptions C74_field.

Theorem C74_partial_dump : forall A E, safe_schema A E -> forall n cid vals last ctx out e,
  values_fit E cid vals -> (forall name, ~ In (name, VNotPresent) vals) ->
  (forall name f, In (name, f) (k_comps (cls E cid)) -> default_of (conf f) <> Ok VNotPresent) ->
  partial_dump E n cid vals last ctx = (out, Raise e) -> reported e \/ A e.
Proof. exact partial_dump_err. Qed.
Print Assumptions C74_partial_dump.

Theorem C74_validate : forall A E, safe_schema A E -> forall n cid vals e,
  values_fit E cid vals -> validate_contents E n cid vals = Raise e -> reported e \/ A e.
Proof. exact validate_only. Qed.
Print Assumptions C74_validate.

(** to_dict() raises nothing at all once every field can be read. *)
Theorem C74_to_dict : forall A E, safe_schema A E -> forall n cid vals keep e,
  instance_of E cid vals -> values_fit E cid vals ->
  (forall name, member E cid name -> exists v, struct_get E n cid vals name = Ok v) ->
  to_dict E n cid vals keep <> Raise e.
Proof. exact to_dict_never. Qed.
Print Assumptions C74_to_dict.

(** Without a value for [data], reading it raises MissingRequiredValueError as documented, but
    to_dict() raises the KeyError of the computed field that asks for it. *)
Theorem C74_incomplete_refuted : forall n keep,
  struct_get count_E (S n) 0 [] "data" = Raise (EMissingRequired (Some "data"%string))
  /\ to_dict count_E (S (S n)) 0 [] keep = Raise (EKeyErr "data").
Proof. exact (fun n keep => conj (missing_reported n) (to_dict_key_error n keep)). Qed.
Print Assumptions C74_incomplete_refuted.

(** The same KeyError comes out of to_bytes() of a struct around it. *)
Theorem C74_nested_incomplete_refuted : forall n ctx,
  struct_to_bytes count_E (S (S (S n))) 1 [("inner"%string, VStruct 0 [])] ctx = Raise (EKeyErr "data").
Proof. exact nested_key_error. Qed.
Print Assumptions C74_nested_incomplete_refuted.

(** partial_dump() of a struct with an absent field, as loading leaves it, raises
    AttributeError when it reaches the field. *)
Theorem C74_not_present_refuted : forall n last ctx,
  partial_dump [class_of "Tail" tail_fields] n 0 [("flag"%string, VInt 0); ("extra"%string, VNotPresent)] last ctx
  = (if match last with Some l => String.eqb "flag" l | None => false end then ([0], Ok tt) else ([0], Raise EAttrErr)).
Proof. exact partial_not_present. Qed.
Print Assumptions C74_not_present_refuted.

(** A computed count, data and an array of that size, a text, an optional byte in a nested
    struct, a discarded byte: a dump works, an item that does not fit is reported, and a text
    that is not ASCII raises the one exception that [only_text] allows. *)
Example C74_example : safe_schema only_text packet_E
  /\ (forall item text, instance_of packet_E 1 (packet item text) /\ values_fit packet_E 1 (packet item text))
  /\ struct_to_bytes packet_E 9 1 (packet 2 [65]) VNone = Ok [2; 7; 8; 1; 2; 65; 0; 0; 0]
  /\ struct_to_bytes packet_E 9 1 (packet 256 [65]) VNone = Raise (EUnserializable (Some "items"%string))
  /\ struct_to_bytes packet_E 9 1 (packet 2 [233]) VNone = Raise EUnicodeEncode.
Proof.
  split; [exact packet_schema|]. split; [exact packet_values|]. repeat split; vm_compute; reflexivity.
Qed.
