(** Property theorems: the wire format (C75).  Specification vocabulary: SpecWire.v. *)
From Verif Require Import Samples WireWitness.

(** C75: a field dumps a value if and only if the documented format has bytes for it, and then
    to those bytes. *)
Theorem C75_field : forall E d f v ctx bs, regular E d f v ->
  (dumps_to E f v ctx d bs <-> wire E d f v bs).
Proof. exact field_iff. Qed.
Print Assumptions C75_field.

(** So does an instance, if its validators pass; [d] is what [to_dict()] gives. *)
Theorem C75_struct : forall E cid vals d ctx bs n0,
  to_dict E n0 cid vals false = Ok d -> regular_struct E cid d ->
  ((exists n, struct_to_stream E n cid vals ctx = (bs, Ok tt))
   <-> (exists n, validated E n cid vals) /\ wire_fields E d (k_comps (cls E cid)) bs).
Proof. exact dumped_iff. Qed.
Print Assumptions C75_struct.

(** For an instance holding plain data there is nothing left to compute. *)
Theorem C75_instance : forall E cid m ctx bs, regular_struct E cid m ->
  ((exists n, struct_to_stream E n cid m ctx = (bs, Ok tt))
   <-> all_accepted (cls E cid) m /\ wire_fields E m (k_comps (cls E cid)) bs).
Proof. exact instance_iff. Qed.
Print Assumptions C75_instance.

(** The documented format is unambiguous for the writer: it allows one sequence of bytes. *)
Theorem C75_unique : forall E cid d bs bs', regular_struct E cid d ->
  wire_fields E d (k_comps (cls E cid)) bs -> wire_fields E d (k_comps (cls E cid)) bs' -> bs = bs'.
Proof. exact wire_unique. Qed.
Print Assumptions C75_unique.

(** And for the reader: bytes made by the documented format, by whatever program, load as the
    data they stand for (the conditions [holds_struct] are those of C27). *)
Theorem C75_read : forall E last cid m bs, regular_struct E cid m -> holds_struct E last cid m ->
  all_accepted (cls E cid) m -> wire_fields E m (k_comps (cls E cid)) bs ->
  exists vals d, instance_of E cid vals /\ same_data (VDict m) (VDict d)
    /\ (forall ctx pre suf, (last = true -> suf = []) -> exists N, forall n, (N <= n)%nat ->
          struct_from_stream E n cid ctx [] (at_data pre bs suf) = (after_data pre bs suf, Ok vals))
    /\ exists N, forall n, (N <= n)%nat -> to_dict E n cid vals false = Ok d.
Proof. exact wire_reads. Qed.
Print Assumptions C75_read.

Example C75_example : to_dict round_E 9 0 round_vals false = Ok round_dict
  /\ regular_struct round_E 0 round_dict /\ holds_struct round_E true 0 round_dict
  /\ all_accepted (cls round_E 0) round_dict
  /\ wire_fields round_E round_dict (k_comps (cls round_E 0)) round_bytes.
Proof.
  split; [exact round_to_dict|]. split; [exact round_regular|]. split; [exact round_holds|].
  split; [exact round_accepted|].
  exact (proj2 (proj1 (C75_struct round_E 0 _ _ VNone _ 9 round_to_dict round_regular)
                  (ex_intro _ 9%nat round_dump))).
Qed.

Example C75_inner_example :
  wire_fields round_E (inner_val 300 [97; 98]) (k_comps inner_class) [172; 2; 97; 98; 0]
  /\ regular round_E round_dict item VNone
  /\ wire round_E round_dict item VNone [128; 0]
  /\ wire round_E round_dict item (VInt (-2)) [255; 254].
Proof. exact (conj inner_wire (conj item_regular (conj item_none item_negative))). Qed.

Example C75_leaf_example :
  wire round_E [] (Field (basic "f" (SInt 4)) (KFloat binary32 Big))
    (VFloat 4609434218613702656) [63; 192; 0; 0]
  /\ wire round_E [] (Field (basic "ms" (SInt 8)) (KTime ResMs true true Big))
       (VTime (1700000000 * 1000000) true) [0; 0; 1; 139; 207; 229; 104; 0]
  /\ wire round_E [] (Field (basic "u" (SInt 16)) (KUuid BINARY_VARIANT_2))
       (VUUID 5233100606242806050955395731361296) [3; 2; 1; 0; 5; 4; 7; 6; 8; 9; 10; 11; 12; 13; 14; 16].
Proof. exact (conj float_wire (conj time_wire uuid_wire)). Qed.
