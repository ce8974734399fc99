(** Property theorem: struct round trip (C27).  Specification vocabulary: SpecRound.v. *)
From Verif Require Import RoundWitness.

(** C27: loading the dumped bytes, whatever surrounds them, succeeds, consumes exactly them
    and gives an instance with the same [to_dict()] contents.  With [last] nothing may
    follow the bytes, and the last field may be an array reading to the end of the data. *)
Theorem C27_struct_roundtrip : forall E n last cid vals ctx bs d,
  instance_of E cid vals ->
  struct_to_stream E n cid vals ctx = (bs, Ok tt) -> to_dict E n cid vals false = Ok d ->
  holds_struct E last cid d ->
  exists vals' d', instance_of E cid vals' /\ same_data (VDict d) (VDict d')
    /\ (forall ctx' pre suf, (last = true -> suf = []) -> exists N, forall n', (N <= n')%nat ->
          struct_from_stream E n' cid ctx' [] (at_data pre bs suf)
          = (after_data pre bs suf, Ok vals'))
    /\ exists N, forall n', (N <= n')%nat -> to_dict E n' cid vals' false = Ok d'.
Proof. exact struct_roundtrip. Qed.
Print Assumptions C27_struct_roundtrip.

(** The same through [to_bytes] and [from_bytes(exact=True)]. *)
Theorem C27_bytes_roundtrip : forall E n last cid vals ctx bs d,
  instance_of E cid vals ->
  struct_to_stream E n cid vals ctx = (bs, Ok tt) -> to_dict E n cid vals false = Ok d ->
  holds_struct E last cid d ->
  exists vals' d', same_data (VDict d) (VDict d')
    /\ forall ctx', exists N, forall n', (N <= n')%nat ->
         struct_to_bytes E n cid vals ctx = Ok bs
         /\ struct_from_bytes E n' cid bs ctx' true [] = Ok vals'
         /\ to_dict E n' cid vals' false = Ok d'.
Proof. exact bytes_roundtrip. Qed.
Print Assumptions C27_bytes_roundtrip.

Example C27_example :
  instance_of round_E 0 round_vals
  /\ struct_to_stream round_E 9 0 round_vals VNone = (round_bytes, Ok tt)
  /\ to_dict round_E 9 0 round_vals false = Ok round_dict
  /\ holds_struct round_E true 0 round_dict.
Proof. exact (conj round_instance (conj round_dump (conj round_to_dict round_holds))). Qed.

Example C27_numbers_example :
  instance_of numbers_E 0 numbers_vals
  /\ struct_to_stream numbers_E 9 0 numbers_vals VNone = (numbers_bytes, Ok tt)
  /\ to_dict numbers_E 9 0 numbers_vals false = Ok numbers_vals
  /\ holds_struct numbers_E true 0 numbers_vals.
Proof. exact (conj numbers_instance (conj numbers_dump (conj numbers_to_dict numbers_holds))). Qed.
