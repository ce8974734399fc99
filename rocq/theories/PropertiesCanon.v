(** Property theorems: dumping what was loaded reproduces the data (C63).  Specification
    vocabulary: SpecCanon.v. *)
From Verif Require Import LocalWitness CanonWitness.

(** C63: whatever a canonical class loads, dumping it writes exactly the bytes it consumed. *)
Theorem C63_redump : forall E, canonical_schema E -> forall n cid ctx s s1 vals,
  bytes_ok (rest s) -> nan_free (VStruct cid vals) ->
  struct_from_stream E n cid ctx [] s = (s1, Ok vals) ->
  exists bs, rest s = bs ++ rest s1 /\ s1 = advance s (length bs)
    /\ exists N, forall n' ctx', (N <= n')%nat -> struct_to_stream E n' cid vals ctx' = (bs, Ok tt).
Proof. exact canonical_struct. Qed.
Print Assumptions C63_redump.

(** With [exact], from_bytes ignores at most one byte at the end. *)
Theorem C63_bytes : forall E n cid data ctx exact vals, canonical_schema E -> bytes_ok data ->
  nan_free (VStruct cid vals) -> struct_from_bytes E n cid data ctx exact [] = Ok vals ->
  exists bs suf, data = bs ++ suf /\ (exact = true -> (length suf <= 1)%nat)
    /\ exists N, forall n' ctx', (N <= n')%nat -> struct_to_bytes E n' cid vals ctx' = Ok bs.
Proof. exact redump_bytes. Qed.
Print Assumptions C63_bytes.

(** Different data never load as the same instance. *)
Theorem C63_injective : forall E n n' cid ctx ctx' s s' s1 s1' vals, canonical_schema E ->
  bytes_ok (rest s) -> bytes_ok (rest s') -> nan_free (VStruct cid vals) ->
  struct_from_stream E n cid ctx [] s = (s1, Ok vals) ->
  struct_from_stream E n' cid ctx' [] s' = (s1', Ok vals) ->
  exists bs, rest s = bs ++ rest s1 /\ rest s' = bs ++ rest s1'.
Proof. exact redump_injective. Qed.
Print Assumptions C63_injective.

(** The same via to_dict and a new instance. *)
Theorem C63_dict : forall E n cid ctx s s1 vals, canonical_schema E -> bytes_ok (rest s) ->
  nan_free (VStruct cid vals) -> struct_from_stream E n cid ctx [] s = (s1, Ok vals) ->
  exists bs d N, rest s = bs ++ rest s1
    /\ recursive_to_dicts E N (VStruct cid vals) = Ok (VDict d)
    /\ struct_init E cid d = Ok d
    /\ forall n' ctx', (N <= n')%nat -> struct_to_stream E n' cid d ctx' = (bs, Ok tt).
Proof. exact redump_dict. Qed.
Print Assumptions C63_dict.

(** Variable-length integers and UUIDs in text form have several representations. *)
Theorem C63_forms_refuted :
  (exists E n cid data vals bs, bytes_ok data /\ k_comps (cls E cid) = [("x"%string, Field (basic "x" SNone) (KVli ULEB128 None))]
     /\ struct_from_bytes E n cid data VNone true [] = Ok vals
     /\ struct_to_bytes E n cid vals VNone = Ok bs /\ bs <> data)
  /\ exists E n cid data vals bs, bytes_ok data /\ k_comps (cls E cid) = [("x"%string, Field (basic "x" (SInt 32)) (KUuid HEX_STRING))]
     /\ struct_from_bytes E n cid data VNone true [] = Ok vals
     /\ struct_to_bytes E n cid vals VNone = Ok bs /\ bs <> data.
Proof.
  destruct not_canonical_loads as [[Hl Hd] [Hl' Hd']]. split.
  - exists vli_E, 9%nat, 0%nat. do 3 eexists. split; [apply (bytes_ok_check [128; 0]); reflexivity|].
    split; [reflexivity|]. split; [exact Hl|]. split; [exact Hd|]. discriminate.
  - exists text_uuid_E, 9%nat, 0%nat. do 3 eexists.
    split; [apply (bytes_ok_check (repeat 48 31 ++ [65])); reflexivity|].
    split; [reflexivity|]. split; [exact Hl'|]. split; [exact Hd'|]. discriminate.
Qed.
Print Assumptions C63_forms_refuted.

(** A nested struct with an absent optional field loads, but cannot be dumped: Nested declares
    the size of the struct with all its fields. *)
Theorem C63_nested_optional_refuted : exists E n cid f inner size data vals e, bytes_ok data
  /\ In f (k_comps (cls E cid)) /\ kind (snd f) = KNested inner
  /\ c_size (conf (snd f)) = SInt size /\ get_size E n inner = Ok (Some size)
  /\ struct_from_bytes E n cid data VNone true [] = Ok vals
  /\ struct_to_bytes E n cid vals VNone = Raise e.
Proof.
  destruct nested_opt_loads as (Hs & Hl & Hd).
  exists nested_opt_E, 9%nat, 0%nat. eexists (_, Field _ _), 1%nat, 3, [0]. do 2 eexists.
  split; [apply bytes_ok_check; reflexivity|]. split; [left; reflexivity|]. split; [reflexivity|].
  split; [reflexivity|]. split; [exact Hs|]. split; [exact Hl|exact Hd].
Qed.
Print Assumptions C63_nested_optional_refuted.

Example C63_example : canonical_schema record_E /\ bytes_ok record_1 /\ bytes_ok record_2
  /\ nan_free (VStruct 0 fields_1) /\ nan_free (VStruct 0 fields_2)
  /\ struct_from_bytes record_E 9 0 record_1 VNone true [] = Ok fields_1
  /\ struct_from_bytes record_E 9 0 record_2 VNone true [] = Ok fields_2.
Proof.
  split; [exact record_canonical|]. do 2 (split; [apply bytes_ok_check; reflexivity|]).
  split; [exact (proj1 records_nan_free)|]. split; [exact (proj2 records_nan_free)|exact records_load].
Qed.
