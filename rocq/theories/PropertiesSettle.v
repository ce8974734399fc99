(** Property theorems: data rewritten by loading and dumping it is read as the same instance
    (C87).  Specification vocabulary: SpecSettle.v, SpecCanon.v and SpecLocal.v. *)
From Coq Require Import String ZArith List.
From Verif Require Import LocalWitness SettleWitness.
Import ListNotations.
Open Scope string_scope.
Open Scope list_scope.
Open Scope Z_scope.

(** C87: whatever a settling class loads can be dumped, and the dump, wherever it stands, is
    loaded as the same instance, byte for byte to its end.  If the data ended with the instance,
    the dump must end the data too: an array without count or a StringZ may read to the end. *)
Theorem C87_settles : forall E, settling_schema E -> forall n cid ctx s s1 vals,
  bytes_ok (rest s) -> nan_free (VStruct cid vals) ->
  struct_from_stream E n cid ctx [] s = (s1, Ok vals) ->
  exists bs N, (forall n' ctx', (N <= n')%nat -> struct_to_stream E n' cid vals ctx' = (bs, Ok tt))
    /\ forall n' ctx' s' suf, (N <= n')%nat -> rest s' = bs ++ suf -> (rest s1 = [] -> suf = []) ->
         struct_from_stream E n' cid ctx' [] s' = (advance s' (length bs), Ok vals).
Proof. exact settling_struct. Qed.
Print Assumptions C87_settles.

(** The same for from_bytes and to_bytes: rewriting twice is rewriting once. *)
Theorem C87_bytes : forall E n cid data ctx exact vals, settling_schema E -> bytes_ok data ->
  nan_free (VStruct cid vals) -> struct_from_bytes E n cid data ctx exact [] = Ok vals ->
  exists bs N, forall n' ctx' exact', (N <= n')%nat -> struct_to_bytes E n' cid vals ctx' = Ok bs
    /\ struct_from_bytes E n' cid bs ctx' exact' [] = Ok vals.
Proof. exact settling_bytes. Qed.
Print Assumptions C87_bytes.

(** A stream of structs, all rewritten, is read as the same structs. *)
Theorem C87_stream : forall E n cid ctx s l s1, settling_schema E -> bytes_ok (rest s) ->
  Forall (fun vals => nan_free (VStruct cid vals)) l -> reads_all E n cid ctx s l s1 ->
  exists bss N, (forall n' ctx', (N <= n')%nat ->
      Forall2 (fun vals bs => struct_to_stream E n' cid vals ctx' = (bs, Ok tt)) l bss)
    /\ forall n' ctx' s' suf, (N <= n')%nat -> rest s' = concat bss ++ suf -> (rest s1 = [] -> suf = []) ->
         reads_all E n' cid ctx' s' l (advance s' (length (concat bss))).
Proof. exact settling_stream. Qed.
Print Assumptions C87_stream.

(** A nullable variable-length integer: a longer form of the null value is a number, which is
    written as the null value. *)
Theorem C87_nullable_refuted : exists E n cid c data vals bs vals', bytes_ok data
  /\ k_comps (cls E cid) = [("x", Field c (KVli ULEB128 None))] /\ c_null c <> VUndefined
  /\ struct_from_bytes E n cid data VNone true [] = Ok vals
  /\ struct_to_bytes E n cid vals VNone = Ok bs
  /\ struct_from_bytes E n cid bs VNone true [] = Ok vals' /\ vals' <> vals.
Proof.
  destruct null_vli_rewritten as (H1 & H2 & H3).
  exists null_vli_E, 9%nat, 0%nat. do 5 eexists. split; [apply (bytes_ok_check [128; 0]); reflexivity|].
  split; [reflexivity|]. split; [discriminate|]. split; [exact H1|]. split; [exact H2|]. split; [exact H3|discriminate].
Qed.
Print Assumptions C87_nullable_refuted.

(** max_bytes of a variable-length integer is checked when it is dumped, not when it is loaded. *)
Theorem C87_max_bytes_refuted : exists E n cid c m data vals e, bytes_ok data
  /\ k_comps (cls E cid) = [("x", Field c (KVli ULEB128 (Some m)))]
  /\ struct_from_bytes E n cid data VNone true [] = Ok vals
  /\ struct_to_bytes E n cid vals VNone = Raise e.
Proof.
  destruct short_vli_rewritten as (H1 & e & H2).
  exists short_vli_E, 9%nat, 0%nat. do 5 eexists. split; [apply (bytes_ok_check [128; 1]); reflexivity|].
  split; [reflexivity|]. split; [exact H1|exact H2].
Qed.
Print Assumptions C87_max_bytes_refuted.

(** A timestamp in microseconds is truncated as a float, so it loses a microsecond, and may lose
    another one every time it is rewritten. *)
Theorem C87_timestamps_refuted : exists E n cid c tz sg e v0 b0 b1 b2 v1, bytes_ok b0
  /\ k_comps (cls E cid) = [("t", Field c (KTime ResUs tz sg e))]
  /\ struct_from_bytes E n cid b0 VNone true [] = Ok v0 /\ struct_to_bytes E n cid v0 VNone = Ok b1
  /\ struct_from_bytes E n cid b1 VNone true [] = Ok v1 /\ struct_to_bytes E n cid v1 VNone = Ok b2
  /\ v1 <> v0 /\ b1 <> b0 /\ b2 <> b1.
Proof.
  destruct stamp_rewritten as (H1 & H2 & H3 & H4).
  exists stamp_E, 9%nat, 0%nat. do 9 eexists. split; [apply (bytes_ok_check [79; 15; 0; 0]); reflexivity|].
  split; [reflexivity|]. split; [exact H1|]. split; [exact H2|]. split; [exact H3|]. split; [exact H4|].
  repeat split; discriminate.
Qed.
Print Assumptions C87_timestamps_refuted.

(** A class with every kind of field with several forms; the data hold other forms than those
    written. *)
Example C87_example : settling_schema forms_E /\ bytes_ok forms_data
  /\ nan_free (VStruct 0 forms_fields)
  /\ struct_from_bytes forms_E 12 0 forms_data VNone true [] = Ok forms_fields
  /\ struct_to_bytes forms_E 12 0 forms_fields VNone = Ok forms_kept /\ forms_kept <> forms_data
  /\ struct_from_bytes forms_E 12 0 forms_kept VNone true [] = Ok forms_fields.
Proof.
  destruct forms_load as (H1 & H2 & H3).
  split; [exact forms_settling|]. split; [apply bytes_ok_check; reflexivity|].
  split; [exact forms_nan_free|]. split; [exact H1|]. split; [exact H2|]. split; [discriminate|exact H3].
Qed.
