(** C79: Arrays with their own halt check, sentinels, and what Arrays make of iterables. *)
From Coq Require Import ZArith List String.
From Verif Require Import Tac Samples RoundWitness HaltWitness.
From Verif Require Export HaltProofs.
Import ListNotations.
Open Scope Z_scope.

(** C79: the check is asked before every element, with the stream, the elements so far, the context
    and the fields loaded before; the list it hands back is carried on with; [count] plays no part. *)
Theorem C79_halt_check : forall E c comp cnt h ctx d s s' v, always_present c ->
  c_null c = VUndefined -> c_const c = VUndefined ->
  loads_to E (Field c (KArray comp cnt (Some h))) ctx d s s' v
  <-> accepts c v /\ exists vs, v = VList vs /\ halted E comp h ctx d [] s s' vs.
Proof. exact halt_check_loads. Qed.
Print Assumptions C79_halt_check.

(** Exceptions of the check and of the elements come out, deserialization errors under the name of
    the array. *)
Theorem C79_halt_errors : forall E c comp cnt h ctx d s x, always_present c ->
  c_null c = VUndefined -> c_const c = VUndefined -> c_validators c = [] ->
  load_raises E (Field c (KArray comp cnt (Some h))) ctx d s x
  <-> exists e, halt_fails E comp h ctx d [] s e /\ renamed (c_name c) e x.
Proof. exact halt_check_raises. Qed.
Print Assumptions C79_halt_errors.

(** A check that stops after a sentinel, keeping it or removing it. *)
Theorem C79_sentinel : forall E c comp cnt last ctx d s s1 s' vs v, always_present c ->
  c_null c = VUndefined -> c_const c = VUndefined ->
  Forall (fun x => last x = false) vs -> last v = true -> v <> VNotPresent ->
  read_all E comp ctx d vs s s1 -> loads_to E comp ctx d s1 s' v ->
  (accepts c (VList (vs ++ [v])) ->
   loads_to E (Field c (KArray comp cnt (Some (sentinel_kept last)))) ctx d s s' (VList (vs ++ [v])))
  /\ (accepts c (VList vs) ->
      loads_to E (Field c (KArray comp cnt (Some (sentinel_removed last)))) ctx d s s' (VList vs)).
Proof. exact sentinel_loads. Qed.
Print Assumptions C79_sentinel.

Theorem C79_sentinel_loaded : forall E c comp cnt last ctx d s s' v, always_present c ->
  c_null c = VUndefined -> c_const c = VUndefined ->
  loads_to E (Field c (KArray comp cnt (Some (sentinel_kept last)))) ctx d s s' v ->
  exists vs w, v = VList (vs ++ [w]) /\ Forall (fun x => last x = false) vs /\ last w = true.
Proof. exact sentinel_loaded. Qed.
Print Assumptions C79_sentinel_loaded.

Theorem C79_sentinel_removed : forall E c comp cnt last ctx d s s' v, always_present c ->
  c_null c = VUndefined -> c_const c = VUndefined ->
  loads_to E (Field c (KArray comp cnt (Some (sentinel_removed last)))) ctx d s s' v ->
  exists vs, v = VList vs /\ Forall (fun x => last x = false) vs.
Proof. exact sentinel_removed_loaded. Qed.
Print Assumptions C79_sentinel_removed.

(** "ab", "é" and the empty name, then a byte: loaded with the sentinel kept and removed; the data
    that ends too early. *)
Example C79_example :
  struct_from_stream list_E 9 0 VNone [] (mkStream kept_bytes 0) = (mkStream kept_bytes 8, Ok kept_vals)
  /\ struct_from_stream list_E 9 1 VNone [] (mkStream kept_bytes 0) = (mkStream kept_bytes 8, Ok removed_vals)
  /\ load_raises list_E (names_of (sentinel_kept blank)) VNone [] (mkStream [97; 0] 0)
       (EDeserialization (Some "names"%string))
  /\ accepts (basic "names" SNone) (VList [VStr [97; 98]; VStr [233]; VStr []])
  /\ blank (VStr []) = true /\ blank (VStr [97]) = false.
Proof.
  split; [exact kept_load|]. split; [exact removed_load|]. split.
  - exists 9%nat, (mkStream [97; 0] 2). vm_compute. reflexivity.
  - repeat split. constructor.
Qed.

(** Arrays whose check keeps the sentinel round trip (C27 and C76 cover them). *)
Example C79_round_trip :
  instance_of list_E 0 kept_vals /\ to_dict list_E 9 0 kept_vals false = Ok kept_vals
  /\ holds_struct list_E false 0 kept_vals
  /\ struct_to_stream list_E 9 0 kept_vals VNone = (kept_bytes, Ok tt).
Proof. exact (conj kept_instance (conj kept_to_dict (conj kept_holds kept_dump))). Qed.

(** Arrays whose check removes it do not: it is not written again, and what is written cannot be
    loaded. *)
Theorem C79_removed_round_trip_refuted :
  ~ (forall E n cid bs vals out, struct_from_stream E n cid VNone [] (mkStream bs 0) = (mkStream bs (length bs), Ok vals) ->
     struct_to_stream E n cid vals VNone = (out, Ok tt) ->
     struct_from_stream E n cid VNone [] (mkStream out 0) = (mkStream out (length out), Ok vals)).
Proof. exact removed_not_round. Qed.
Print Assumptions C79_removed_round_trip_refuted.

(** An array is given any iterable: bytes, text and dicts are dumped as the list of their elements. *)
Theorem C79_iterable : forall E n c comp cnt halt v l ctx d, iterates v l -> c_validators c = [] ->
  field_to_stream E n (Field c (KArray comp cnt halt)) v ctx d
  = field_to_stream E n (Field c (KArray comp cnt halt)) (VList l) ctx d.
Proof. exact iterable_dumps. Qed.
Print Assumptions C79_iterable.

Example C79_iterable_example :
  let f := names_of (sentinel_kept blank) in
  iterates (VDict kept_vals) [VStr [110; 97; 109; 101; 115]; VStr [116; 97; 105; 108]]
  /\ field_to_stream list_E 9 f (VDict kept_vals) VNone [] = ([110; 97; 109; 101; 115; 0; 116; 97; 105; 108; 0], Ok tt)
  /\ field_to_stream list_E 9 f (VStr [97; 98]) VNone [] = ([97; 0; 98; 0], Ok tt).
Proof. split; [exact (it_dict kept_vals)|]. vm_compute. auto. Qed.
